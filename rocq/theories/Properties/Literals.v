(** The match duration taken from the statistics, for every text that may stand there: C50. *)
From Coq Require Import Reals Lra.
From Flocq Require Import Core.Core.
From Verif.Model Require Import Base Env Serverinfo Ktxstats Float Duration.
From Verif.Spec Require Import Occ Mvd Times Literal.
From Verif.Proofs Require Import BaseFacts LiteralFacts ExponentFacts.
From Verif.Properties Require Import Sample Times.
Open Scope N_scope.

(** C50 *)
Theorem stats_duration_number : forall E data s t neg m k,
  ktxstats_string E data = Ret (Ok s) -> duration_text s t -> number_text t neg m k ->
  ((0 <= double (real_of neg m k) < 18446744073709551616)%R ->
   exists d, match_duration_from_ktxstats E data = Ret (Ok d) /\
     Z.of_N d = ZnearestE (double (real_of neg m k) * 1000000000)) /\
  ((double (real_of neg m k) < 0 \/ 18446744073709551616 <= double (real_of neg m k))%R ->
   match_duration_from_ktxstats E data = Panic PDurationFrom).
Proof. exact stats_number_proof. Qed.

(** [number_text] takes an exponent of more than five digits for less than is written.  In a text of
    up to 65000 bytes this makes no difference: *)
Theorem stats_duration_written : forall E data s t neg m k,
  ktxstats_string E data = Ret (Ok s) -> duration_text s t -> written_text t neg m k -> len t <= 65000 ->
  ((0 <= double (real_of neg m k) < 18446744073709551616)%R ->
   exists d, match_duration_from_ktxstats E data = Ret (Ok d) /\
     Z.of_N d = ZnearestE (double (real_of neg m k) * 1000000000)) /\
  ((double (real_of neg m k) < 0 \/ 18446744073709551616 <= double (real_of neg m k))%R ->
   match_duration_from_ktxstats E data = Panic PDurationFrom).
Proof. exact stats_written_proof. Qed.

(** and in a longer one it may: this text says one second. *)
Theorem stats_duration_written_refuted : forall E, exists data s t,
  ktxstats_string E data = Ret (Ok s) /\ duration_text s t /\ written_text t false 1 0 /\
  double (real_of false 1 0) = 1%R /\ match_duration_from_ktxstats E data = Ret (Ok 0).
Proof. exact deep_refutes. Qed.

Theorem exponents_in_full : forall s e, (-655360 < e < 655360)%Z ->
  exponent_text (fun ds v => v = number ds) s e -> exponent_text taken s e.
Proof. exact in_full_proof. Qed.

Theorem stats_duration_special : forall E data s t,
  ktxstats_string E data = Ret (Ok s) -> duration_text s t ->
  (exists neg, infinity_text t neg) \/ nan_text t ->
  match_duration_from_ktxstats E data = Panic PDurationFrom.
Proof. exact stats_special_proof. Qed.

Theorem stats_duration_other : forall E data s t,
  ktxstats_string E data = Ret (Ok s) -> duration_text s t -> ~ float_text t ->
  match_duration_from_ktxstats E data = Ret (Err "invalid float literal").
Proof. exact stats_other_proof. Qed.

Theorem stats_duration_absent : forall E data s, ktxstats_string E data = Ret (Ok s) ->
  (forall t, ~ duration_text s t) ->
  match_duration_from_ktxstats E data = Ret (Err "Duration not found in ktxstats").
Proof. exact ktx_text_missing. Qed.

Theorem duration_text_one : forall s t u, duration_text s t -> duration_text s u -> t = u.
Proof. exact duration_text_unique. Qed.

(** what match_duration() does with each of these results *)
Theorem match_duration_source : forall E data r, serverinfo E data = Ret r ->
  (forall s, r = Ok s -> st_mode s <> Some (lit "hoonymode")) ->
  (forall d, match_duration_from_ktxstats E data = Ret (Ok d) -> match_duration E data = Ret (Ok d)) /\
  (forall e, match_duration_from_ktxstats E data = Ret (Err e) ->
     match_duration E data = match_duration_from_seeking E data) /\
  (forall p, match_duration_from_ktxstats E data = Panic p -> match_duration E data = Panic p).
Proof. exact match_source_proof. Qed.

(** every number up to 2^63 seconds is in range *)
Theorem double_range : forall x, (0 <= x <= 9223372036854775808)%R ->
  (0 <= double x < 18446744073709551616)%R.
Proof. exact double_range_proof. Qed.

(** The statistics say "+1.5e2", "-1", "1e20", "InF", "soon" and nothing. *)
Example literal_stats_text : ktxstats_string (sample true) (encode (stats_demo "+1.5e2")) =
    Ret (Ok (lit "{""version"": 3, ""duration"": +1.5e2, ""x"": 0}")) /\
  duration_text (lit "{""version"": 3, ""duration"": +1.5e2, ""x"": 0}") (lit "+1.5e2").
Proof.
  split; [vm_compute; reflexivity |]. exists (lit "{""version"": 3, "), (lit " ""x"": 0}").
  split; [reflexivity |]. split; [apply find_some; vm_compute; reflexivity |].
  split; [discriminate |]. intros H. simpl in H. intuition discriminate.
Qed.

Example literal_number : number_text (lit "+1.5e2") false 15 1.
Proof.
  exists (lit "+"), (lit "1.5"), (lit "e2"), 1, 2%Z. split; [reflexivity |]. split; [right; reflexivity |].
  split; [| split; [| reflexivity]].
  - exists [1], [5]. split; [repeat constructor |]. split; [repeat constructor |]. split; [discriminate |].
    split; [reflexivity |]. split; [reflexivity |]. right. reflexivity.
  - right. exists (lit "e"), [], false, [2], 2. split; [left; reflexivity |]. split; [left; reflexivity |].
    split; [repeat constructor |]. split; [discriminate |]. split; [reflexivity |]. split; [| reflexivity].
    exists [2], []. split; [reflexivity |]. split; [reflexivity |]. split; [left; reflexivity |].
    intros [| x a] b H NE; [reflexivity |]. injection H as _ H. symmetry in H. apply app_eq_nil in H.
    destruct H as [_ ->]. congruence.
Qed.

Example literal_written : written_text (lit "-.5E+655361") true 5 655360 /\
  number_text (lit "-.5E+655361") true 5 65535.
Proof.
  assert (D : forall (reading : list N -> N -> Prop) v, reading [6; 5; 5; 3; 6; 1] v ->
    decimal_text reading (lit "-.5E+655361") true 5 (Z.of_N v - 1)).
  { intros reading v R. exists (lit "-"), (lit ".5"), (lit "E+655361"), 1, (Z.of_N v).
    split; [reflexivity |]. split; [reflexivity |]. split; [| split; [| reflexivity]].
    - exists [], [5]. split; [constructor |]. split; [repeat constructor |]. split; [discriminate |].
      split; [reflexivity |]. split; [reflexivity |]. right. reflexivity.
    - right. exists (lit "E"), (lit "+"), false, [6; 5; 5; 3; 6; 1], v. split; [right; reflexivity |].
      split; [right; reflexivity |]. split; [repeat constructor |]. split; [discriminate |].
      split; [reflexivity |]. split; [exact R | reflexivity]. }
  split; [exact (D _ 655361 eq_refl) |]. apply (D taken 65536).
  exists [6; 5; 5; 3; 6], [1]. split; [reflexivity |]. split; [reflexivity |]. split; [right; discriminate |].
  intros a b H NE. do 5 (destruct a as [| ? a]; [reflexivity | injection H as <- H]).
  symmetry in H. apply app_eq_nil in H. destruct H as [_ ->]. congruence.
Qed.

Example literal_number_range : (0 <= double (real_of false 15 1) < 18446744073709551616)%R.
Proof. apply double_range. unfold real_of. simpl. lra. Qed.

Example literal_infinity : infinity_text (lit "-InF") true.
Proof.
  exists (lit "-"), (lit "InF"). split; [reflexivity |]. split; [reflexivity |]. left.
  repeat constructor; (left; reflexivity) || (right; reflexivity).
Qed.

Example literal_results :
  match_duration (sample true) (encode (stats_demo "+1.5e2")) = Ret (Ok 150000000000) /\
  match_duration (sample true) (encode (stats_demo "-0")) = Ret (Ok 0) /\
  match_duration (sample true) (encode (stats_demo "-1")) = Panic PDurationFrom /\
  match_duration (sample true) (encode (stats_demo "1e20")) = Panic PDurationFrom /\
  match_duration (sample true) (encode (stats_demo "-InF")) = Panic PDurationFrom /\
  match_duration (sample true) (encode (stats_demo "nan")) = Panic PDurationFrom /\
  match_duration_from_ktxstats (sample true) (encode (stats_demo "soon")) = Ret (Err "invalid float literal") /\
  match_duration (sample true) (encode (stats_demo "soon")) = Ret (Ok 0) /\
  match_duration_from_ktxstats (sample true) (encode (stats_demo "")) =
    Ret (Err "Duration not found in ktxstats").
Proof. vm_compute. auto 10. Qed.

Print Assumptions stats_duration_number.
Print Assumptions stats_duration_written.
Print Assumptions stats_duration_written_refuted.
Print Assumptions exponents_in_full.
Print Assumptions stats_duration_special.
Print Assumptions stats_duration_other.
Print Assumptions stats_duration_absent.
Print Assumptions duration_text_one.
Print Assumptions match_duration_source.
Print Assumptions double_range.
