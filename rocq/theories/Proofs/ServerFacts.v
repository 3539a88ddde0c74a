(** Facts about time stamps, file names, servers and decimal numerals. *)
From Coq Require Import Lia ZifyN ZifyBool Decimal DecimalFacts DecimalN DecimalString.
From Verif.Model Require Import Base Env Serverinfo Matchdate Ktxstats.
From Verif.Spec Require Import Occ Texts Times.
From Verif.Proofs Require Import BaseFacts TextFacts.
Open Scope N_scope.

(** ** timestamp() and filename() *)
Lemma timestamp_epoch_proof : forall E data info t, 1280 <= len data -> has_serverinfo data info ->
  st_epoch (settings_from E (to_utf8 E info)) = Some t ->
  timestamp_from_epoch E data = Ret (Ok t) /\ timestamp E data = Ret (Ok t).
Proof.
  intros E data info t L H S. unfold timestamp, timestamp_from_epoch.
  rewrite (serverinfo_found _ _ _ L H). cbn [bind]. rewrite S. auto.
Qed.

Lemma timestamp_no_epoch_proof : forall E data, 1280 <= len data ->
  (forall info, has_serverinfo data info -> st_epoch (settings_from E (to_utf8 E info)) = None) ->
  (exists m, timestamp_from_epoch E data = Ret (Err m)) /\ timestamp E data = matchdate E data.
Proof.
  intros E data L N. unfold timestamp, timestamp_from_epoch.
  destruct (has_serverinfo_dec data) as [[info H] | H].
  - rewrite (serverinfo_found _ _ _ L H). cbn [bind]. rewrite (N info H). cbn [bind]. eauto.
  - rewrite (serverinfo_missing _ _ L H). cbn [bind]. eauto.
Qed.

Lemma timestamp_short_proof : forall E data, len data < 1280 ->
  timestamp_from_epoch E data = Panic PSlice /\ timestamp E data = Panic PSlice /\ filename E data = Panic PSlice.
Proof.
  intros E data L. unfold timestamp, timestamp_from_epoch, filename.
  rewrite (serverinfo_short _ _ L). auto.
Qed.

Lemma filename_proof : forall E data name, 1280 <= len data ->
  (filename E data = Ret (Ok name) <->
   exists info, has_serverinfo data info /\ st_serverdemo (settings_from E (to_utf8 E info)) = Some name).
Proof.
  intros E data name L. unfold filename. destruct (has_serverinfo_dec data) as [[info H] | H].
  - rewrite (serverinfo_found _ _ _ L H). cbn [bind].
    destruct (st_serverdemo (settings_from E (to_utf8 E info))) as [d |] eqn:S.
    + split; [intros Q; injection Q as <-; eauto |]. intros [info' [H' S']].
      rewrite (has_serverinfo_unique _ _ _ H' H) in S'. rewrite S in S'. injection S' as <-. reflexivity.
    + split; [discriminate |]. intros [info' [H' S']]. rewrite (has_serverinfo_unique _ _ _ H' H) in S'. congruence.
  - rewrite (serverinfo_missing _ _ L H). cbn [bind]. split; [discriminate |]. intros [info [H' _]]. exfalso. apply (H info H').
Qed.

Lemma filename_err_proof : forall E data, 1280 <= len data ->
  ((exists m, filename E data = Ret (Err m)) <->
   forall info, has_serverinfo data info -> st_serverdemo (settings_from E (to_utf8 E info)) = None).
Proof.
  intros E data L. unfold filename. destruct (has_serverinfo_dec data) as [[info H] | H].
  - rewrite (serverinfo_found _ _ _ L H). cbn [bind].
    destruct (st_serverdemo (settings_from E (to_utf8 E info))) as [d |] eqn:S.
    + split; [intros [m Q]; discriminate |]. intros N. specialize (N info H). congruence.
    + split; [| eauto]. intros _ info' H'. rewrite (has_serverinfo_unique _ _ _ H' H). exact S.
  - rewrite (serverinfo_missing _ _ L H). cbn [bind]. split; [| eauto]. intros _ info H'. exfalso. apply (H info H').
Qed.

(** ** Decimal numerals *)
Fixpoint digits_of (d : uint) : list N :=
  match d with
  | Nil => []
  | D0 l => 0 :: digits_of l | D1 l => 1 :: digits_of l | D2 l => 2 :: digits_of l | D3 l => 3 :: digits_of l
  | D4 l => 4 :: digits_of l | D5 l => 5 :: digits_of l | D6 l => 6 :: digits_of l | D7 l => 7 :: digits_of l
  | D8 l => 8 :: digits_of l | D9 l => 9 :: digits_of l
  end.

Lemma digits_of_wf : forall d, wf_digits (digits_of d).
Proof. induction d; constructor; try lia; assumption. Qed.

Lemma of_uint_acc_number : forall d p,
  Npos (Pos.of_uint_acc d p) = fold_left (fun v x => 10 * v + x) (digits_of d) (Npos p).
Proof.
  induction d; intros p; cbn [Pos.of_uint_acc digits_of fold_left]; [reflexivity | ..]; rewrite IHd; f_equal; lia.
Qed.

Lemma of_uint_number : forall d, N.of_uint d = number (digits_of d).
Proof.
  unfold N.of_uint, number. induction d; cbn [Pos.of_uint digits_of fold_left]; [reflexivity | exact IHd | ..];
    apply of_uint_acc_number.
Qed.

Lemma string_numeral : forall d, lit (NilEmpty.string_of_uint d) = numeral (digits_of d).
Proof.
  induction d; [reflexivity | ..]; unfold lit, numeral in *; cbn [NilEmpty.string_of_uint digits_of map];
    rewrite <- IHd; reflexivity.
Qed.

Lemma nzhead_first : forall d x, nzhead d <> D0 x.
Proof. induction d; intros x; cbn [nzhead]; try discriminate. apply IHd. Qed.

Lemma display_N_proof : forall n, exists ds, display_N n = numeral ds /\ wf_digits ds /\ number ds = n /\
  (ds = [0] \/ exists d r, ds = d :: r /\ d <> 0).
Proof.
  intros n. exists (digits_of (N.to_uint n)). pose proof (Unsigned.of_to n) as O. pose proof (Unsigned.to_of (N.to_uint n)) as U.
  rewrite O in U. assert (N.to_uint n <> Nil) as NN.
  { rewrite U. unfold unorm. destruct (nzhead (N.to_uint n)); discriminate. }
  split; [| split; [apply digits_of_wf | split]].
  - unfold display_N, Utf8Error.decimal. rewrite <- string_numeral. destruct (N.to_uint n); [contradiction | reflexivity ..].
  - rewrite <- of_uint_number. exact O.
  - rewrite U. unfold unorm. pose proof (nzhead_first (N.to_uint n)) as F.
    destruct (nzhead (N.to_uint n)) eqn:Z; cbn [digits_of]; [left; reflexivity | exfalso; apply (F _ eq_refl) | ..];
      right; eexists; eexists; (split; [reflexivity | discriminate]).
Qed.

(** ** server() *)
Lemma server_proof : forall E data k, ktxstats_v3 E data = Ret (Ok k) ->
  exists ds, server E data = Ret (Ok (mkServer (ks_hostname k) (ks_ip k ++ lit ":" ++ numeral ds) (ks_ip k) (ks_port k))) /\
    wf_digits ds /\ number ds = ks_port k /\ (ds = [0] \/ exists d r, ds = d :: r /\ d <> 0).
Proof.
  intros E data k H. destruct (display_N_proof (ks_port k)) as [ds [D P]]. exists ds. split; [| exact P].
  unfold server. rewrite H. cbn [bind]. unfold server_from. rewrite D. reflexivity.
Qed.

Lemma server_else_proof : forall E data,
  (forall m, ktxstats_v3 E data = Ret (Err m) -> server E data = Ret (Err m)) /\
  (forall p, ktxstats_v3 E data = Panic p -> server E data = Panic p).
Proof. intros E data. unfold server. split; intros x ->; reflexivity. Qed.
