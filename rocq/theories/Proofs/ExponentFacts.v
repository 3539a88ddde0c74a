(** Numbers with an exponent that is not looked at to its end. *)
From Coq Require Import Lia ZifyN ZifyNat ZifyBool.
From Coq Require Import Reals Lra.
From Flocq Require Import Core.Core.
From Verif.Model Require Import Base Env Serverinfo Ktxstats Float Duration.
From Verif.Spec Require Import Occ Mvd Utf8 Times Stats Literal.
From Verif.Proofs Require Import BaseFacts FrameFacts Utf8Facts StatsFacts FloatFacts RoundFacts TimeFacts DecimalFacts LiteralFacts RecordingTexts StringFacts.
Open Scope N_scope.

Lemma number_bound : forall ds, wf_digits ds -> number ds < 10 ^ len ds.
Proof.
  intros ds. induction ds as [| d ds IH] using rev_ind; intros W; [reflexivity |].
  apply Forall_app in W. destruct W as [W D]. inv D. specialize (IH W).
  rewrite number_last, len_app, len_cons, len_nil. replace (len ds + (1 + 0)) with (N.succ (len ds)) by lia.
  rewrite N.pow_succ_r'. lia.
Qed.

Lemma clip_small : forall ds, number ds < 655360 -> clip ds 0 = number ds.
Proof.
  intros ds. induction ds as [| d ds IH] using rev_ind; intros H; [reflexivity |].
  rewrite clip_last, number_last in *. rewrite IH by lia. replace (number ds <? 65536) with true by lia. reflexivity.
Qed.

Lemma clip_large : forall ds, wf_digits ds -> 655360 <= number ds -> 65536 <= clip ds 0.
Proof.
  intros ds. induction ds as [| d ds IH] using rev_ind; intros W H; [cbv in H; congruence |].
  apply Forall_app in W. destruct W as [W D]. inv D. rewrite clip_last, number_last in *.
  destruct (clip ds 0 <? 65536) eqn:C; [| lia]. exfalso.
  destruct (N.lt_ge_cases (number ds) 655360) as [L | L]; [| specialize (IH W L); lia].
  rewrite clip_small in C by exact L. lia.
Qed.

Lemma numeral_len : forall ds, len (numeral ds) = len ds.
Proof. intros. unfold numeral, len. rewrite map_length. reflexivity. Qed.

Lemma written_taken : forall s neg m k, written_text s neg m k ->
  m < 10 ^ len s /\
  exists k', number_text s neg m k' /\
    (k' = k \/ (65536 - Z.of_N (len s) <= k /\ 65536 - Z.of_N (len s) <= k')%Z \/ (k <= -65536 /\ k' <= -65536)%Z).
Proof.
  intros s neg m k (sign & mt & ex & frac & e & -> & S & M & X & ->). pose proof M as M0.
  destruct M as (ip & fp & Wi & Wf & NE & -> & -> & M).
  assert (L : len ip + len fp <= len mt).
  { destruct M as [[-> ->] | ->]; rewrite ?len_app, !numeral_len, ?len_nil; lia. }
  rewrite !len_app. split.
  - apply N.lt_le_trans with (10 ^ len (ip ++ fp)); [apply number_bound; apply Forall_app; auto |].
    apply N.pow_le_mono_r; [lia | rewrite len_app; lia].
  - destruct X as [[-> ->] | (letter & sg & ng & ds & v & Le & Sg & W & ND & -> & -> & ->)].
    + exists (0 - Z.of_N (len fp))%Z. split; [| left; reflexivity].
      exists sign, mt, [], (len fp), 0%Z. repeat split; try assumption. left. auto.
    + exists ((if ng then - Z.of_N (clip ds 0) else Z.of_N (clip ds 0)) - Z.of_N (len fp))%Z. split.
      * exists sign, mt, (letter ++ sg ++ numeral ds), (len fp), (if ng : bool then - Z.of_N (clip ds 0) else Z.of_N (clip ds 0))%Z.
        repeat split; try assumption. right. exists letter, sg, ng, ds, (clip ds 0).
        repeat split; try assumption. apply taken_clip.
      * destruct (N.lt_ge_cases (number ds) 655360) as [Q | Q].
        -- left. rewrite clip_small by exact Q. reflexivity.
        -- right. pose proof (clip_large ds W Q). destruct ng; [right | left]; lia.
Qed.

Lemma pow10_le : forall a b, (a <= b)%Z -> (pow10 a <= pow10 b)%R.
Proof. intros. apply bpow_le. assumption. Qed.

Lemma pow10_low : (bpow radix2 64 <= pow10 20)%R.
Proof.
  rewrite pow10_nonneg by lia. replace (bpow radix2 64) with (IZR (2 ^ 64)) by (symmetry; rewrite <- (IZR_Zpower radix2) by lia; reflexivity).
  apply IZR_le. vm_compute. discriminate.
Qed.

Lemma double_opp : forall x, double (- x) = (- double x)%R.
Proof. intros. unfold double. apply round_NE_opp. Qed.

Lemma real_of_neg : forall m k, real_of true m k = (- real_of false m k)%R.
Proof. intros. unfold real_of. ring. Qed.

Lemma double_big : forall m k, 0 < m -> (20 <= k)%Z -> (18446744073709551616 <= double (real_of false m k))%R.
Proof.
  intros m k H K. replace 18446744073709551616%R with (double (bpow radix2 64)).
  - unfold double. apply round_le; [apply FLT_exp_valid; reflexivity | apply valid_rnd_N |].
    rewrite real_of_pow10. apply Rle_trans with (pow10 20); [exact pow10_low |].
    apply Rle_trans with (pow10 k); [apply pow10_le; exact K |].
    assert (1 <= IZR (Z.of_N m))%R by (apply IZR_le; lia).
    assert (0 < pow10 k)%R by apply bpow_gt_0. nra.
  - unfold double. rewrite round_generic; [| apply valid_rnd_N |].
    + rewrite <- (IZR_Zpower radix2) by lia. reflexivity.
    + apply generic_format_bpow. vm_compute. discriminate.
Qed.

Lemma pow2_low : (pow10 (-536) <= bpow radix2 (-1076))%R.
Proof.
  change (pow10 (-536)) with (/ IZR (10 ^ 536))%R. change (bpow radix2 (-1076)) with (/ IZR (2 ^ 1076))%R.
  apply Rinv_le.
  - apply IZR_lt. reflexivity.
  - apply IZR_le. vm_compute. discriminate.
Qed.

Lemma double_tiny : forall L m k, L <= 65000 -> m < 10 ^ L -> (k <= -65536)%Z -> double (real_of false m k) = 0%R.
Proof.
  intros L m k HL H K. unfold double. destruct (N.eq_dec m 0) as [-> | NZ].
  { rewrite real_of_pow10. change (Z.of_N 0) with 0%Z. rewrite Rmult_0_l, Rmult_0_r. apply round_0. apply valid_rnd_N. }
  rewrite real_of_pow10, Rmult_1_l.
  assert (P : (0 < IZR (Z.of_N m) * pow10 k)%R) by (apply Rmult_lt_0_compat; [apply IZR_lt; lia | apply bpow_gt_0]).
  assert (B : (IZR (Z.of_N m) * pow10 k < bpow radix2 (-1076))%R).
  { apply Rlt_le_trans with (pow10 (Z.of_N L) * pow10 (-65536))%R.
    - apply Rlt_le_trans with (pow10 (Z.of_N L) * pow10 k)%R.
      + apply Rmult_lt_compat_r; [apply bpow_gt_0 |]. rewrite pow10_nonneg by lia. apply IZR_lt.
        apply N2Z.inj_lt in H. rewrite N2Z.inj_pow in H. exact H.
      + apply Rmult_le_compat_l; [apply bpow_ge_0 | apply pow10_le; exact K].
    - unfold pow10. rewrite <- bpow_plus.
      apply Rle_trans with (pow10 (-536)); [apply pow10_le; lia | exact pow2_low]. }
  set (x := (IZR (Z.of_N m) * pow10 k)%R) in *.
  assert (M : (mag radix2 x <= -1076)%Z) by (apply mag_le_bpow; [lra | rewrite Rabs_pos_eq by lra; exact B]).
  destruct (mag radix2 x) as [e He] eqn:ME. simpl in M.
  apply round_N_small_pos with e.
  - rewrite <- (Rabs_pos_eq x) by lra. apply He. lra.
  - unfold FLT_exp. lia.
Qed.

Lemma written_double : forall s neg m k, written_text s neg m k -> len s <= 65000 ->
  exists k', number_text s neg m k' /\
    (double (real_of neg m k') = double (real_of neg m k) \/
     (double (real_of neg m k') < 0 /\ double (real_of neg m k) < 0) \/
     (18446744073709551616 <= double (real_of neg m k') /\ 18446744073709551616 <= double (real_of neg m k)))%R.
Proof.
  intros s neg m k H L. destruct (written_taken s neg m k H) as [B [k' [T C]]]. exists k'. split; [exact T |].
  destruct C as [-> | [[C1 C2] | [C1 C2]]]; [left; reflexivity | |].
  - destruct (N.eq_dec m 0) as [-> | NZ].
    { left. f_equal. rewrite !real_of_pow10. change (Z.of_N 0) with 0%Z. rewrite !Rmult_0_l. reflexivity. }
    right. pose proof (double_big m k ltac:(lia) ltac:(lia)). pose proof (double_big m k' ltac:(lia) ltac:(lia)).
    destruct neg; [left | right]; rewrite ?real_of_neg, ?double_opp; lra.
  - left. pose proof (double_tiny (len s) m k L B C1) as Z. pose proof (double_tiny (len s) m k' L B C2) as Z'.
    destruct neg; rewrite ?real_of_neg, ?double_opp, Z, Z'; reflexivity.
Qed.

Lemma stats_written_proof : forall E data s t neg m k,
  ktxstats_string E data = Ret (Ok s) -> duration_text s t -> written_text t neg m k -> len t <= 65000 ->
  ((0 <= double (real_of neg m k) < 18446744073709551616)%R ->
   exists d, match_duration_from_ktxstats E data = Ret (Ok d) /\
     Z.of_N d = ZnearestE (double (real_of neg m k) * 1000000000)) /\
  ((double (real_of neg m k) < 0 \/ 18446744073709551616 <= double (real_of neg m k))%R ->
   match_duration_from_ktxstats E data = Panic PDurationFrom).
Proof.
  intros E data s t neg m k K D W L. destruct (written_double t neg m k W L) as [k' [T C]].
  destruct (stats_number_proof E data s t neg m k' K D T) as [H1 H2].
  destruct C as [Q | [[C1 C2] | [C1 C2]]].
  - rewrite Q in *. split; assumption.
  - split; [intros [? ?]; lra | intros _; apply H2; left; exact C1].
  - split; [intros [? ?]; lra | intros _; apply H2; right; exact C1].
Qed.

Lemma in_full_proof : forall s e, (-655360 < e < 655360)%Z ->
  exponent_text (fun ds v => v = number ds) s e -> exponent_text taken s e.
Proof.
  intros s e B [X | (letter & sg & ng & ds & v & Le & Sg & W & ND & -> & -> & ->)]; [left; exact X |].
  right. exists letter, sg, ng, ds, (number ds). repeat split; try assumption.
  apply taken_iff. symmetry. apply clip_small. destruct ng; lia.
Qed.

(** A fraction with 655361 digits *)
Section Deep.
Variable zeros : list N.
Hypothesis zeros_only : Forall (fun d => d = 0) zeros.
Hypothesis zeros_many : len zeros = 655360.

Definition deep_text : bytes := lit "." ++ numeral (zeros ++ [1]) ++ lit "e655361".

Lemma number_zeros : number (zeros ++ [1]) = 1.
Proof.
  rewrite number_last. enough (number zeros = 0) as -> by reflexivity.
  clear zeros_many. revert zeros_only. induction zeros as [| d l IH]; intros F; [reflexivity |].
  inv F. exact (IH H2).
Qed.

Lemma zeros_wf : wf_digits (zeros ++ [1]).
Proof.
  apply Forall_app. split; [| repeat constructor]. eapply Forall_impl; [| exact zeros_only].
  cbn beta. intros d ->. reflexivity.
Qed.

Lemma zeros_len : len (zeros ++ [1]) = 655361.
Proof. rewrite len_app, zeros_many. reflexivity. Qed.

Lemma deep_decimal : forall (reading : list N -> N -> Prop) v, reading [6; 5; 5; 3; 6; 1] v ->
  decimal_text reading deep_text false 1 (Z.of_N v - 655361).
Proof.
  intros reading v R. exists [], (lit "." ++ numeral (zeros ++ [1])), (lit "e655361"), 655361, (Z.of_N v).
  split; [unfold deep_text; rewrite <- app_assoc; reflexivity |]. split; [left; reflexivity |].
  split; [| split; [| reflexivity]].
  - exists [], (zeros ++ [1]). split; [constructor |]. split; [exact zeros_wf |].
    split; [intros H; symmetry in H; exact (app_cons_not_nil _ _ _ H) |].
    split; [symmetry; exact number_zeros |]. split; [symmetry; exact zeros_len |]. right. reflexivity.
  - right. exists (lit "e"), [], false, [6; 5; 5; 3; 6; 1], v. split; [left; reflexivity |].
    split; [left; reflexivity |]. split; [repeat constructor |]. split; [discriminate |].
    split; [reflexivity |]. split; [exact R | reflexivity].
Qed.

Definition deep_stats : bytes := version_mark ++ lit "3, ""duration"": " ++ deep_text ++ lit ", ""x"": 0}".
Definition deep_data : bytes := encode_block (mkSblock (repeat x00 10) 0 deep_stats).

Lemma deep_in : forall b, In b deep_text -> In b (lit ".e0123456789").
Proof.
  intros b H. unfold deep_text in H. apply in_app_or in H. destruct H as [H | H].
  { simpl in H. destruct H as [<- | []]. vm_compute. tauto. }
  apply in_app_or in H. destruct H as [H | H].
  - unfold numeral in H. apply in_map_iff in H. destruct H as [d [<- H]].
    pose proof zeros_wf as W. unfold wf_digits in W. rewrite Forall_forall in W. specialize (W d H).
    assert (exists k, d = N.of_nat k /\ (k < 10)%nat) as [n [-> B]] by (exists (N.to_nat d); lia).
    do 10 (destruct n as [| n]; [vm_compute; tauto |]). lia.
  - vm_compute in H |- *. tauto.
Qed.

Lemma deep_len : len deep_text = 655369.
Proof. unfold deep_text. rewrite !len_app, numeral_len, zeros_len. reflexivity. Qed.

Lemma deep_duration : duration_text deep_stats deep_text.
Proof.
  exists (version_mark ++ lit "3, "), (lit " ""x"": 0}").
  assert (Q : deep_stats = (version_mark ++ lit "3, ") ++ lit """duration"": " ++ deep_text ++ lit "," ++ lit " ""x"": 0}").
  { unfold deep_stats. rewrite <- !app_assoc. reflexivity. }
  split; [exact Q |]. split.
  - split; [exists (version_mark ++ lit "3, "), (deep_text ++ lit ", ""x"": 0}"); split; [exact Q | reflexivity] |].
    intros j [a [b [H J]]]. destruct (N.le_gt_cases (len (version_mark ++ lit "3, ")) j) as [L | L]; [exact L | exfalso].
    assert (C : nth_error deep_stats (length a) = Some x22 /\ nth_error deep_stats (length a + 1) = Some x64).
    { rewrite H. split; rewrite nth_error_app2 by lia.
      - replace (length a - length a)%nat with 0%nat by lia. reflexivity.
      - replace (length a + 1 - length a)%nat with 1%nat by lia. reflexivity. }
    change (len (version_mark ++ lit "3, ")) with 15 in L. unfold len in J.
    assert (length a < 15)%nat by lia.
    set (n := length a) in *. clearbody n. destruct C as [C1 C2].
    do 15 (destruct n as [| n]; [first [discriminate C1 | discriminate C2] |]). lia.
  - split; [discriminate |]. intros H. apply deep_in in H. vm_compute in H. intuition discriminate.
Qed.

Lemma deep_result : forall E, ktxstats_string E deep_data = Ret (Ok deep_stats).
Proof.
  intros E.
  assert (LS : len deep_stats < 655500).
  { unfold deep_stats. rewrite !len_app, deep_len. reflexivity. }
  assert (U : utf8_text deep_stats).
  { apply ascii_text. unfold deep_stats. apply Forall_app; split; [repeat constructor |].
    apply Forall_app; split; [repeat constructor |]. apply Forall_app; split; [| repeat constructor].
    apply Forall_forall. intros b H. apply deep_in in H. simpl in H.
    repeat (destruct H as [<- | H]; [reflexivity |]). contradiction. }
  apply utf8_valid_iff in U.
  rewrite (ktxstats_embedded_proof E deep_data 18 deep_stats); [rewrite U; reflexivity | | lia | |].
  - unfold deep_data, encode_block. cbn [sb_header sb_number sb_content].
    set (pre := repeat x00 10 ++ enc32 (len deep_stats + 2) ++ enc16 3 ++ enc16 0).
    replace (repeat x00 10 ++ enc32 (len deep_stats + 2) ++ enc16 3 ++ enc16 0 ++ deep_stats)
      with (pre ++ version_mark ++ lit "3, ""duration"": " ++ deep_text ++ lit ", ""x"": 0}")
      by (unfold pre, deep_stats; rewrite <- !app_assoc; reflexivity).
    replace 18 with (len pre) by reflexivity. apply last_here.
    + vm_compute. intuition discriminate.
    + intros [a [b H]]. assert (I : In x7b (lit "3, ""duration"": " ++ deep_text ++ lit ", ""x"": 0}")).
      { rewrite H. apply in_or_app. right. left. reflexivity. }
      apply in_app_or in I. destruct I as [I | I]; [vm_compute in I; intuition discriminate |].
      apply in_app_or in I. destruct I as [I | I]; [apply deep_in in I |]; vm_compute in I; intuition discriminate.
  - unfold deep_data, encode_block. cbn [sb_header sb_number sb_content]. rewrite !len_app.
    change (len (repeat x00 10)) with 10. change (len (enc16 3)) with 2. change (len (enc16 0)) with 2.
    replace (len (enc32 (len deep_stats + 2))) with 4 by reflexivity. unfold usize_bound. lia.
  - exists [mkSblock (repeat x00 10) 0 deep_stats], []. split; [cbn [map concat]; rewrite !app_nil_r; reflexivity |].
    split; [repeat constructor; cbn [sb_header sb_number sb_content]; lia |].
    split; [cbn [map concat sb_content]; rewrite app_nil_r; reflexivity |].
    left. exists [], (mkSblock (repeat x00 10) 0 deep_stats). repeat split. constructor.
Qed.

Lemma deep_case : forall E, exists data s t,
  ktxstats_string E data = Ret (Ok s) /\ duration_text s t /\ written_text t false 1 0 /\
  double (real_of false 1 0) = 1%R /\ match_duration_from_ktxstats E data = Ret (Ok 0).
Proof.
  intros E. exists deep_data, deep_stats, deep_text. split; [apply deep_result |]. split; [exact deep_duration |].
  split; [exact (deep_decimal _ 655361 eq_refl) |]. split.
  - unfold double, real_of. replace (1 * IZR (Z.of_N 1) * powerRZ 10 0)%R with (bpow radix2 0) by (simpl; ring).
    rewrite round_generic; [reflexivity | apply valid_rnd_N |]. apply generic_format_bpow. vm_compute. discriminate.
  - assert (T : number_text deep_text false 1 (65536 - 655361)).
    { apply (deep_decimal taken 65536). apply taken_iff. reflexivity. }
    destruct (stats_number_proof E deep_data deep_stats deep_text false 1 _ (deep_result E) deep_duration T) as [H _].
    rewrite (double_tiny 1 1) in H; [| lia | reflexivity | lia].
    destruct H as [d [H D]]; [split; [apply Rle_refl | apply IZR_lt; reflexivity] |].
    rewrite H. rewrite Rmult_0_l in D. change 0%R with (IZR 0) in D. rewrite Znearest_IZR in D.
    replace d with 0 by lia. reflexivity.
Qed.
End Deep.

Lemma deep_refutes : forall E, exists data s t,
  ktxstats_string E data = Ret (Ok s) /\ duration_text s t /\ written_text t false 1 0 /\
  double (real_of false 1 0) = 1%R /\ match_duration_from_ktxstats E data = Ret (Ok 0).
Proof.
  apply (deep_case (repeat 0 (N.to_nat 655360))).
  - apply Forall_forall. intros d H. apply repeat_spec in H. exact H.
  - unfold len. rewrite repeat_length. apply N2Nat.id.
Qed.
