(** Facts about UTF-8: the validity test accepts exactly the encodings of scalar values. *)
From Coq Require Import Lia ZifyN ZifyNat ZifyBool.
From Verif.Model Require Import Base.
From Verif.Spec Require Import Mvd Utf8.
From Verif.Proofs Require Import BaseFacts FrameFacts.
Open Scope N_scope.
Ltac Zify.zify_post_hook ::= Z.to_euclidean_division_equations.

Lemma n_of_small : forall n, n < 256 -> n_of (byte_of n) = n.
Proof. intros n H. rewrite n_of_byte_of. apply N.mod_small. exact H. Qed.

Lemma utf8_valid_char : forall c r, scalar c -> utf8_valid (encode_char c ++ r) = utf8_valid r.
Proof.
  intros c r S. unfold encode_char, scalar in *.
  destruct (c <? 0x80) eqn:C1; [| destruct (c <? 0x800) eqn:C2; [| destruct (c <? 0x10000) eqn:C3]];
    cbn [app utf8_valid]; unfold is_cont, in_range; repeat rewrite n_of_small by lia.
  - replace (c <? 0x80) with true by lia. reflexivity.
  - replace (192 + c / 64 <? 128) with false by lia.
    replace ((0xC2 <=? 192 + c / 64) && (192 + c / 64 <=? 0xDF)) with true by lia.
    replace ((0x80 <=? 128 + c mod 64) && (128 + c mod 64 <=? 0xBF)) with true by lia. reflexivity.
  - replace (0xE0 + c / 4096 <? 128) with false by lia.
    replace ((0xC2 <=? 0xE0 + c / 4096) && (0xE0 + c / 4096 <=? 0xDF)) with false by lia.
    replace ((0x80 <=? 128 + c mod 64) && (128 + c mod 64 <=? 0xBF)) with true by lia.
    replace ((0x80 <=? 128 + c / 64 mod 64) && (128 + c / 64 mod 64 <=? 0xBF)) with true by lia.
    destruct (0xE0 + c / 4096 =? 0xE0) eqn:Q.
    { replace ((0xA0 <=? 128 + c / 64 mod 64) && (128 + c / 64 mod 64 <=? 0xBF)) with true by lia. reflexivity. }
    destruct ((_ && _) || _) eqn:Q2; [reflexivity |].
    replace (0xE0 + c / 4096 =? 0xED) with true by lia.
    replace ((0x80 <=? 128 + c / 64 mod 64) && (128 + c / 64 mod 64 <=? 0x9F)) with true by lia. reflexivity.
  - replace (0xF0 + c / 262144 <? 128) with false by lia.
    replace ((0xC2 <=? 0xF0 + c / 262144) && (0xF0 + c / 262144 <=? 0xDF)) with false by lia.
    replace (0xF0 + c / 262144 =? 0xE0) with false by lia.
    replace (((0xE1 <=? 0xF0 + c / 262144) && (0xF0 + c / 262144 <=? 0xEC)) ||
             ((0xEE <=? 0xF0 + c / 262144) && (0xF0 + c / 262144 <=? 0xEF))) with false by lia.
    replace (0xF0 + c / 262144 =? 0xED) with false by lia.
    replace ((0x80 <=? 128 + c mod 64) && (128 + c mod 64 <=? 0xBF)) with true by lia.
    replace ((0x80 <=? 128 + c / 64 mod 64) && (128 + c / 64 mod 64 <=? 0xBF)) with true by lia.
    replace ((0x80 <=? 128 + c / 4096 mod 64) && (128 + c / 4096 mod 64 <=? 0xBF)) with true by lia.
    destruct (0xF0 + c / 262144 =? 0xF0) eqn:Q.
    { replace ((0x90 <=? 128 + c / 4096 mod 64) && (128 + c / 4096 mod 64 <=? 0xBF)) with true by lia. reflexivity. }
    destruct ((_ <=? _) && _) eqn:Q2; [reflexivity |].
    replace (0xF0 + c / 262144 =? 0xF4) with true by lia.
    replace ((0x80 <=? 128 + c / 4096 mod 64) && (128 + c / 4096 mod 64 <=? 0x8F)) with true by lia. reflexivity.
Qed.

Lemma encode_text_cons : forall c cs, encode_text (c :: cs) = encode_char c ++ encode_text cs.
Proof. reflexivity. Qed.
Lemma encode_text_app : forall a b, encode_text (a ++ b) = encode_text a ++ encode_text b.
Proof. intros. unfold encode_text. rewrite map_app, concat_app. reflexivity. Qed.

Lemma utf8_valid_text : forall cs, Forall scalar cs -> utf8_valid (encode_text cs) = true.
Proof.
  intros cs F. induction F as [| c cs S F IH]; [reflexivity |].
  rewrite encode_text_cons, utf8_valid_char by exact S. exact IH.
Qed.

Lemma bytes_of_n : forall b n, n_of b = n -> byte_of n = b.
Proof. intros b n <-. apply byte_of_n_of. Qed.

Ltac conds :=
  repeat match goal with
  | H : _ && _ = true |- _ => apply andb_true_iff in H; destruct H
  end.

Lemma utf8_valid_split : forall d, d <> [] -> utf8_valid d = true ->
  exists c r, scalar c /\ d = encode_char c ++ r /\ utf8_valid r = true /\ (length r < length d)%nat.
Proof.
  intros d NE V. destruct d as [| b0 r0]; [congruence |]. clear NE. cbn [utf8_valid] in V.
  pose proof (n_of_lt b0).
  destruct (n_of b0 <? 0x80) eqn:C0.
  { exists (n_of b0), r0. unfold encode_char, scalar. rewrite C0. rewrite byte_of_n_of.
    repeat split; auto; try lia; simpl; lia. }
  destruct r0 as [| b1 r1]; [discriminate |]. pose proof (n_of_lt b1).
  destruct (in_range b0 0xC2 0xDF) eqn:C1.
  { conds. unfold is_cont, in_range in *. conds.
    set (c := (n_of b0 - 0xC0) * 64 + (n_of b1 - 0x80)).
    exists c, r1. unfold encode_char, scalar.
    replace (c <? 0x80) with false by (unfold c; lia). replace (c <? 0x800) with true by (unfold c; lia).
    rewrite (bytes_of_n b0) by (unfold c; lia). rewrite (bytes_of_n b1) by (unfold c; lia).
    repeat split; auto; try (unfold c; lia); simpl; lia. }
  destruct r1 as [| b2 r2]; [discriminate |]. pose proof (n_of_lt b2).
  assert (three : 0xE0 <= n_of b0 <= 0xEF -> is_cont b1 = true -> is_cont b2 = true -> utf8_valid r2 = true ->
    (n_of b0 = 0xE0 -> 0xA0 <= n_of b1) -> (n_of b0 = 0xED -> n_of b1 <= 0x9F) ->
    exists c r, scalar c /\ b0 :: b1 :: b2 :: r2 = encode_char c ++ r /\ utf8_valid r = true /\
      (length r < length (b0 :: b1 :: b2 :: r2))%nat).
  { intros R0 R1 R2 VV A B. unfold is_cont, in_range in *. conds.
    set (c := (n_of b0 - 0xE0) * 4096 + (n_of b1 - 0x80) * 64 + (n_of b2 - 0x80)).
    exists c, r2. unfold encode_char, scalar.
    replace (c <? 0x80) with false by (unfold c; lia). replace (c <? 0x800) with false by (unfold c; lia).
    replace (c <? 0x10000) with true by (unfold c; lia).
    rewrite (bytes_of_n b0) by (unfold c; lia). rewrite (bytes_of_n b1) by (unfold c; lia).
    rewrite (bytes_of_n b2) by (unfold c; lia).
    repeat split; auto; try (unfold c; lia); simpl; lia. }
  destruct (n_of b0 =? 0xE0) eqn:E0.
  { conds. apply three; auto; unfold is_cont, in_range in *; conds; lia. }
  destruct (in_range b0 0xE1 0xEC || in_range b0 0xEE 0xEF) eqn:E1.
  { conds. apply three; auto; unfold is_cont, in_range in *; lia. }
  destruct (n_of b0 =? 0xED) eqn:E2.
  { conds. apply three; auto; unfold is_cont, in_range in *; conds; lia. }
  clear three.
  destruct r2 as [| b3 r3]; [discriminate |]. pose proof (n_of_lt b3).
  assert (four : 0xF0 <= n_of b0 <= 0xF4 -> is_cont b1 = true -> is_cont b2 = true -> is_cont b3 = true ->
    utf8_valid r3 = true ->
    (n_of b0 = 0xF0 -> 0x90 <= n_of b1) -> (n_of b0 = 0xF4 -> n_of b1 <= 0x8F) ->
    exists c r, scalar c /\ b0 :: b1 :: b2 :: b3 :: r3 = encode_char c ++ r /\ utf8_valid r = true /\
      (length r < length (b0 :: b1 :: b2 :: b3 :: r3))%nat).
  { intros R0 R1 R2 R3 VV A B. unfold is_cont, in_range in *. conds.
    set (c := (n_of b0 - 0xF0) * 262144 + (n_of b1 - 0x80) * 4096 + (n_of b2 - 0x80) * 64 + (n_of b3 - 0x80)).
    exists c, r3. unfold encode_char, scalar.
    replace (c <? 0x80) with false by (unfold c; lia). replace (c <? 0x800) with false by (unfold c; lia).
    replace (c <? 0x10000) with false by (unfold c; lia).
    rewrite (bytes_of_n b0) by (unfold c; lia). rewrite (bytes_of_n b1) by (unfold c; lia).
    rewrite (bytes_of_n b2) by (unfold c; lia). rewrite (bytes_of_n b3) by (unfold c; lia).
    repeat split; auto; try (unfold c; lia); simpl; lia. }
  destruct (n_of b0 =? 0xF0) eqn:F0.
  { conds. apply four; auto; unfold is_cont, in_range in *; conds; lia. }
  destruct (in_range b0 0xF1 0xF3) eqn:F1.
  { conds. apply four; auto; unfold is_cont, in_range in *; conds; lia. }
  destruct (n_of b0 =? 0xF4) eqn:F4; [| discriminate].
  conds. apply four; auto; unfold is_cont, in_range in *; conds; lia.
Qed.

Lemma utf8_valid_iff : forall d, utf8_valid d = true <-> utf8_text d.
Proof.
  intros d. split.
  - remember (length d) as n eqn:L. revert d L. induction n as [n IH] using lt_wf_ind. intros d L V.
    destruct d as [| b d].
    + exists []. split; [constructor | reflexivity].
    + destruct (utf8_valid_split (b :: d)) as [c [r [S [D [Vr Lr]]]]]; [discriminate | exact V |].
      destruct (IH (length r)) with (d := r) as [cs [F R]]; [lia | reflexivity | exact Vr |].
      exists (c :: cs). split; [constructor; assumption |]. rewrite encode_text_cons, <- R. exact D.
  - intros [cs [F ->]]. apply utf8_valid_text. exact F.
Qed.

(** Boundaries *)
Lemma char_bytes : forall c, scalar c -> exists b t, encode_char c = b :: t /\ is_cont b = false /\
  Forall (fun x => is_cont x = true) t.
Proof.
  intros c S. unfold encode_char, scalar in *.
  destruct (c <? 0x80) eqn:C1; [| destruct (c <? 0x800) eqn:C2; [| destruct (c <? 0x10000) eqn:C3]];
    eexists; eexists; (split; [reflexivity |]); unfold is_cont, in_range;
    (split; [rewrite n_of_small by lia; lia |]); repeat constructor; rewrite n_of_small by lia; lia.
Qed.

Lemma nth_error_skip : forall A (a b : list A) i, (length a <= i)%nat -> nth_error (a ++ b) i = nth_error b (i - length a).
Proof. intros. apply nth_error_app2. assumption. Qed.

Lemma boundary_cons : forall c r i, len (encode_char c) <= i ->
  is_char_boundary (encode_char c ++ r) i = is_char_boundary r (i - len (encode_char c)).
Proof.
  intros c r i L. unfold is_char_boundary. rewrite len_app.
  replace (i =? len (encode_char c) + len r) with (i - len (encode_char c) =? len r) by lia.
  destruct (i - len (encode_char c) =? len r); [reflexivity |].
  rewrite nth_error_skip by (unfold len in L; lia).
  replace (N.to_nat i - length (encode_char c))%nat with (N.to_nat (i - len (encode_char c))) by (unfold len; lia).
  reflexivity.
Qed.

Lemma boundary_iff : forall cs i, Forall scalar cs -> i <= len (encode_text cs) ->
  is_char_boundary (encode_text cs) i = false <-> inside_char (encode_text cs) i.
Proof.
  intros cs i F L.
  assert (forall cs i, Forall scalar cs -> i <= len (encode_text cs) ->
    (is_char_boundary (encode_text cs) i = true /\ exists a b, cs = a ++ b /\ i = len (encode_text a)) \/
    (is_char_boundary (encode_text cs) i = false /\ exists a c b, cs = a ++ c :: b /\
       len (encode_text a) < i < len (encode_text (a ++ [c])))) as G.
  { clear. induction cs as [| c cs IH]; intros i F L.
    - left. split; [| exists [], []; split; [reflexivity |]]; change (encode_text []) with (@nil byte) in *;
        rewrite len_nil in *; [unfold is_char_boundary; rewrite len_nil; replace (i =? 0) with true by lia; reflexivity | lia].
    - inv F. rename H1 into S. rename H2 into F. rewrite encode_text_cons, len_app in *.
      destruct (char_bytes c S) as [b [t [Q [NB T]]]].
      destruct (N.lt_ge_cases i (len (encode_char c))) as [C | C].
      + destruct (N.eq_0_gt_0_cases i) as [-> | P].
        * left. split; [| exists [], (c :: cs); auto]. rewrite Q. unfold is_char_boundary.
          destruct (0 =? len _); [reflexivity |]. cbn. rewrite NB. reflexivity.
        * right. split.
          -- unfold is_char_boundary. rewrite len_app. replace (i =? _) with false by lia.
             rewrite nth_error_app1 by (unfold len in C; lia).
             rewrite Q in *. rewrite len_cons in C. destruct (N.to_nat i) as [| j] eqn:J; [lia |]. cbn [nth_error].
             destruct (nth_error t j) as [x |] eqn:X; [| reflexivity].
             apply nth_error_In in X. rewrite Forall_forall in T. rewrite (T x X). reflexivity.
          -- exists [], c, cs. split; [reflexivity |]. cbn [app]. rewrite encode_text_cons, len_app.
             change (encode_text []) with (@nil byte). rewrite len_nil. lia.
      + rewrite boundary_cons by exact C. destruct (IH (i - len (encode_char c)) F) as [[B [x [y [-> X]]]] | [B [x [d [y [-> X]]]]]]; [lia | |].
        * left. split; [exact B |]. exists (c :: x), y. rewrite encode_text_cons, len_app. split; [reflexivity | lia].
        * right. split; [exact B |]. exists (c :: x), d, y. cbn [app]. rewrite !encode_text_cons, !len_app. split; [reflexivity | lia]. }
  destruct (G cs i F L) as [[B [x [y [-> X]]]] | [B [x [c [y [-> X]]]]]]; rewrite B.
  - split; [discriminate |]. intros [u [c [v [D [W I]]]]]. exfalso.
    assert (is_char_boundary (encode_text (x ++ y)) i = false); [| congruence].
    rewrite D. destruct (char_bytes c) as [b [t [Q [NB T]]]].
    { apply Forall_app in W. destruct W as [_ W]. inv W. assumption. }
    unfold is_char_boundary. rewrite !encode_text_app, encode_text_cons, !len_app in *.
    change (encode_text []) with (@nil byte) in I. rewrite ?len_nil in I.
    replace (i =? _) with false by lia.
    rewrite nth_error_skip by (unfold len in I; lia). rewrite nth_error_app1 by (unfold len in *; lia).
    rewrite Q in *. rewrite len_cons in I. destruct (N.to_nat i - length (encode_text u))%nat as [| j] eqn:J; [unfold len in *; lia |].
    cbn [nth_error]. destruct (nth_error t j) as [z |] eqn:Z; [| reflexivity].
    apply nth_error_In in Z. rewrite Forall_forall in T. rewrite (T z Z). reflexivity.
  - split; [intros _ | reflexivity]. exists x, c, y. auto.
Qed.

Lemma is_char_boundary_iff : forall d i, utf8_text d -> i <= len d ->
  is_char_boundary d i = false <-> inside_char d i.
Proof. intros d i [cs [F ->]] L. apply boundary_iff; assumption. Qed.
