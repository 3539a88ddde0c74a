(** Facts about the errors of from_utf8(). *)
From Coq Require Import Lia ZifyN ZifyNat ZifyBool.
From Verif.Model Require Import Base Utf8Error.
From Verif.Spec Require Import Mvd Times Utf8 Faults.
From Verif.Proofs Require Import BaseFacts FrameFacts Utf8Facts.
Open Scope N_scope.
Ltac Zify.zify_post_hook ::= Z.to_euclidean_division_equations.

(** ** The encodings by their bytes *)
Lemma enc1 : forall b0, n_of b0 < 0x80 -> exists c, scalar c /\ encode_char c = [b0].
Proof.
  intros b0 H. exists (n_of b0). unfold scalar, encode_char. replace (n_of b0 <? 0x80) with true by lia.
  rewrite byte_of_n_of. split; [lia | reflexivity].
Qed.

Lemma enc2 : forall b0 b1, in_range b0 0xC2 0xDF = true -> is_cont b1 = true ->
  exists c, scalar c /\ encode_char c = [b0; b1].
Proof.
  intros b0 b1 H0 H1. unfold is_cont, in_range in *.
  set (c := (n_of b0 - 0xC0) * 64 + (n_of b1 - 0x80)). exists c. unfold scalar, encode_char.
  replace (c <? 0x80) with false by (unfold c; lia). replace (c <? 0x800) with true by (unfold c; lia).
  rewrite (bytes_of_n b0) by (unfold c; lia). rewrite (bytes_of_n b1) by (unfold c; lia).
  split; [unfold c; lia | reflexivity].
Qed.

Lemma enc3 : forall b0 b1 b2, in_range b0 0xE0 0xEF = true -> second_of_three b0 b1 = true -> is_cont b2 = true ->
  exists c, scalar c /\ encode_char c = [b0; b1; b2].
Proof.
  intros b0 b1 b2 H0 H1 H2.
  assert (A : 0x80 <= n_of b1 <= 0xBF /\ (n_of b0 = 0xE0 -> 0xA0 <= n_of b1) /\ (n_of b0 = 0xED -> n_of b1 <= 0x9F)).
  { unfold second_of_three, is_cont, in_range in *.
    destruct (n_of b0 =? 0xE0) eqn:Q0; [lia |]. destruct (n_of b0 =? 0xED) eqn:Q1; lia. }
  clear H1. unfold is_cont, in_range in *.
  set (c := (n_of b0 - 0xE0) * 4096 + (n_of b1 - 0x80) * 64 + (n_of b2 - 0x80)). exists c. unfold scalar, encode_char.
  replace (c <? 0x80) with false by (unfold c; lia). replace (c <? 0x800) with false by (unfold c; lia).
  replace (c <? 0x10000) with true by (unfold c; lia).
  rewrite (bytes_of_n b0) by (unfold c; lia). rewrite (bytes_of_n b1) by (unfold c; lia).
  rewrite (bytes_of_n b2) by (unfold c; lia).
  split; [unfold c; lia | reflexivity].
Qed.

Lemma enc4 : forall b0 b1 b2 b3, in_range b0 0xF0 0xF4 = true -> second_of_four b0 b1 = true ->
  is_cont b2 = true -> is_cont b3 = true -> exists c, scalar c /\ encode_char c = [b0; b1; b2; b3].
Proof.
  intros b0 b1 b2 b3 H0 H1 H2 H3.
  assert (A : 0x80 <= n_of b1 <= 0xBF /\ (n_of b0 = 0xF0 -> 0x90 <= n_of b1) /\ (n_of b0 = 0xF4 -> n_of b1 <= 0x8F)).
  { unfold second_of_four, is_cont, in_range in *.
    destruct (n_of b0 =? 0xF0) eqn:Q0; [lia |]. destruct (n_of b0 =? 0xF4) eqn:Q1; lia. }
  clear H1. unfold is_cont, in_range in *.
  set (c := (n_of b0 - 0xF0) * 262144 + (n_of b1 - 0x80) * 4096 + (n_of b2 - 0x80) * 64 + (n_of b3 - 0x80)).
  exists c. unfold scalar, encode_char.
  replace (c <? 0x80) with false by (unfold c; lia). replace (c <? 0x800) with false by (unfold c; lia).
  replace (c <? 0x10000) with false by (unfold c; lia).
  rewrite (bytes_of_n b0) by (unfold c; lia). rewrite (bytes_of_n b1) by (unfold c; lia).
  rewrite (bytes_of_n b2) by (unfold c; lia). rewrite (bytes_of_n b3) by (unfold c; lia).
  split; [unfold c; lia | reflexivity].
Qed.

Lemma char_shape : forall c, scalar c ->
  (exists b0, encode_char c = [b0] /\ n_of b0 < 0x80) \/
  (exists b0 b1, encode_char c = [b0; b1] /\ in_range b0 0xC2 0xDF = true /\ is_cont b1 = true) \/
  (exists b0 b1 b2, encode_char c = [b0; b1; b2] /\ in_range b0 0xE0 0xEF = true /\
     second_of_three b0 b1 = true /\ is_cont b2 = true) \/
  (exists b0 b1 b2 b3, encode_char c = [b0; b1; b2; b3] /\ in_range b0 0xF0 0xF4 = true /\
     second_of_four b0 b1 = true /\ is_cont b2 = true /\ is_cont b3 = true).
Proof.
  intros c S. unfold scalar, encode_char in *.
  destruct (c <? 0x80) eqn:C1; [| destruct (c <? 0x800) eqn:C2; [| destruct (c <? 0x10000) eqn:C3]].
  - left. eexists. split; [reflexivity |]. rewrite n_of_small by lia. lia.
  - right; left. do 2 eexists. split; [reflexivity |]. unfold is_cont, in_range. rewrite !n_of_small by lia. lia.
  - right; right; left. do 3 eexists. split; [reflexivity |].
    unfold second_of_three, is_cont, in_range. rewrite !n_of_small by lia. repeat split; try lia.
    destruct (_ =? 0xE0) eqn:Q0; [lia |]. destruct (_ =? 0xED) eqn:Q1; lia.
  - right; right; right. do 4 eexists. split; [reflexivity |].
    unfold second_of_four, is_cont, in_range. rewrite !n_of_small by lia. repeat split; try lia.
    destruct (_ =? 0xF0) eqn:Q0; [lia |]. destruct (_ =? 0xF4) eqn:Q1; lia.
Qed.

(** ** Beginnings of characters *)
Lemma ranges_disjoint : forall b,
  (in_range b 0xC2 0xDF = true -> in_range b 0xE0 0xEF = false /\ in_range b 0xF0 0xF4 = false /\ (n_of b <? 0x80) = false) /\
  (in_range b 0xE0 0xEF = true -> in_range b 0xC2 0xDF = false /\ in_range b 0xF0 0xF4 = false /\ (n_of b <? 0x80) = false) /\
  (in_range b 0xF0 0xF4 = true -> in_range b 0xC2 0xDF = false /\ in_range b 0xE0 0xEF = false /\ (n_of b <? 0x80) = false) /\
  (n_of b < 0x80 -> in_range b 0xC2 0xDF = false /\ in_range b 0xE0 0xEF = false /\ in_range b 0xF0 0xF4 = false).
Proof. intros b. unfold in_range. lia. Qed.

Lemma cut1 : forall b0, cut_char [b0] <->
  in_range b0 0xC2 0xDF = true \/ in_range b0 0xE0 0xEF = true \/ in_range b0 0xF0 0xF4 = true.
Proof.
  intros b0. split.
  - intros [_ [c [t [S [NE Q]]]]].
    destruct (char_shape c S) as [[a0 [C H]] | [[a0 [a1 [C [H _]]]] | [[a0 [a1 [a2 [C [H _]]]]] | [a0 [a1 [a2 [a3 [C [H _]]]]]]]]];
      rewrite Q in C; cbn [app] in C; injection C as -> C; try tauto.
  - intros H. split; [discriminate |]. destruct H as [H | [H | H]].
    + destruct (enc2 b0 x80 H eq_refl) as [c [S Q]]. exists c, [x80]. repeat split; auto. discriminate.
    + destruct (n_of b0 =? 0xE0) eqn:Z.
      * destruct (enc3 b0 xa0 x80 H) as [c [S Q]]; [unfold second_of_three; rewrite Z; reflexivity | reflexivity |].
        exists c, [xa0; x80]. repeat split; auto. discriminate.
      * destruct (enc3 b0 x80 x80 H) as [c [S Q]]; [unfold second_of_three; rewrite Z; destruct (n_of b0 =? 0xED); reflexivity | reflexivity |].
        exists c, [x80; x80]. repeat split; auto. discriminate.
    + destruct (n_of b0 =? 0xF0) eqn:Z.
      * destruct (enc4 b0 x90 x80 x80 H) as [c [S Q]]; [unfold second_of_four; rewrite Z; reflexivity | reflexivity | reflexivity |].
        exists c, [x90; x80; x80]. repeat split; auto. discriminate.
      * destruct (enc4 b0 x80 x80 x80 H) as [c [S Q]]; [unfold second_of_four; rewrite Z; destruct (n_of b0 =? 0xF4); reflexivity | reflexivity | reflexivity |].
        exists c, [x80; x80; x80]. repeat split; auto. discriminate.
Qed.

Lemma cut2 : forall b0 b1, cut_char [b0; b1] <->
  (in_range b0 0xE0 0xEF = true /\ second_of_three b0 b1 = true) \/
  (in_range b0 0xF0 0xF4 = true /\ second_of_four b0 b1 = true).
Proof.
  intros b0 b1. split.
  - intros [_ [c [t [S [NE Q]]]]].
    destruct (char_shape c S) as [[a0 [C H]] | [[a0 [a1 [C [H _]]]] | [[a0 [a1 [a2 [C [H [H1 _]]]]]] | [a0 [a1 [a2 [a3 [C [H [H1 _]]]]]]]]]];
      rewrite Q in C; cbn [app] in C; try discriminate; injection C as -> -> C; auto; congruence.
  - intros H. split; [discriminate |]. destruct H as [[H H1] | [H H1]].
    + destruct (enc3 b0 b1 x80 H H1 eq_refl) as [c [S Q]]. exists c, [x80]. repeat split; auto. discriminate.
    + destruct (enc4 b0 b1 x80 x80 H H1 eq_refl eq_refl) as [c [S Q]]. exists c, [x80; x80]. repeat split; auto. discriminate.
Qed.

Lemma cut3 : forall b0 b1 b2, cut_char [b0; b1; b2] <->
  in_range b0 0xF0 0xF4 = true /\ second_of_four b0 b1 = true /\ is_cont b2 = true.
Proof.
  intros b0 b1 b2. split.
  - intros [_ [c [t [S [NE Q]]]]].
    destruct (char_shape c S) as [[a0 [C H]] | [[a0 [a1 [C [H _]]]] | [[a0 [a1 [a2 [C [H [H1 _]]]]]] | [a0 [a1 [a2 [a3 [C [H [H1 [H2 _]]]]]]]]]]];
      rewrite Q in C; cbn [app] in C; try discriminate; injection C as -> -> -> C; auto; congruence.
  - intros [H [H1 H2]]. split; [discriminate |].
    destruct (enc4 b0 b1 b2 x80 H H1 H2 eq_refl) as [c [S Q]]. exists c, [x80]. repeat split; auto. discriminate.
Qed.

Lemma cut4 : forall b0 b1 b2 b3 r, ~ cut_char (b0 :: b1 :: b2 :: b3 :: r).
Proof.
  intros b0 b1 b2 b3 r [_ [c [t [S [NE Q]]]]].
  destruct (char_shape c S) as [[a0 [C H]] | [[a0 [a1 [C [H _]]]] | [[a0 [a1 [a2 [C [H _]]]]] | [a0 [a1 [a2 [a3 [C [H _]]]]]]]]];
    rewrite Q in C; cbn [app] in C; try discriminate. injection C as _ _ _ _ C. apply app_eq_nil in C. destruct C. congruence.
Qed.

(** ** The scan *)
Lemma scan_char : forall c r k, scalar c -> utf8_scan (encode_char c ++ r) k = utf8_scan r (k + len (encode_char c)).
Proof.
  intros c r k S.
  destruct (char_shape c S) as [[a0 [C H]] | [[a0 [a1 [C [H H1]]]] | [[a0 [a1 [a2 [C [H [H1 H2]]]]]] | [a0 [a1 [a2 [a3 [C [H [H1 [H2 H3]]]]]]]]]]];
    rewrite C; destruct (ranges_disjoint a0) as [R2 [R3 [R4 _]]]; cbn [app utf8_scan].
  - replace (n_of a0 <? 0x80) with true by lia. reflexivity.
  - destruct (R2 H) as [_ [_ ->]]. rewrite H, H1. reflexivity.
  - destruct (R3 H) as [-> [_ ->]]. rewrite H, H1, H2. reflexivity.
  - destruct (R4 H) as [-> [-> ->]]. rewrite H, H1, H2, H3. reflexivity.
Qed.

Lemma scan_text : forall cs r k, Forall scalar cs ->
  utf8_scan (encode_text cs ++ r) k = utf8_scan r (k + len (encode_text cs)).
Proof.
  intros cs r k F. revert k. induction F as [| c cs S F IH]; intros k.
  - change (encode_text []) with (@nil byte). rewrite len_nil, N.add_0_r. reflexivity.
  - rewrite encode_text_cons, <- app_assoc, scan_char by exact S. rewrite IH, len_app. f_equal. lia.
Qed.

(** what follows the text *)
Definition rest_fault (r : bytes) (n : option N) : Prop :=
  match n with
  | None => cut_char r
  | Some n => ~ cut_char r /\ 1 <= n /\ (exists p q, r = p ++ q /\ len p = n /\ (cut_char p \/ n = 1)) /\
              forall p q, r = p ++ q -> cut_char p -> len p <= n
  end.

Lemma rest_unique : forall r n m, rest_fault r n -> rest_fault r m -> n = m.
Proof.
  intros r [n |] [m |] H K; cbn [rest_fault] in *; [| tauto | tauto | reflexivity].
  destruct H as [_ [N1 [[p [q [R [L P]]]] M]]]. destruct K as [_ [N2 [[p' [q' [R' [L' P']]]] M']]].
  f_equal. destruct P as [P | P]; destruct P' as [P' | P'].
  - specialize (M p' q' R' P'). specialize (M' p q R P). lia.
  - specialize (M' p q R P). lia.
  - specialize (M p' q' R' P'). lia.
  - lia.
Qed.

Lemma prefixes : forall (b0 : byte) r p q, b0 :: r = p ++ q -> p = [] \/ exists p', p = b0 :: p' /\ r = p' ++ q.
Proof. intros b0 r [| x p] q H; [left; reflexivity |]. right. exists p. injection H as -> H. auto. Qed.

Lemma not_cut_nil : ~ cut_char [].
Proof. intros [H _]. congruence. Qed.

(** the bytes from [b] on cannot be part of the character begun by [p] *)
Lemma fault_some : forall p b q n, 1 <= n -> (cut_char p /\ len p = n) \/ (p = [] /\ n = 1 /\ ~ cut_char [b]) ->
  (p <> [] -> ~ cut_char (p ++ [b])) ->
  (forall x y, b :: q = x ++ y -> x <> [] -> cut_char (p ++ x) -> cut_char (p ++ [b])) ->
  rest_fault (p ++ b :: q) (Some n).
Proof.
  intros p b q n N C NC M.
  assert (D : ~ cut_char (p ++ [b])).
  { destruct C as [[[NE _] _] | [-> [_ C]]]; [apply NC; exact NE | exact C]. }
  assert (G : forall x y, p ++ b :: q = x ++ y -> cut_char x -> len x <= n).
  { intros x y E X. destruct (N.le_gt_cases (len x) (len p)) as [L | L].
    - destruct C as [[_ C] | [-> [-> _]]]; [lia | rewrite len_nil in L; lia].
    - exfalso. apply D.
      assert (Q : x = p ++ skipn (length p) x /\ b :: q = skipn (length p) x ++ y).
      { rewrite <- (firstn_skipn (length p) x) in E at 1. rewrite <- app_assoc in E.
        apply app_inj_len in E; [| unfold len in *; rewrite firstn_length; lia]. destruct E as [E1 E2].
        split; [| exact E2]. rewrite E1 at 1. symmetry. apply firstn_skipn. }
      destruct Q as [Q1 Q2]. apply (M (skipn (length p) x) y Q2).
      + intros Z. rewrite Z, app_nil_r in Q1. subst x. lia.
      + rewrite <- Q1. exact X. }
  cbn [rest_fault]. split; [| split; [exact N | split; [| exact G]]].
  - intros X. apply D. apply (M (b :: q) []); [rewrite app_nil_r; reflexivity | discriminate | exact X].
  - destruct C as [[C L] | [-> [-> C]]].
    + exists p, (b :: q). auto.
    + exists [b], q. auto.
Qed.

Lemma scan_rest : forall r k, r <> [] -> (forall c t, scalar c -> r <> encode_char c ++ t) ->
  exists n, utf8_scan r k = Some (k, n) /\ rest_fault r n.
Proof.
  intros r k NE NC. destruct r as [| b0 r0]; [congruence |]. clear NE. cbn [utf8_scan].
  destruct (ranges_disjoint b0) as [R2 [R3 [R4 R1]]].
  destruct (n_of b0 <? 0x80) eqn:B.
  { exfalso. destruct (enc1 b0) as [c [S Q]]; [lia |]. apply (NC c r0 S). rewrite Q. reflexivity. }
  destruct (in_range b0 0xC2 0xDF) eqn:I2.
  { destruct (R2 eq_refl) as [N3 [N4 _]].
    destruct r0 as [| b1 r1].
    { exists None. split; [reflexivity |]. cbn. apply cut1. auto. }
    destruct (is_cont b1) eqn:C1.
    { exfalso. destruct (enc2 b0 b1 I2 C1) as [c [S Q]]. apply (NC c r1 S). rewrite Q. reflexivity. }
    assert (NO : forall x, ~ cut_char (b0 :: b1 :: x)).
    { intros x X. destruct x as [| b2 [| b3 x]]; [apply cut2 in X | apply cut3 in X | apply cut4 in X; exact X];
        rewrite ?N3, ?N4 in X; intuition discriminate. }
    exists (Some 1). split; [reflexivity |]. apply (fault_some [b0] b1 r1 1); [lia | left; split; [apply cut1; auto | reflexivity] | |].
    - intros _. apply NO.
    - intros x y E NX X. exfalso. destruct x as [| z x]; [congruence |]. injection E as <- _. apply (NO _ X). }
  destruct (in_range b0 0xE0 0xEF) eqn:I3.
  { destruct (R3 eq_refl) as [_ [N4 _]].
    destruct r0 as [| b1 r1].
    { exists None. split; [reflexivity |]. cbn. apply cut1. auto. }
    destruct (second_of_three b0 b1) eqn:C1.
    - destruct r1 as [| b2 r2].
      { exists None. split; [reflexivity |]. cbn. apply cut2. auto. }
      destruct (is_cont b2) eqn:C2.
      { exfalso. destruct (enc3 b0 b1 b2 I3 C1 C2) as [c [S Q]]. apply (NC c r2 S). rewrite Q. reflexivity. }
      assert (NO : forall x, ~ cut_char (b0 :: b1 :: b2 :: x)).
      { intros x X. destruct x as [| b3 x]; [apply cut3 in X | apply cut4 in X; exact X].
        rewrite N4 in X. intuition discriminate. }
      exists (Some 2). split; [reflexivity |]. apply (fault_some [b0; b1] b2 r2 2); [lia | left; split; [apply cut2; auto | reflexivity] | |].
      + intros _. apply NO.
      + intros x y E NX X. exfalso. destruct x as [| z x]; [congruence |]. injection E as <- _. apply (NO _ X).
    - assert (NO : forall x, ~ cut_char (b0 :: b1 :: x)).
      { intros x X. destruct x as [| b2 [| b3 x]]; [apply cut2 in X | apply cut3 in X | apply cut4 in X; exact X];
          rewrite ?N4, ?C1 in X; intuition discriminate. }
      exists (Some 1). split; [reflexivity |]. apply (fault_some [b0] b1 r1 1); [lia | left; split; [apply cut1; auto | reflexivity] | |].
      + intros _. apply NO.
      + intros x y E NX X. exfalso. destruct x as [| z x]; [congruence |]. injection E as <- _. apply (NO _ X). }
  destruct (in_range b0 0xF0 0xF4) eqn:I4.
  { destruct r0 as [| b1 r1].
    { exists None. split; [reflexivity |]. cbn. apply cut1. auto. }
    destruct (second_of_four b0 b1) eqn:C1.
    - destruct r1 as [| b2 r2].
      { exists None. split; [reflexivity |]. cbn. apply cut2. auto. }
      destruct (is_cont b2) eqn:C2.
      + destruct r2 as [| b3 r3].
        { exists None. split; [reflexivity |]. cbn. apply cut3. auto. }
        destruct (is_cont b3) eqn:C3.
        { exfalso. destruct (enc4 b0 b1 b2 b3 I4 C1 C2 C3) as [c [S Q]]. apply (NC c r3 S). rewrite Q. reflexivity. }
        exists (Some 3). split; [reflexivity |]. apply (fault_some [b0; b1; b2] b3 r3 3); [lia | left; split; [apply cut3; auto | reflexivity] | |].
        * intros _. apply cut4.
        * intros x y E NX X. exfalso. destruct x as [| z x]; [congruence |]. injection E as <- _. apply (cut4 _ _ _ _ _ X).
      + assert (NO : forall x, ~ cut_char (b0 :: b1 :: b2 :: x)).
        { intros x X. destruct x as [| b3 x]; [apply cut3 in X | apply cut4 in X; exact X].
          rewrite C2 in X. intuition discriminate. }
        exists (Some 2). split; [reflexivity |]. apply (fault_some [b0; b1] b2 r2 2); [lia | left; split; [apply cut2; auto | reflexivity] | |].
        * intros _. apply NO.
        * intros x y E NX X. exfalso. destruct x as [| z x]; [congruence |]. injection E as <- _. apply (NO _ X).
    - assert (NO : forall x, ~ cut_char (b0 :: b1 :: x)).
      { intros x X. destruct x as [| b2 [| b3 x]]; [apply cut2 in X | apply cut3 in X | apply cut4 in X; exact X];
          rewrite ?I3, ?C1 in X; intuition discriminate. }
      exists (Some 1). split; [reflexivity |]. apply (fault_some [b0] b1 r1 1); [lia | left; split; [apply cut1; auto | reflexivity] | |].
      + intros _. apply NO.
      + intros x y E NX X. exfalso. destruct x as [| z x]; [congruence |]. injection E as <- _. apply (NO _ X). }
  assert (NO : forall x, ~ cut_char (b0 :: x)).
  { intros x X. destruct x as [| b1 [| b2 [| b3 x]]]; [apply cut1 in X | apply cut2 in X | apply cut3 in X | apply cut4 in X; exact X];
      rewrite ?I2, ?I3, ?I4 in X; intuition discriminate. }
  exists (Some 1). split; [reflexivity |]. apply (fault_some [] b0 r0 1); [lia | right; auto | |].
  - congruence.
  - intros x y E NX X. exfalso. destruct x as [| z x]; [congruence |]. injection E as <- _. apply (NO _ X).
Qed.


(** the longest text a byte string starts with *)
Lemma head_char_dec : forall r, r <> [] ->
  (exists c t, scalar c /\ r = encode_char c ++ t) \/ (forall c t, scalar c -> r <> encode_char c ++ t).
Proof.
  intros r NE.
  assert (Y : forall i, utf8_valid (firstn (S i) r) = true -> exists c t, scalar c /\ r = encode_char c ++ t).
  { intros i V. destruct (utf8_valid_split (firstn (S i) r)) as [c [t [S0 [Q _]]]]; [| exact V |].
    - destruct r; [congruence | discriminate].
    - exists c, (t ++ skipn (S i) r). split; [exact S0 |]. rewrite app_assoc, <- Q. symmetry. apply firstn_skipn. }
  destruct (utf8_valid (firstn 1 r)) eqn:V1; [left; apply (Y 0%nat V1) |].
  destruct (utf8_valid (firstn 2 r)) eqn:V2; [left; apply (Y 1%nat V2) |].
  destruct (utf8_valid (firstn 3 r)) eqn:V3; [left; apply (Y 2%nat V3) |].
  destruct (utf8_valid (firstn 4 r)) eqn:V4; [left; apply (Y 3%nat V4) |].
  right. intros c t S0 ->.
  assert (V : utf8_valid (encode_char c) = true).
  { apply utf8_valid_iff. exists [c]. split; [constructor; [exact S0 | constructor] |].
    unfold encode_text. cbn [map concat]. rewrite app_nil_r. reflexivity. }
  destruct (char_shape c S0) as [[a0 [C _]] | [[a0 [a1 [C _]]] | [[a0 [a1 [a2 [C _]]]] | [a0 [a1 [a2 [a3 [C _]]]]]]]];
    rewrite C in *; cbn [app firstn] in *; congruence.
Qed.

Lemma text_prefix : forall d, utf8_text d \/ exists cs r, Forall scalar cs /\ d = encode_text cs ++ r /\ r <> [] /\
  forall c t, scalar c -> r <> encode_char c ++ t.
Proof.
  intros d. remember (length d) as n eqn:L. revert d L. induction n as [n IH] using lt_wf_ind. intros d L.
  destruct d as [| b d]; [left; exists []; split; [constructor | reflexivity] |].
  destruct (head_char_dec (b :: d)) as [[c [t [S0 Q]]] | H]; [discriminate | |].
  - assert (LT : (length t < n)%nat).
    { rewrite L, Q, app_length. destruct (char_bytes c S0) as [x [y [-> _]]]. simpl. lia. }
    destruct (IH (length t) LT t eq_refl) as [[cs [F ->]] | [cs [r [F [-> [NE H]]]]]].
    + left. exists (c :: cs). split; [constructor; assumption | exact Q].
    + right. exists (c :: cs), r. split; [constructor; assumption |]. rewrite encode_text_cons, <- app_assoc. auto.
  - right. exists [], (b :: d). split; [constructor |]. split; [reflexivity |]. split; [discriminate | exact H].
Qed.

Lemma scan_fault : forall d i n, utf8_scan d 0 = Some (i, n) <-> utf8_fault d i n.
Proof.
  intros d i n. split.
  - intros H. destruct (text_prefix d) as [[cs [F ->]] | [cs [r [F [-> [NE NC]]]]]].
    + rewrite <- (app_nil_r (encode_text cs)), scan_text in H by exact F. discriminate.
    + rewrite scan_text in H by exact F. destruct (scan_rest r (0 + len (encode_text cs)) NE NC) as [m [Q R]].
      rewrite Q in H. injection H as <- <-. exists (encode_text cs), r.
      split; [reflexivity |]. split; [exists cs; auto |]. split; [rewrite N.add_0_l; reflexivity |]. auto.
  - intros [a [r [-> [[cs [F ->]] [L [NE [NC H]]]]]]]. rewrite scan_text by exact F.
    destruct (scan_rest r (0 + len (encode_text cs)) NE NC) as [m [Q R]]. rewrite Q.
    rewrite (rest_unique r m n R H). subst i. rewrite N.add_0_l. reflexivity.
Qed.

Lemma scan_none : forall d, utf8_scan d 0 = None <-> utf8_text d.
Proof.
  intros d. split.
  - intros H. destruct (text_prefix d) as [T | [cs [r [F [-> [NE NC]]]]]]; [exact T |].
    rewrite scan_text in H by exact F. destruct (scan_rest r (0 + len (encode_text cs)) NE NC) as [m [Q _]]. congruence.
  - intros [cs [F ->]]. rewrite <- (app_nil_r (encode_text cs)), scan_text by exact F. reflexivity.
Qed.
