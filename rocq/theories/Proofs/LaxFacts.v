(** The statistics without overflow checks *)
From Coq Require Import Lia ZifyN ZifyNat ZifyBool.
From Verif.Model Require Import Base Utf8Error Env Primitives Prot Frame Ktxstats.
From Verif.Spec Require Import Occ Mvd Stats Lax.
From Verif.Proofs Require Import BaseFacts FrameFacts StatsFacts.

Lemma uadd_wrap : forall E bound a b, checked E = false -> 0 < bound -> uadd E bound a b = Ret ((a + b) mod bound).
Proof.
  intros E bound a b C B. unfold uadd. destruct (a + b <? bound) eqn:X; [| rewrite C; reflexivity].
  rewrite N.mod_small by lia. reflexivity.
Qed.

Lemma mod_bound : forall a b, a < usize_bound -> b < usize_bound ->
  (a + b) mod usize_bound = if a + b <? usize_bound then a + b else a + b - usize_bound.
Proof.
  intros a b A B. destruct (a + b <? usize_bound) eqn:X.
  - apply N.mod_small. lia.
  - symmetry. apply N.mod_unique with 1; lia.
Qed.

(** dead at a block header *)
Definition dead_block (d : bytes) : Prop := len d < 8 \/ exists a b c e f g r, d = a :: b :: c :: e :: f :: g :: r /\ le16 f g <> 3.

Lemma eight : forall d : bytes, len d < 8 \/ exists a b c e f g i j r, d = a :: b :: c :: e :: f :: g :: i :: j :: r.
Proof.
  intros d. do 8 (destruct d as [| ? d]; [left; reflexivity |]). right. eauto 20.
Qed.

Lemma usub_any : forall E n, checked E = false -> n < 4294967296 -> exists v, usub E usize_bound n 2 = Ret v /\ v < usize_bound /\
  (2 <= n -> v = n - 2) /\ (n < 2 -> v = usize_bound + n - 2).
Proof.
  intros E n C U. unfold usub. destruct (2 <=? n) eqn:X.
  - exists (n - 2). unfold usize_bound. repeat split; try lia.
  - rewrite C. exists (n + usize_bound - 2). split; [rewrite N.mod_small by (unfold usize_bound; lia); reflexivity |].
    unfold usize_bound. repeat split; try lia.
Qed.

(** One round; [o] is the offset of the (possibly imaginary) frame header. *)
Lemma lax_round : forall E fuel data p d o content, checked E = false -> data = p ++ d -> len data < 9223372036854775808 ->
  o < usize_bound -> (o + 10) mod usize_bound = len p ->
  (dead_block d /\ ktxstats_loop E (S fuel) data o content = Ret content) \/
  (exists n part r, d = enc32 (len part + 2) ++ enc16 3 ++ enc16 n ++ part ++ r /\ n < 65536 /\ len part + 2 < 4294967296 /\
     ktxstats_loop E (S fuel) data o content =
     if n =? 0 then Ret (content ++ part)
     else ktxstats_loop E fuel data (len p + 8 + len part) (content ++ part)) \/
  ((~ dead_block d /\ forall n part r, d = enc32 (len part + 2) ++ enc16 3 ++ enc16 n ++ part ++ r -> n < 65536 -> len part + 2 < 4294967296 -> False) /\
   ktxstats_loop E (S fuel) data o content = Panic PSlice).
Proof.
  intros E fuel data p d o content C D LD LO MO.
  assert (len data = len p + len d) as L by (rewrite D, len_app; reflexivity).
  rewrite ktxstats_loop_S, uadd_wrap by (try exact C; reflexivity). cbn [bind]. rewrite MO.
  assert (slice_from data (len p) = Ret d) as S1 by (rewrite D; apply slice_from_app).
  rewrite S1. cbn [bind]. unfold block_try_from, cursor_new.
  destruct (eight d) as [SH | [a [b [c [e [f [g [i [j [r RD]]]]]]]]]].
  { left. split; [left; exact SH |].
    destruct (four d) as [[a [b [c [e [r ->]]]]] | S4].
    2: { destruct (read_u32_err E 0 d S4) as [err [cu ->]]. reflexivity. }
    rewrite read_u32_cons. change SHORT with 2.
    destruct (usub_any E (le32 a b c e) C (le32_lt a b c e)) as [v [-> _]]. cbn [bind].
    rewrite uadd_wrap by (try exact C; reflexivity). cbn [bind].
    destruct (two r) as [[f [g [r' ->]]] | S2].
    2: { destruct (read_u16_err E (0 + 4) r S2) as [err [cu ->]]. reflexivity. }
    rewrite read_u16_cons.
    destruct (two r') as [[i [j [r'' ->]]] | S2].
    2: { match goal with |- context[read_u16 E (mkCursor ?q r')] => destruct (read_u16_err E q r' S2) as [err [cu ->]] end. reflexivity. }
    rewrite !len_cons in SH. lia. }
  subst d. rewrite read_u32_cons. change SHORT with 2. pose proof (le32_lt a b c e) as U32.
  destruct (usub_any E (le32 a b c e) C U32) as [v [-> [LV [V1 V2]]]]. cbn [bind].
  rewrite uadd_wrap by (try exact C; reflexivity). cbn [bind]. rewrite !read_u16_cons. cbn [bind b_hidden_message b_body_size b_number].
  rewrite demoinfo_3. destruct (le16 f g =? 3) eqn:T; cbn [negb].
  2: { left. split; [| reflexivity]. right. exists a, b, c, e, f, g, (i :: j :: r). split; [reflexivity | lia]. }
  right. rewrite uadd_wrap by (try exact C; reflexivity). cbn [bind].
  assert ((o + 18) mod usize_bound = len p + 8) as M18.
  { replace (o + 18) with (o + 10 + 8) by lia. rewrite <- N.add_mod_idemp_l, MO by discriminate. apply N.mod_small. unfold usize_bound. lia. }
  rewrite M18. rewrite uadd_wrap by (try exact C; reflexivity). cbn [bind].
  rewrite !len_cons in L. pose proof (le16_lt i j) as LN.
  rewrite mod_bound by (unfold usize_bound in *; lia).
  destruct (N.lt_ge_cases (le32 a b c e) 2) as [S2 | G2].
  { right. rewrite V2 by exact S2. replace (len p + 8 + (usize_bound + le32 a b c e - 2) <? usize_bound) with false by (unfold usize_bound; lia).
    replace (len p + 8 + (usize_bound + le32 a b c e - 2) - usize_bound) with (len p + 6 + le32 a b c e) by (unfold usize_bound; lia).
    split.
    - split.
      + intros [X | [a' [b' [c' [e' [f' [g' [r' [X Y]]]]]]]]]; [rewrite !len_cons in X; lia |]. injection X as <- <- <- <- <- <- _. lia.
      + intros n part r' X _ LP. unfold enc32, enc16 in X. cbn [app] in X. injection X as X1 X2 X3 X4 _ _ _ _ _.
        assert (le32 a b c e = len part + 2) as Y by (subst a b c e; apply le32_enc32; exact LP). lia.
    - unfold slice. replace ((len p + 8 <=? len p + 6 + le32 a b c e) && _) with false by (symmetry; apply andb_false_iff; left; lia). reflexivity. }
  rewrite V1 by exact G2. replace (len p + 8 + (le32 a b c e - 2) <? usize_bound) with true by (unfold usize_bound; lia).
  destruct (N.le_gt_cases (le32 a b c e - 2) (len r)) as [LE | GT].
  - left. destruct (split_at _ r (le32 a b c e - 2) LE) as [part [r2 [-> LP]]].
    exists (le16 i j), part, r2. split.
    { replace (len part + 2) with (le32 a b c e) by lia. rewrite enc32_le32. replace 3 with (le16 f g) by lia. rewrite !enc16_le16. reflexivity. }
    split; [exact LN |]. split; [lia |].
    assert (slice data (len p + 8) (len p + 8 + (le32 a b c e - 2)) = Ret part) as S2.
    { rewrite D. replace (p ++ a :: b :: c :: e :: f :: g :: i :: j :: part ++ r2) with ((p ++ [a; b; c; e; f; g; i; j]) ++ part ++ r2) by (rewrite <- app_assoc; reflexivity).
      replace (len p + 8) with (len (p ++ [a; b; c; e; f; g; i; j])) by (rewrite len_app; reflexivity). rewrite <- LP. apply slice_app. }
    rewrite S2. cbn [bind]. destruct (le16 i j =? 0); [reflexivity |].
    cbn [bind]. rewrite <- LP. reflexivity.
  - right. split.
    + split.
      * intros [X | [a' [b' [c' [e' [f' [g' [r' [X Y]]]]]]]]]; [rewrite !len_cons in X; lia |]. injection X as <- <- <- <- <- <- _. lia.
      * intros n part r' X _ LP. unfold enc32, enc16 in X. cbn [app] in X. injection X as X1 X2 X3 X4 _ _ _ _ XR.
        assert (le32 a b c e = len part + 2) as Y by (subst a b c e; apply le32_enc32; exact LP).
        rewrite XR, len_app in GT. lia.
    + rewrite slice_panic by lia. reflexivity.
Qed.

Lemma dead_end_block : forall h d, len h = 10 -> (dead_end_lax (h ++ d) <-> dead_block d).
Proof.
  intros h d LH. unfold dead_end_lax, size_field, type_field. change 14%nat with (10 + 4)%nat. rewrite skipn_add.
  assert (skipn 10 (h ++ d) = d) as SK by (replace 10%nat with (length h) by (unfold len in LH; lia); apply skipn_app_exact).
  rewrite SK, len_app, LH. split.
  - intros [_ [H | [H | H]]].
    + left. destruct (eight d) as [X | [a [b [c [e [f [g [i [j [r ->]]]]]]]]]]; [exact X | discriminate].
    + left. lia.
    + destruct (eight d) as [X | [a [b [c [e [f [g [i [j [r ->]]]]]]]]]]; [left; exact X |]. right.
      exists a, b, c, e, f, g, (i :: j :: r). split; [reflexivity |]. cbn [skipn] in H. intros Y. apply H. rewrite <- Y. reflexivity.
  - intros [H | [a [b [c [e [f [g [r [-> H]]]]]]]]].
    + split; [lia |]. right. left. lia.
    + split; [lia |]. right. right. cbn [skipn]. intros Y. apply H. injection Y as Y. exact Y.
Qed.

Lemma embeds_lax_cons : forall b d text, wf_block b -> sb_number b <> 0 -> embeds_lax d text ->
  embeds_lax (encode_block b ++ d) (sb_content b ++ text).
Proof.
  intros b d text W N [bs [rest [-> [WS [-> EN]]]]]. exists (b :: bs), rest.
  split; [cbn [map concat]; rewrite <- app_assoc; reflexivity |]. split; [constructor; assumption |].
  split; [reflexivity |]. destruct EN as [[init [c [-> [Z F]]]] | [F DE]].
  - left. exists (b :: init), c. split; [reflexivity |]. split; [exact Z |]. constructor; assumption.
  - right. split; [constructor; assumption | exact DE].
Qed.

Lemma embeds_lax_last : forall b d, wf_block b -> sb_number b = 0 -> embeds_lax (encode_block b ++ d) (sb_content b).
Proof.
  intros b d W Z. exists [b], d. cbn [map concat]. rewrite !app_nil_r. split; [reflexivity |].
  split; [constructor; [exact W | constructor] |]. split; [reflexivity |].
  left. exists [], b. split; [reflexivity |]. split; [exact Z | constructor].
Qed.

Lemma embeds_lax_none : forall d, dead_end_lax d -> embeds_lax d [].
Proof. intros d H. exists [], d. split; [reflexivity |]. split; [constructor |].
  split; [reflexivity |]. right. split; [constructor | exact H]. Qed.

Lemma embeds_lax_inv : forall d text, embeds_lax d text ->
  (dead_end_lax d /\ text = []) \/
  (exists b d', d = encode_block b ++ d' /\ wf_block b /\
     ((sb_number b = 0 /\ text = sb_content b) \/ (sb_number b <> 0 /\ exists t, embeds_lax d' t /\ text = sb_content b ++ t))).
Proof.
  intros d text [bs [rest [-> [W [-> EN]]]]]. destruct bs as [| b bs].
  - left. destruct EN as [[init [b [X _]]] | [_ DE]]; [destruct init; discriminate |]. split; [exact DE | reflexivity].
  - right. pose proof (Forall_inv W) as WB. pose proof (Forall_inv_tail W) as WT. exists b, (concat (map encode_block bs) ++ rest).
    split; [cbn [map concat]; rewrite <- app_assoc; reflexivity |]. split; [exact WB |].
    destruct EN as [[init [c [X [Z F]]]] | [F DE]].
    + destruct init as [| c0 init]; injection X as -> ->.
      * left. split; [exact Z |]. cbn [map concat]. apply app_nil_r.
      * right. split; [exact (Forall_inv F) |]. exists (concat (map sb_content (init ++ [c]))). split; [| reflexivity].
        exists (init ++ [c]), rest. repeat split; auto. left. exists init, c. repeat split; auto. exact (Forall_inv_tail F).
    + right. split; [exact (Forall_inv F) |]. exists (concat (map sb_content bs)). split; [| reflexivity].
      exists bs, rest. repeat split; auto. right. split; [exact (Forall_inv_tail F) | exact DE].
Qed.

Lemma block_split : forall h d b d', len h = 10 -> wf_block b -> h ++ d = encode_block b ++ d' ->
  d = enc32 (len (sb_content b) + 2) ++ enc16 3 ++ enc16 (sb_number b) ++ sb_content b ++ d'.
Proof.
  intros h d b d' LH [LB _] H. unfold encode_block in H. rewrite <- !app_assoc in H.
  apply app_inj_len in H; [| lia]. apply H.
Qed.

Lemma header_parts : forall n n' part part' r r', n < 65536 -> n' < 65536 -> len part + 2 < 4294967296 -> len part' + 2 < 4294967296 ->
  enc32 (len part + 2) ++ enc16 3 ++ enc16 n ++ part ++ r = enc32 (len part' + 2) ++ enc16 3 ++ enc16 n' ++ part' ++ r' ->
  n = n' /\ part = part' /\ r = r'.
Proof.
  intros n n' part part' r r' L1 L2 L3 L4 H.
  apply app_inj_len in H; [| reflexivity]. destruct H as [H32 H].
  apply app_inj_len in H; [| reflexivity]. destruct H as [_ H].
  apply app_inj_len in H; [| reflexivity]. destruct H as [H16 H].
  assert (n = n') as ->.
  { unfold enc16 in H16. injection H16 as A B. rewrite <- (le16_enc16 n L1), <- (le16_enc16 n' L2). congruence. }
  assert (len part + 2 = len part' + 2) as LP.
  { unfold enc32 in H32. injection H32 as A B C D. rewrite <- (le32_enc32 _ L3), <- (le32_enc32 _ L4). congruence. }
  apply app_inj_len in H; [| lia]. destruct H as [-> ->]. auto.
Qed.

Lemma dead_not_block : forall n part r, n < 65536 -> len part + 2 < 4294967296 ->
  ~ dead_block (enc32 (len part + 2) ++ enc16 3 ++ enc16 n ++ part ++ r).
Proof.
  intros n part r _ _ [H | [a [b [c [e [f [g [r' [X Y]]]]]]]]].
  - rewrite !len_app, len_enc32, !len_enc16 in H. lia.
  - unfold enc32 in X. unfold enc16 at 1 in X. cbn [app] in X. injection X as _ _ _ _ <- <- _. apply Y. reflexivity.
Qed.

Lemma lax_loop : forall fuel E data p d o content h text, checked E = false -> data = p ++ d -> len data < 9223372036854775808 ->
  o < usize_bound -> (o + 10) mod usize_bound = len p -> (length d < fuel)%nat -> len h = 10 ->
  embeds_lax (h ++ d) text -> ktxstats_loop E fuel data o content = Ret (content ++ text).
Proof.
  induction fuel as [| fuel IH]; intros E data p d o content h text C D LD LO MO LF LH EM; [lia |].
  destruct (lax_round E fuel data p d o content C D LD LO MO) as [[DB R] | [[n [part [r [DD [LN [LP R]]]]]] | [[N1 N2] R]]]; rewrite R.
  - apply embeds_lax_inv in EM. destruct EM as [[_ ->] | [b [d' [X [WB _]]]]]; [rewrite app_nil_r; reflexivity |].
    apply block_split in X; [| exact LH | exact WB]. rewrite X in DB. destruct WB as [_ [W1 W2]].
    exfalso. eapply dead_not_block; [exact W1 | exact W2 | exact DB].
  - apply embeds_lax_inv in EM. destruct EM as [[DE _] | [b [d' [X [WB EN]]]]].
    { exfalso. apply dead_end_block in DE; [| exact LH]. rewrite DD in DE. exact (dead_not_block _ _ _ LN LP DE). }
    apply block_split in X; [| exact LH | exact WB]. rewrite DD in X. destruct WB as [_ [W1 W2]].
    destruct (header_parts _ _ _ _ _ _ LN W1 LP W2 X) as [-> [-> ->]].
    destruct EN as [[Z ->] | [Z [t [EM ->]]]].
    + rewrite Z. reflexivity.
    + replace (sb_number b =? 0) with false by lia.
      assert (10 <= len d') as L10.
      { apply embeds_lax_inv in EM. destruct EM as [[[L _] _] | [b' [d2 [-> [WB _]]]]]; [exact L |].
        rewrite len_app, len_encode_block by exact WB. lia. }
      destruct (split_at _ d' 10 L10) as [h' [d2 [-> LH']]].
      assert (data = (p ++ enc32 (len (sb_content b) + 2) ++ enc16 3 ++ enc16 (sb_number b) ++ sb_content b ++ h') ++ d2) as D2.
      { rewrite D, DD, <- !app_assoc. reflexivity. }
      assert (len (p ++ enc32 (len (sb_content b) + 2) ++ enc16 3 ++ enc16 (sb_number b) ++ sb_content b ++ h') = len p + 8 + len (sb_content b) + 10) as L2.
      { rewrite !len_app, len_enc32, !len_enc16. lia. }
      assert (len data = len p + 8 + len (sb_content b) + 10 + len d2) as LL by (rewrite D2, len_app, L2; reflexivity).
      rewrite (IH E data _ d2 (len p + 8 + len (sb_content b)) (content ++ sb_content b) h' t C D2 LD).
      * rewrite <- app_assoc. reflexivity.
      * unfold usize_bound. lia.
      * rewrite N.mod_small by (unfold usize_bound; lia). symmetry. exact L2.
      * assert (len data = len p + len d) as X2 by (rewrite D, len_app; reflexivity). unfold len in *. lia.
      * exact LH'.
      * exact EM.
  - exfalso. apply embeds_lax_inv in EM. destruct EM as [[DE _] | [b [d' [X [WB _]]]]].
    + apply N1. eapply dead_end_block; [exact LH | exact DE].
    + apply block_split in X; [| exact LH | exact WB]. destruct WB as [_ [W1 W2]]. exact (N2 _ _ _ X W1 W2).
Qed.

Lemma lax_loop_inv : forall fuel E data p d o content c h, checked E = false -> data = p ++ d -> len data < 9223372036854775808 ->
  o < usize_bound -> (o + 10) mod usize_bound = len p -> len h = 10 ->
  ktxstats_loop E fuel data o content = Ret c -> exists text, embeds_lax (h ++ d) text.
Proof.
  induction fuel as [| fuel IH]; intros E data p d o content c h C D LD LO MO LH H; [discriminate |].
  destruct (lax_round E fuel data p d o content C D LD LO MO) as [[DB R] | [[n [part [r [DD [LN [LP R]]]]]] | [[N1 N2] R]]]; rewrite R in H.
  - exists []. apply embeds_lax_none. apply dead_end_block; [exact LH | exact DB].
  - set (b := mkSblock h n part).
    assert (h ++ d = encode_block b ++ r) as HD.
    { rewrite DD. unfold encode_block. cbn [sb_header sb_number sb_content b]. rewrite <- !app_assoc. reflexivity. }
    assert (wf_block b) as WB by (repeat split; assumption).
    rewrite HD. destruct (n =? 0) eqn:Z.
    + exists part. apply (embeds_lax_last b r WB). cbn [sb_number b]. lia.
    + assert (len data = len p + 8 + len part + len r) as LL.
      { rewrite D, DD, !len_app, len_enc32, !len_enc16. lia. }
      destruct (N.lt_ge_cases (len r) 10) as [S | G].
      * exfalso. destruct fuel as [| fuel]; [discriminate |]. rewrite ktxstats_loop_S in H.
        rewrite uadd_small in H by (unfold usize_bound; lia). cbn [bind] in H. rewrite slice_from_panic in H by lia. discriminate.
      * destruct (split_at _ r 10 G) as [h' [d2 [-> LH']]].
        assert (data = (p ++ enc32 (len part + 2) ++ enc16 3 ++ enc16 n ++ part ++ h') ++ d2) as D2.
        { rewrite D, DD, <- !app_assoc. reflexivity. }
        assert (len (p ++ enc32 (len part + 2) ++ enc16 3 ++ enc16 n ++ part ++ h') = len p + 8 + len part + 10) as L2.
        { rewrite !len_app, len_enc32, !len_enc16. lia. }
        apply IH with (p := p ++ enc32 (len part + 2) ++ enc16 3 ++ enc16 n ++ part ++ h') (d := d2) (h := h') in H;
          [| exact C | exact D2 | exact LD | unfold usize_bound; lia | rewrite N.mod_small by (unfold usize_bound; lia); symmetry; exact L2 | exact LH'].
        destruct H as [t EM]. exists (part ++ t). apply (embeds_lax_cons b _ t WB); [cbn [sb_number b]; lia | exact EM].
  - discriminate.
Qed.

Lemma start_offset : forall E k, checked E = false -> k < 9223372036854775808 ->
  exists o, usub E usize_bound k 18 = Ret o /\ o < usize_bound /\ (8 <= k -> (o + 10) mod usize_bound = k - 8) /\
    (k < 8 -> o + 10 = usize_bound + k - 8).
Proof.
  intros E k C LK. unfold usub. destruct (18 <=? k) eqn:X.
  - exists (k - 18). split; [reflexivity |]. split; [unfold usize_bound; lia |]. split; [| lia].
    intros _. rewrite N.mod_small by (unfold usize_bound; lia). lia.
  - rewrite C. exists (k + usize_bound - 18). rewrite N.mod_small by (unfold usize_bound; lia). split; [reflexivity |].
    split; [unfold usize_bound; lia |]. split; [| unfold usize_bound; lia].
    intros G. rewrite mod_bound by (unfold usize_bound; lia).
    replace (k + usize_bound - 18 + 10 <? usize_bound) with false by (unfold usize_bound; lia). unfold usize_bound. lia.
Qed.

Lemma ktxstats_unchecked_proof : forall E data k text, checked E = false -> len data < 9223372036854775808 ->
  last_at data version_mark k -> 8 <= k -> embeds_lax (from_block data k) text ->
  ktxstats_string E data = Ret (if utf8_valid text then Ok text else Err (utf8_error_text text)).
Proof.
  intros E data k text C LD LA K EM. pose proof LA as [O _]. apply occurs_at_le in O.
  unfold ktxstats_string. change VERSION with version_mark. apply rfind_some in LA. rewrite LA.
  change TOTAL_HEADER_SIZE with 18. destruct (start_offset E k C) as [o [-> [LO [MO _]]]]; [lia |]. cbn [bind].
  destruct (split_at _ data (k - 8)) as [p [q [D LP]]]; [lia |].
  unfold from_block in EM. assert (skipn (N.to_nat (k - 8)) data = q) as SK by (rewrite D, <- LP; apply skipn_len_app). rewrite SK in EM.
  rewrite (lax_loop _ E data p q o [] (repeat x00 10) text); auto.
  - cbn [bind app]. destruct (utf8_valid _); reflexivity.
  - rewrite MO by exact K. symmetry. exact LP.
  - rewrite D, app_length. lia.
Qed.

Lemma ktxstats_unchecked_inv : forall E data k r, checked E = false -> len data < 9223372036854775808 ->
  last_at data version_mark k -> ktxstats_string E data = Ret r -> 8 <= k /\ exists text, embeds_lax (from_block data k) text.
Proof.
  intros E data k r C LD LA H. pose proof LA as [O _]. apply occurs_at_le in O. change (len version_mark) with 12 in O.
  unfold ktxstats_string in H. change VERSION with version_mark in H. apply rfind_some in LA. rewrite LA in H.
  change TOTAL_HEADER_SIZE with 18 in H. destruct (start_offset E k C) as [o [US [LO [MO MS]]]]; [lia |]. rewrite US in H. cbn [bind] in H.
  apply bind_ret_inv in H. destruct H as [c [LOOP _]].
  destruct (N.lt_ge_cases k 8) as [S | G].
  - exfalso. rewrite ktxstats_loop_S, uadd_wrap in LOOP by (try exact C; reflexivity). cbn [bind] in LOOP.
    rewrite MS in LOOP by exact S. rewrite N.mod_small in LOOP by (unfold usize_bound; lia).
    rewrite slice_from_panic in LOOP by (unfold usize_bound; lia). discriminate.
  - split; [exact G |]. destruct (split_at _ data (k - 8)) as [p [q [D LP]]]; [lia |].
    unfold from_block. assert (skipn (N.to_nat (k - 8)) data = q) as SK by (rewrite D, <- LP; apply skipn_len_app). rewrite SK.
    eapply lax_loop_inv with (h := repeat x00 10) in LOOP; [exact LOOP | exact C | exact D | exact LD | exact LO | | reflexivity].
    rewrite MO by exact G. symmetry. exact LP.
Qed.

Lemma lax_loop_panic : forall fuel E data p d o content q, checked E = false -> data = p ++ d -> len data < 9223372036854775808 ->
  o < usize_bound -> (o + 10) mod usize_bound = len p -> ktxstats_loop E fuel data o content = Panic q -> q = PSlice.
Proof.
  induction fuel as [| fuel IH]; intros E data p d o content q C D LD LO MO H; [discriminate |].
  destruct (lax_round E fuel data p d o content C D LD LO MO) as [[DB R] | [[n [part [r [DD [LN [LP R]]]]]] | [_ R]]]; rewrite R in H.
  - discriminate.
  - destruct (n =? 0) eqn:Z; [discriminate |].
    assert (len data = len p + 8 + len part + len r) as LL.
    { rewrite D, DD, !len_app, len_enc32, !len_enc16. lia. }
    destruct (N.lt_ge_cases (len r) 10) as [S | G].
    + destruct fuel as [| fuel]; [discriminate |]. rewrite ktxstats_loop_S in H.
      rewrite uadd_small in H by (unfold usize_bound; lia). cbn [bind] in H. rewrite slice_from_panic in H by lia. injection H as <-. reflexivity.
    + destruct (split_at _ r 10 G) as [h' [d2 [-> LH']]].
      apply IH with (p := p ++ enc32 (len part + 2) ++ enc16 3 ++ enc16 n ++ part ++ h') (d := d2) in H; [exact H | exact C | | exact LD | unfold usize_bound; lia |].
      * rewrite D, DD, <- !app_assoc. reflexivity.
      * rewrite N.mod_small by (unfold usize_bound; lia). rewrite !len_app, len_enc32, !len_enc16. lia.
  - injection H as <-. reflexivity.
Qed.

Lemma ktxstats_unchecked_panic : forall E data k p, checked E = false -> len data < 9223372036854775808 ->
  last_at data version_mark k -> ktxstats_string E data = Panic p -> p = PSlice.
Proof.
  intros E data k p C LD LA H. pose proof LA as [O _]. apply occurs_at_le in O. change (len version_mark) with 12 in O.
  unfold ktxstats_string in H. change VERSION with version_mark in H. apply rfind_some in LA. rewrite LA in H.
  change TOTAL_HEADER_SIZE with 18 in H. destruct (start_offset E k C) as [o [US [LO [MO MS]]]]; [lia |]. rewrite US in H. cbn [bind] in H.
  destruct (ktxstats_loop E (S (length data)) data o []) as [c | q |] eqn:LOOP; cbn [bind] in H; [destruct (utf8_valid c); discriminate | | discriminate].
  injection H as ->. destruct (N.lt_ge_cases k 8) as [S | G].
  - rewrite ktxstats_loop_S, uadd_wrap in LOOP by (try exact C; reflexivity). cbn [bind] in LOOP.
    rewrite MS in LOOP by exact S. rewrite N.mod_small in LOOP by (unfold usize_bound; lia).
    rewrite slice_from_panic in LOOP by (unfold usize_bound; lia). injection LOOP as <-. reflexivity.
  - destruct (split_at _ data (k - 8)) as [a [q [D LP]]]; [lia |].
    eapply lax_loop_panic in LOOP; [exact LOOP | exact C | exact D | exact LD | exact LO |]. rewrite MO by exact G. symmetry. exact LP.
Qed.
