(** Facts about the embedded statistics. *)
From Coq Require Import Lia.
From Verif.Model Require Import Base Utf8Error Env Primitives Prot Frame Ktxstats.
From Verif.Spec Require Import Occ Mvd Stats.
From Verif.Proofs Require Import BaseFacts FrameFacts.

Lemma uadd_small : forall E bound a b, a + b < bound -> uadd E bound a b = Ret (a + b).
Proof. intros. unfold uadd. replace (a + b <? bound) with true by lia. reflexivity. Qed.
Lemma usub_small : forall E bound a b, b <= a -> usub E bound a b = Ret (a - b).
Proof. intros. unfold usub. replace (b <=? a) with true by lia. reflexivity. Qed.

Lemma ktxstats_loop_S : forall E fuel data offset content,
  ktxstats_loop E (S fuel) data offset content =
  (let! a := uadd E usize_bound offset 10 in
   let! d := slice_from data a in
   let! b := block_try_from E d in
   match b with
   | Err _ => Ret content
   | Ok info =>
       if negb (is_demoinfo (b_hidden_message info)) then Ret content
       else
         let! offset := uadd E usize_bound offset 18 in
         let! to := uadd E usize_bound offset (b_body_size info) in
         let! part := slice data offset to in
         if b_number info =? 0 then Ret (content ++ part)
         else
           let! offset := uadd E usize_bound offset (b_body_size info) in
           ktxstats_loop E fuel data offset (content ++ part)
   end).
Proof. reflexivity. Qed.

Lemma len_enc16 : forall n, len (enc16 n) = 2.
Proof. reflexivity. Qed.

Lemma len_encode_block : forall b, wf_block b -> len (encode_block b) = 18 + len (sb_content b).
Proof.
  intros b [H [_ _]]. unfold encode_block. rewrite !len_app, H, len_enc32, !len_enc16. lia.
Qed.

Lemma block_header : forall E n h m r, 2 <= n < 4294967296 -> h < 65536 -> m < 65536 ->
  block_try_from E (enc32 n ++ enc16 h ++ enc16 m ++ r) =
  Ret (Ok {| b_body_size := n - 2; b_total_size := 8 + (n - 2);
             b_hidden_message := hidden_message_from h; b_number := m |}).
Proof.
  intros E n h m r [L U] H M. unfold block_try_from, cursor_new.
  unfold enc32, enc16. cbn [app]. rewrite read_u32_cons, le32_enc32 by exact U.
  change SHORT with 2. rewrite usub_small by exact L. cbn [bind].
  change BLOCK_HEADER_SIZE with 8. rewrite uadd_small by (unfold usize_bound; lia). cbn [bind].
  rewrite read_u16_cons, le16_enc16 by exact H. rewrite read_u16_cons, le16_enc16 by exact M. reflexivity.
Qed.

Lemma block_step : forall E fuel data p b r content, wf_block b -> data = p ++ encode_block b ++ r ->
  len data < usize_bound ->
  ktxstats_loop E (S fuel) data (len p) content =
  if sb_number b =? 0 then Ret (content ++ sb_content b)
  else ktxstats_loop E fuel data (len (p ++ encode_block b)) (content ++ sb_content b).
Proof.
  intros E fuel data p b r content W D LD.
  assert (len data = len p + (18 + len (sb_content b)) + len r) as L.
  { rewrite D, !len_app, len_encode_block by exact W. lia. }
  pose proof W as [H10 [LN LC]].
  assert (data = (p ++ sb_header b) ++ enc32 (len (sb_content b) + 2) ++ enc16 3 ++ enc16 (sb_number b) ++ sb_content b ++ r) as D2.
  { rewrite D. unfold encode_block. rewrite <- !app_assoc. reflexivity. }
  rewrite ktxstats_loop_S. rewrite uadd_small by lia. cbn [bind].
  assert (slice_from data (len p + 10) = Ret (enc32 (len (sb_content b) + 2) ++ enc16 3 ++ enc16 (sb_number b) ++ sb_content b ++ r)) as S1.
  { rewrite D2. replace (len p + 10) with (len (p ++ sb_header b)) by (rewrite len_app, H10; reflexivity). apply slice_from_app. }
  rewrite S1. cbn [bind].
  rewrite block_header by (try exact LN; lia). cbn [bind b_hidden_message b_body_size b_number].
  change (is_demoinfo (hidden_message_from 3)) with true. cbn [negb].
  rewrite uadd_small by lia. cbn [bind]. replace (len (sb_content b) + 2 - 2) with (len (sb_content b)) by lia.
  rewrite uadd_small by lia. cbn [bind].
  assert (slice data (len p + 18) (len p + 18 + len (sb_content b)) = Ret (sb_content b)) as S2.
  { replace data with ((p ++ sb_header b ++ enc32 (len (sb_content b) + 2) ++ enc16 3 ++ enc16 (sb_number b)) ++ sb_content b ++ r)
      by (rewrite D2, <- !app_assoc; reflexivity).
    replace (len p + 18) with (len (p ++ sb_header b ++ enc32 (len (sb_content b) + 2) ++ enc16 3 ++ enc16 (sb_number b)))
      by (rewrite !len_app, H10, len_enc32, !len_enc16; lia).
    apply slice_app. }
  rewrite S2. cbn [bind]. destruct (sb_number b =? 0); [reflexivity |].
  rewrite len_app, len_encode_block by exact W.
  replace (len p + (18 + len (sb_content b))) with (len p + 18 + len (sb_content b)) by lia. reflexivity.
Qed.

Lemma four : forall d : bytes, (exists a b c e r, d = a :: b :: c :: e :: r) \/ (length d < 4)%nat.
Proof. intros [| a [| b [| c [| e r]]]]; [right; simpl; lia .. | left; eauto 10]. Qed.
Lemma two : forall d : bytes, (exists a b r, d = a :: b :: r) \/ (length d < 2)%nat.
Proof. intros [| a [| b r]]; [right; simpl; lia .. | left; eauto]. Qed.

Lemma read_u32_err : forall E pos r, (length r < 4)%nat -> exists e c, read_u32 E (mkCursor pos r) = (Err e, c).
Proof.
  intros E pos r L. unfold read_u32, read_exact. cbn [c_rest].
  replace (Nat.leb 4 (length r)) with false by (symmetry; apply Nat.leb_gt; exact L). eauto.
Qed.
Lemma read_u16_err : forall E pos r, (length r < 2)%nat -> exists e c, read_u16 E (mkCursor pos r) = (Err e, c).
Proof.
  intros E pos r L. unfold read_u16, read_exact. cbn [c_rest].
  replace (Nat.leb 2 (length r)) with false by (symmetry; apply Nat.leb_gt; exact L). eauto.
Qed.

Lemma demoinfo_3 : forall h, is_demoinfo (hidden_message_from h) = (h =? 3).
Proof.
  intros h. destruct h as [| h]; [reflexivity |].
  do 16 (destruct h as [h | h |]; try reflexivity).
Qed.

Lemma skipn_add : forall A a b (l : list A), skipn (a + b) l = skipn b (skipn a l).
Proof. intros A a. induction a as [| a IH]; intros b l; [reflexivity |]. destruct l; [destruct b; reflexivity | apply IH]. Qed.

Lemma dead_end_stops : forall E fuel data p rest content, dead_end rest -> data = p ++ rest ->
  len data < usize_bound -> ktxstats_loop E (S fuel) data (len p) content = Ret content.
Proof.
  intros E fuel data p rest content [L10 S] D LD.
  assert (len data = len p + len rest) as L by (rewrite D, len_app; reflexivity).
  rewrite ktxstats_loop_S. rewrite uadd_small by lia. cbn [bind].
  destruct (split_at _ rest 10 L10) as [h [d [HD HL]]].
  assert (skipn 10 rest = d) as SK.
  { subst rest. replace 10%nat with (length h) by (unfold len in HL; lia). apply skipn_app_exact. }
  assert (slice_from data (len p + 10) = Ret d) as S1.
  { rewrite D, HD, app_assoc, <- HL, <- len_app. apply slice_from_app. }
  rewrite S1. cbn [bind]. unfold size_field in S. unfold type_field in S.
  change 14%nat with (10 + 4)%nat in S. rewrite skipn_add, SK in S.
  unfold block_try_from, cursor_new.
  destruct (four d) as [[a [b [c [e [r ->]]]]] | SH].
  2: { destruct (read_u32_err E 0 d SH) as [err [cu ->]]. reflexivity. }
  cbn [skipn] in S. destruct S as [S2 S3].
  rewrite read_u32_cons. change SHORT with 2. change BLOCK_HEADER_SIZE with 8.
  assert (le32 a b c e = n_of a + 256 * n_of b + 65536 * n_of c + 16777216 * n_of e) as LE by reflexivity.
  pose proof (le32_lt a b c e). rewrite usub_small by (rewrite LE; exact S2). cbn [bind].
  rewrite uadd_small by (unfold usize_bound; lia). cbn [bind].
  destruct (two r) as [[f [g [r' ->]]] | SH].
  2: { destruct (read_u16_err E (0 + 4) r SH) as [err [cu ->]]. reflexivity. }
  rewrite read_u16_cons.
  destruct (two r') as [[i [j [r'' ->]]] | SH].
  2: { match goal with |- context[read_u16 E (mkCursor ?q r')] => destruct (read_u16_err E q r' SH) as [err [cu ->]] end. reflexivity. }
  rewrite read_u16_cons. cbn [bind b_hidden_message].
  rewrite demoinfo_3. replace (le16 f g =? 3) with false; [reflexivity |]. symmetry. apply N.eqb_neq.
  destruct S3 as [S3 | S3].
  - rewrite HD, len_app, HL, !len_cons in S3. lia.
  - intros X. apply S3. unfold le16 in X. rewrite X. reflexivity.
Qed.

Lemma chain_loop : forall bs E fuel data p rest content,
  data = p ++ concat (map encode_block bs) ++ rest -> Forall wf_block bs -> len data < usize_bound ->
  (length bs < fuel)%nat ->
  ((exists init b, bs = init ++ [b] /\ sb_number b = 0 /\ Forall (fun b => sb_number b <> 0) init)
   \/ (Forall (fun b => sb_number b <> 0) bs /\ dead_end rest)) ->
  ktxstats_loop E fuel data (len p) content = Ret (content ++ concat (map sb_content bs)).
Proof.
  induction bs as [| b bs IH]; intros E fuel data p rest content D W LD LF EN; (destruct fuel as [| fuel]; [simpl in LF; lia |]).
  - destruct EN as [[init [b [X _]]] | [_ DE]]; [destruct init; discriminate |].
    cbn [map concat app] in *. rewrite app_nil_r. eapply dead_end_stops; eauto.
  - pose proof (Forall_inv W) as WB. pose proof (Forall_inv_tail W) as WT.
    cbn [map concat] in *. rewrite <- app_assoc in D.
    rewrite (block_step E fuel data p b _ content WB D LD).
    destruct EN as [[init [b' [X [Z F]]]] | [F DE]].
    + destruct init as [| b0 init].
      * inv X. rewrite Z. cbn [concat map]. rewrite app_nil_r. reflexivity.
      * inv X. pose proof (Forall_inv F) as NB. cbv beta in NB.
        replace (sb_number b0 =? 0) with false by lia.
        rewrite (IH E fuel _ (p ++ encode_block b0) rest); [rewrite <- app_assoc; reflexivity | | exact WT | exact LD | simpl in LF; lia |].
        { rewrite <- app_assoc. reflexivity. }
        left. exists init, b'. repeat split; auto. eapply Forall_inv_tail. exact F.
    + pose proof (Forall_inv F) as NB. cbv beta in NB. replace (sb_number b =? 0) with false by lia.
      rewrite (IH E fuel data (p ++ encode_block b) rest); [rewrite <- app_assoc; reflexivity | | exact WT | exact LD | simpl in LF; lia |].
      { rewrite D, <- app_assoc. reflexivity. }
      right. split; [eapply Forall_inv_tail; exact F | exact DE].
Qed.

Lemma chain_length : forall bs, Forall wf_block bs -> (length bs <= length (concat (map encode_block bs)))%nat.
Proof.
  induction 1 as [| b bs W _ IH]; cbn [map concat length]; [lia |]. rewrite app_length.
  pose proof (len_encode_block b W) as L. unfold len in L. lia.
Qed.

Lemma ktxstats_embedded_proof : forall E data k text, last_at data version_mark k -> 18 <= k ->
  len data < usize_bound -> embeds (skipn (N.to_nat (k - 18)) data) text ->
  ktxstats_string E data = Ret (if utf8_valid text then Ok text else Err (utf8_error_text text)).
Proof.
  intros E data k text LA K LD [bs [rest [D [W [-> EN]]]]].
  pose proof LA as [O _]. apply occurs_at_le in O.
  unfold ktxstats_string. change VERSION with version_mark. apply rfind_some in LA. rewrite LA.
  change TOTAL_HEADER_SIZE with 18. rewrite usub_small by exact K. cbn [bind].
  destruct (split_at _ data (k - 18)) as [p [q [-> LP]]]; [lia |].
  assert (skipn (N.to_nat (k - 18)) (p ++ q) = q) as SK by (rewrite <- LP; apply skipn_len_app).
  rewrite SK in D. subst q.
  rewrite <- LP.
  rewrite (chain_loop bs E _ _ p rest []); auto.
  - cbn [bind app]. destruct (utf8_valid _); reflexivity.
  - rewrite !app_length. pose proof (chain_length bs W). lia.
Qed.

Lemma ktxstats_missing_proof : forall E data,
  ktxstats_string E data = Ret (Err "ktxstats not found") <-> ~ occurs data version_mark.
Proof.
  intros E data. rewrite <- rfind_none. unfold ktxstats_string. change VERSION with version_mark.
  destruct (rfind data version_mark) as [k |]; split; try congruence.
  intros H. apply bind_ret_inv in H. destruct H as [a [_ H]]. apply bind_ret_inv in H. destruct H as [c [_ H]].
  destruct (utf8_valid c); [discriminate |]. injection H as H. unfold utf8_error_text in H.
  destruct (utf8_scan c 0) as [[i [n |]] |]; discriminate.
Qed.

(** With overflow checks on, the loop returns only at a proper end. *)
Lemma embeds_cons : forall b d text, wf_block b -> sb_number b <> 0 -> embeds d text ->
  embeds (encode_block b ++ d) (sb_content b ++ text).
Proof.
  intros b d text W N [bs [rest [-> [WS [-> EN]]]]]. exists (b :: bs), rest.
  split; [cbn [map concat]; rewrite <- app_assoc; reflexivity |]. split; [constructor; assumption |].
  split; [reflexivity |]. destruct EN as [[init [c [-> [Z F]]]] | [F DE]].
  - left. exists (b :: init), c. split; [reflexivity |]. split; [exact Z |]. constructor; assumption.
  - right. split; [constructor; assumption | exact DE].
Qed.

Lemma embeds_last : forall b d, wf_block b -> sb_number b = 0 -> embeds (encode_block b ++ d) (sb_content b).
Proof.
  intros b d W Z. exists [b], d. cbn [map concat]. rewrite !app_nil_r. split; [reflexivity |].
  split; [constructor; [exact W | constructor] |]. split; [reflexivity |].
  left. exists [], b. split; [reflexivity |]. split; [exact Z | constructor].
Qed.

Lemma embeds_none : forall d, dead_end d -> embeds d [].
Proof. intros d H. exists [], d. split; [reflexivity |]. split; [constructor |].
  split; [reflexivity |]. right. split; [constructor | exact H]. Qed.

Lemma loop_returns_inv : forall fuel E data p d content c, checked E = true -> data = p ++ d ->
  len data < usize_bound -> ktxstats_loop E fuel data (len p) content = Ret c ->
  exists text, c = content ++ text /\ embeds d text.
Proof.
  induction fuel as [| fuel IH]; intros E data p d content c CH D LD H; [discriminate |].
  assert (len data = len p + len d) as L by (rewrite D, len_app; reflexivity).
  destruct (N.lt_ge_cases (len d) 10) as [S | G].
  { rewrite ktxstats_loop_S in H. apply bind_ret_inv in H. destruct H as [a [UA H]].
    unfold uadd in UA. destruct (_ <? _); [| rewrite CH in UA; discriminate]. inv UA.
    rewrite slice_from_panic in H by lia. discriminate. }
  destruct (split_at _ d 10 G) as [h [r [HD HL]]].
  assert (skipn 10 d = r) as SK.
  { rewrite HD. replace 10%nat with (length h) by (unfold len in HL; lia). apply skipn_app_exact. }
  assert (dead_end d \/ ~ dead_end d) as [DE | NDE].
  { unfold dead_end. destruct (size_field d) as [n |]; [| left; auto].
    destruct (type_field d) as [t |]; [destruct (N.eq_dec t 3) as [-> | NT] |].
    - destruct (N.le_gt_cases 2 n); destruct (N.lt_ge_cases (len d) 18); try (left; split; [exact G | split; [assumption | left; assumption]]).
      + right. intros [_ [_ [X | X]]]; [lia | congruence].
      + right. intros [_ [X _]]. lia.
      + right. intros [_ [X _]]. lia.
    - destruct (N.le_gt_cases 2 n).
      + left. split; [exact G |]. split; [assumption |]. right. congruence.
      + right. intros [_ [X _]]. lia.
    - destruct (N.le_gt_cases 2 n).
      + left. split; [exact G |]. split; [assumption |]. right. congruence.
      + right. intros [_ [X _]]. lia. }
  { rewrite (dead_end_stops E fuel data p d content DE D LD) in H. inv H. exists []. rewrite app_nil_r.
    split; [reflexivity |]. apply embeds_none. exact DE. }
  rewrite ktxstats_loop_S in H. rewrite uadd_small in H by lia. cbn [bind] in H.
  assert (slice_from data (len p + 10) = Ret r) as S1.
  { rewrite D, HD, app_assoc, <- HL, <- len_app. apply slice_from_app. }
  rewrite S1 in H. cbn [bind] in H.
  destruct (four r) as [[a [b [e [f [r2 R2]]]]] | SH].
  2: { exfalso. apply NDE. split; [exact G |]. unfold size_field. rewrite SK.
       destruct r as [| ? [| ? [| ? [| ? r]]]]; try exact I. simpl in SH. lia. }
  assert (size_field d = Some (le32 a b e f)) as SF by (unfold size_field; rewrite SK, R2; reflexivity).
  unfold dead_end in NDE. rewrite SF in NDE.
  unfold block_try_from, cursor_new in H. rewrite R2, read_u32_cons in H.
  destruct (N.lt_ge_cases (le32 a b e f) 2) as [S | G2].
  { unfold usub in H. change SHORT with 2 in H. replace (2 <=? le32 a b e f) with false in H by lia.
    rewrite CH in H. discriminate. }
  assert (18 <= len d /\ type_field d = Some 3) as [G3 T3].
  { destruct (N.lt_ge_cases (len d) 18) as [X | X]; [exfalso; apply NDE; auto |]. split; [exact X |].
    destruct (type_field d) as [t |] eqn:T; [destruct (N.eq_dec t 3) as [-> | NT]; [reflexivity |] |];
      exfalso; apply NDE; (split; [exact G | split; [exact G2 | right; congruence]]). }
  unfold type_field in T3. change 14%nat with (10 + 4)%nat in T3. rewrite skipn_add, SK, R2 in T3. cbn [skipn] in T3.
  destruct r2 as [| g1 [| g2 r2]]; try discriminate. assert (le16 g1 g2 = 3) as T by (inv T3; reflexivity).
  destruct r2 as [| n1 [| n2 r2]];
    [exfalso; rewrite HD, R2, len_app, HL, !len_cons in G3; unfold len in G3; cbn [length] in G3; lia .. |].
  change SHORT with 2 in H. change BLOCK_HEADER_SIZE with 8 in H. pose proof (le32_lt a b e f) as U32.
  rewrite usub_small in H by exact G2. cbn [bind] in H. rewrite uadd_small in H by (unfold usize_bound; lia). cbn [bind] in H.
  rewrite !read_u16_cons in H. cbn [bind b_hidden_message b_body_size b_number] in H.
  rewrite T in H. change (is_demoinfo (hidden_message_from 3)) with true in H. cbn [negb] in H.
  rewrite uadd_small in H by lia. cbn [bind] in H.
  apply bind_ret_inv in H. destruct H as [to [TO H]].
  unfold uadd in TO. destruct (_ <? _) eqn:UB in TO; [| rewrite CH in TO; discriminate]. inv TO.
  apply bind_ret_inv in H. destruct H as [part [SL H]]. apply slice_inv in SL.
  destruct SL as [u [v [DU [LU [LP _]]]]].
  set (sz := le32 a b e f) in *.
  assert (exists v', r2 = part ++ v') as [v' RV].
  { exists v. assert (p ++ (h ++ a :: b :: e :: f :: g1 :: g2 :: n1 :: [n2]) ++ r2 = u ++ part ++ v) as X.
    { rewrite <- DU, <- app_assoc. reflexivity. }
    rewrite app_assoc in X. apply app_inj_len in X; [destruct X; assumption |].
    rewrite !len_app, HL, LU. reflexivity. }
  set (blk := mkSblock h (le16 n1 n2) part).
  assert (wf_block blk) as WB.
  { split; [exact HL |]. split; [apply le16_lt |]. cbn [sb_content blk]. lia. }
  assert (h ++ a :: b :: e :: f :: g1 :: g2 :: n1 :: n2 :: r2 = encode_block blk ++ v') as DB.
  { unfold encode_block. cbn [sb_header sb_content sb_number blk].
    replace (len part + 2) with (le32 a b e f) by (fold sz; lia). rewrite enc32_le32, enc16_le16, <- T, enc16_le16, RV.
    rewrite <- !app_assoc. reflexivity. }
  rewrite DB.
  change (le16 n1 n2) with (sb_number blk) in H. assert (sb_content blk = part) as CP by reflexivity.
  rewrite <- CP in H, LP.
  destruct (sb_number blk =? 0) eqn:Z.
  - injection H as <-. exists (sb_content blk). split; [reflexivity |]. apply embeds_last; [exact WB | lia].
  - rewrite uadd_small in H by lia. cbn [bind] in H.
    assert (len p + 18 + (sz - 2) = len (p ++ encode_block blk)) as LE.
    { rewrite len_app, len_encode_block by exact WB. lia. }
    rewrite LE in H. apply IH with (d := v') in H; [| exact CH | | exact LD].
    + destruct H as [text [-> EM]]. exists (sb_content blk ++ text). split; [rewrite <- app_assoc; reflexivity |].
      apply embeds_cons; [exact WB | lia | exact EM].
    + rewrite DB, app_assoc. reflexivity.
Qed.

Lemma ktxstats_returns_proof : forall E data k r, checked E = true -> len data < usize_bound ->
  last_at data version_mark k -> ktxstats_string E data = Ret r ->
  18 <= k /\ exists text, embeds (skipn (N.to_nat (k - 18)) data) text.
Proof.
  intros E data k r CH LD LA H. pose proof LA as [O _]. apply occurs_at_le in O.
  unfold ktxstats_string in H. change VERSION with version_mark in H. apply rfind_some in LA. rewrite LA in H.
  change TOTAL_HEADER_SIZE with 18 in H. apply bind_ret_inv in H. destruct H as [o [US H]].
  unfold usub in US. destruct (18 <=? k) eqn:K; [| rewrite CH in US; discriminate]. inv US.
  split; [lia |]. apply bind_ret_inv in H. destruct H as [c [LO _]].
  destruct (split_at _ data (k - 18)) as [p [q [D LP]]]; [lia |].
  rewrite <- LP in LO. apply loop_returns_inv with (d := q) in LO; [| exact CH | exact D | exact LD].
  destruct LO as [text [_ EM]]. exists text.
  assert (skipn (N.to_nat (k - 18)) data = q) as -> by (rewrite D, <- LP; apply skipn_len_app). exact EM.
Qed.
