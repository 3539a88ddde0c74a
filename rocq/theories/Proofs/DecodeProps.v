(** Proofs about the decoders of single protocol structures. *)
From Coq Require Import Lia.
From Verif.Model Require Import Base Env Primitives Prot Frame Message.
From Verif.Spec Require Import Occ Mvd Messages Codes.
From Verif.Proofs Require Import BaseFacts FrameFacts PrintFacts.

(** Tables *)
Lemma target_codes : forall b, target_code (target_from b) = addressee b.
Proof. intros b; destruct b; reflexivity. Qed.

Lemma command_codes : forall b, command_code (command_from b) = frame_class b.
Proof. intros b; destruct b; reflexivity. Qed.

Lemma target_code_inj : forall a b, target_code a = target_code b -> a = b.
Proof. intros [] [] H; try reflexivity; discriminate H. Qed.

Lemma command_code_inj : forall a b, command_code a = command_code b -> a = b.
Proof. intros [] [] H; try reflexivity; discriminate H. Qed.

Lemma message_type_codes : forall b t, t <> MtUnknown ->
  (message_type_from b = t <-> n_of b = message_type_code t).
Proof.
  intros b t H. split.
  - intros <-. destruct b; first [reflexivity | exfalso; apply H; reflexivity].
  - intros K. destruct t; try (exfalso; apply H; reflexivity);
      match type of K with _ = message_type_code ?t =>
        let c := eval vm_compute in (message_type_code t) in
        change (n_of b = c) in K
      end; unfold message_type_from; rewrite K; reflexivity.
Qed.

Lemma is_unknown_dec : forall t, {t = MtUnknown} + {t <> MtUnknown}.
Proof. intros []; first [left; reflexivity | right; discriminate]. Qed.

Lemma message_type_unknown : forall b,
  message_type_from b = MtUnknown <->
  forall t, t <> MtUnknown -> message_type_code t <> n_of b.
Proof.
  intros b. split.
  - intros H t T K. symmetry in K. apply message_type_codes in K; [| assumption]. congruence.
  - intros H. destruct (is_unknown_dec (message_type_from b)) as [K | K]; [assumption |].
    exfalso. apply (H _ K). symmetry. apply message_type_codes; [assumption | reflexivity].
Qed.

Lemma print_id_codes : forall b t, t <> PiUnknown ->
  (print_id_from b = t <-> n_of b = print_id_code t).
Proof.
  intros b t H. split.
  - intros <-. destruct b; first [reflexivity | exfalso; apply H; reflexivity].
  - intros K. destruct t; try (exfalso; apply H; reflexivity);
      cbn [print_id_code] in K; unfold print_id_from; rewrite K; reflexivity.
Qed.

Lemma print_id_unknown : forall b, print_id_from b = PiUnknown <-> 3 < n_of b.
Proof. intros b; destruct b; split; intros H; try reflexivity; discriminate H. Qed.

Lemma hidden_message_codes : forall n t, t <> HmUnknown ->
  (hidden_message_from n = t <-> n = hidden_message_code t).
Proof.
  intros n t H. split.
  - intros K. subst t. unfold hidden_message_from in *.
    repeat match goal with
    | |- _ = hidden_message_code (match ?x with _ => _ end) => destruct x
    end; first [reflexivity | exfalso; apply H; reflexivity].
  - intros ->. destruct t; first [reflexivity | exfalso; apply H; reflexivity].
Qed.

Lemma hidden_message_unknown : forall n,
  hidden_message_from n = HmUnknown <-> 10 < n /\ n <> 65535.
Proof.
  intros n. split.
  - intros H. split.
    + apply N.nle_gt. intros L.
      assert (C : n = 0 \/ n = 1 \/ n = 2 \/ n = 3 \/ n = 4 \/ n = 5 \/ n = 6 \/ n = 7 \/ n = 8
                  \/ n = 9 \/ n = 10) by lia.
      repeat destruct C as [C | C]; subst n; discriminate H.
    + intros ->. discriminate H.
  - intros [L D]. unfold hidden_message_from.
    repeat match goal with
    | |- match ?x with _ => _ end = HmUnknown => destruct x; try reflexivity; try (exfalso; lia)
    end.
Qed.

(** Frame headers *)
Lemma header_decoded_proof : forall E before f after, wf_frame f ->
  exists h i,
    len (encode_frame f) = h + len (f_body f) /\
    from_data_and_index E (before ++ encode_frame f ++ after) (len before) = Ret (Ok i) /\
    i_duration i = n_of (f_time f) /\
    target_code (i_target i) = addressee (f_type f) /\
    command_code (i_command i) = frame_class (f_type f) /\
    i_index i = len before /\
    i_size i = len (encode_frame f) /\
    i_header_size i = h /\
    i_header_range i = (len before, len before + h) /\
    i_body_size i = len (f_body f) /\
    i_body_range i = (len before + h, len before + len (encode_frame f)).
Proof.
  intros E before f after W. pose proof (announced_encode f after W) as A.
  pose proof (len_encode_frame f W) as L.
  exists (hdr (f_type f)), (info_at (len before) (f_time f) (f_type f) (len (encode_frame f))).
  split; [exact L |]. split.
  - rewrite (fdi_some E before _ _ (f_time f) (f_type f) _ A eq_refl).
    rewrite !len_app.
    replace (len before + (len (encode_frame f) + len after) <? len (encode_frame f)) with false
      by (symmetry; apply N.ltb_ge; lia).
    reflexivity.
  - unfold info_at. cbn [i_duration i_target i_command i_index i_size i_header_size
      i_header_range i_body_size i_body_range].
    rewrite target_codes, command_codes. repeat split; try reflexivity. lia.
Qed.

Lemma header_total_proof : forall E before rest,
  (announced rest = None ->
     from_data_and_index E (before ++ rest) (len before) =
     Ret (Err (if len rest <? 2 then "failed to read byte" else "failed to read long"))) /\
  (forall s, announced rest = Some s -> len (before ++ rest) < s ->
     from_data_and_index E (before ++ rest) (len before) =
     Ret (Err "Frame is smaller than expected size")) /\
  (forall s, announced rest = Some s -> s <= len (before ++ rest) ->
     exists time t r h i, rest = time :: t :: r /\
       h = 2 + (if has_mask t then 4 else 0) + (if has_length t then 4 else 0) /\ h <= s /\
       from_data_and_index E (before ++ rest) (len before) = Ret (Ok i) /\
       i_duration i = n_of time /\ target_code (i_target i) = addressee t /\
       command_code (i_command i) = frame_class t /\ i_index i = len before /\
       i_size i = s /\ i_header_size i = h /\ i_header_range i = (len before, len before + h) /\
       i_body_size i = s - h /\ i_body_range i = (len before + h, len before + s)).
Proof.
  intros E p d. split; [| split].
  - intros A. unfold from_data_and_index. rewrite slice_from_app. cbn [bind].
      unfold cursor_new. destruct d as [| time [| t r]].
      * rewrite read_byte_nil. reflexivity.
      * rewrite read_byte_cons, read_byte_nil. reflexivity.
      * rewrite !read_byte_cons. rewrite target_of_kind, command_of_kind. simpl in A.
        destruct (has_length t); [| discriminate].
        unfold advance. cbn [c_pos c_rest].
        set (k := if has_mask t then 4 else 0) in *.
        assert (K : N.to_nat k = (if has_mask t then 4 else 0)%nat) by (subst k; destruct (has_mask t); reflexivity).
        rewrite K.
        replace (len (time :: t :: r) <? 2) with false
          by (symmetry; apply N.ltb_ge; rewrite !len_cons; lia).
        destruct (skipn (if has_mask t then 4 else 0)%nat r) as [| a [| b [| c [| e q]]]] eqn:Q;
          try discriminate A;
          match goal with |- context[read_u32 E (mkCursor ?p ?r)] =>
            destruct (read_u32_short E p r) as [cc ->]; [rewrite ?len_cons, len_nil; lia |] end; reflexivity.
  - intros s A C. apply N.ltb_lt in C.
    destruct (announced_inv _ _ A) as [time [t [r [-> _]]]].
    rewrite (fdi_some E p _ _ _ _ _ A eq_refl), C. reflexivity.
  - intros s A H. destruct (announced_inv _ _ A) as [time [t [r [-> _]]]].
    exists time, t, r, (hdr t), (info_at (len p) time t s). rewrite (fdi_some E p _ _ _ _ _ A eq_refl).
    replace (len (p ++ time :: t :: r) <? s) with false by (symmetry; apply N.ltb_ge; lia).
    unfold info_at. cbn [i_duration i_target i_command i_index i_size i_header_size
      i_header_range i_body_size i_body_range].
    rewrite target_codes, command_codes. repeat split; try reflexivity.
    clear H. unfold hdr. cbn [announced] in A. destruct (has_length t) eqn:HL.
    + destruct (skipn _ r) as [| a [| b [| c [| e q]]]]; try discriminate A. injection A as <-. lia.
    + injection A as <-. unfold has_mask. unfold has_length in HL. destruct (kind t =? 3); [| lia].
      rewrite Bool.orb_true_r in HL. discriminate HL.
Qed.

Lemma header_past_end : forall E data index, len data < index ->
  from_data_and_index E data index = Panic PSlice.
Proof.
  intros E data index H. unfold from_data_and_index. rewrite slice_from_panic by assumption. reflexivity.
Qed.

(** Single values *)
Lemma read_byte_value : forall E v b c,
  read_byte E (cursor_new v) = (Ok b, c) <-> exists rest, v = b :: rest /\ c = mkCursor 1 rest.
Proof.
  intros E v b c. unfold cursor_new. destruct v as [| x r].
  - rewrite read_byte_nil. split; [discriminate | intros [r [H _]]; discriminate].
  - rewrite read_byte_cons. split.
    + intros H. inv H. exists r. split; reflexivity.
    + intros [q [H ->]]. inv H. reflexivity.
Qed.

Lemma read_u16_value : forall E v n c,
  read_u16 E (cursor_new v) = (Ok n, c) <->
  n < 65536 /\ exists rest, v = enc16 n ++ rest /\ c = mkCursor 2 rest.
Proof.
  intros E v n c. unfold cursor_new. destruct v as [| x [| y r]].
  - destruct (read_u16_short E 0 []) as [k ->]; [rewrite len_nil; lia |].
    split; [discriminate | intros [_ [r [H _]]]; discriminate].
  - destruct (read_u16_short E 0 [x]) as [k ->]; [rewrite len_cons, len_nil; lia |].
    split; [discriminate | intros [_ [r [H _]]]; discriminate].
  - rewrite read_u16_cons. split.
    + intros H. inv H. split; [apply le16_lt |]. exists r. rewrite enc16_le16. split; reflexivity.
    + intros [L [q [H ->]]]. unfold enc16 in H. inv H. rewrite le16_enc16 by assumption. reflexivity.
Qed.

Lemma read_u32_value : forall E v n c,
  read_u32 E (cursor_new v) = (Ok n, c) <->
  n < 4294967296 /\ exists rest, v = enc32 n ++ rest /\ c = mkCursor 4 rest.
Proof.
  intros E v n c. unfold cursor_new.
  destruct v as [| x [| y [| z [| w r]]]];
    try (match goal with |- context[read_u32 E (mkCursor 0 ?v)] =>
           destruct (read_u32_short E 0 v) as [k ->]; [rewrite ?len_cons, len_nil; lia |] end;
         split; [discriminate | intros [_ [r [H _]]]; discriminate]).
  rewrite read_u32_cons. split.
  - intros H. inv H. split; [apply le32_lt |]. exists r. rewrite enc32_le32. split; reflexivity.
  - intros [L [q [H ->]]]. unfold enc32 in H. inv H. rewrite le32_enc32 by assumption. reflexivity.
Qed.

Lemma until_nul_iff : forall v s r,
  until_nul v = Some (s, r) <-> ~ In x00 s /\ v = s ++ x00 :: r.
Proof.
  intros v s r. split.
  - intros H. pose proof (until_nul_spec v) as U. rewrite H in U. destruct U as [-> U].
    split; [assumption | reflexivity].
  - intros [H ->]. apply until_nul_app. assumption.
Qed.

Lemma until_nul_none : forall v, until_nul v = None <-> ~ In x00 v.
Proof.
  intros v. pose proof (until_nul_spec v) as U. destruct (until_nul v) as [[s r] |].
  - destruct U as [-> _]. split; [discriminate |]. intros H. exfalso. apply H.
    apply in_or_app. right. left. reflexivity.
  - split; [intros _; assumption | reflexivity].
Qed.

Lemma bstring_exact : forall d pos,
  read_bstring (mkCursor pos d) =
  match until_nul d with
  | Some (s, r) => (Ok s, mkCursor (pos + len s + 1) r)
  | None => (Err "failed to read string", mkCursor (pos + len d) [])
  end.
Proof.
  unfold read_bstring. cbn [c_pos c_rest].
  induction d as [| b d IH]; intros pos.
  - simpl. rewrite len_nil, N.add_0_r. reflexivity.
  - cbn [read_bstring_rest until_nul]. destruct (Byte.eqb b x00).
    + rewrite len_nil, N.add_0_r. reflexivity.
    + rewrite IH. destruct (until_nul d) as [[s r] |]; rewrite len_cons.
      * replace (pos + 1 + len s + 1) with (pos + (1 + len s) + 1) by lia. reflexivity.
      * replace (pos + 1 + len d) with (pos + (1 + len d)) by lia. reflexivity.
Qed.

Lemma read_bstring_value : forall v s c,
  read_bstring (cursor_new v) = (Ok s, c) <->
  ~ In x00 s /\ exists rest, v = s ++ x00 :: rest /\ c = mkCursor (len s + 1) rest.
Proof.
  intros v s c. unfold cursor_new. rewrite bstring_exact.
  destruct (until_nul v) as [[t r] |] eqn:U.
  - split.
    + intros H. inv H. apply until_nul_iff in U. destruct U as [T ->].
      split; [assumption |]. exists r. split; reflexivity.
    + intros [NS [q [H ->]]].
      assert (K : until_nul v = Some (s, q)) by (apply until_nul_iff; split; assumption).
      rewrite U in K. inv K. reflexivity.
  - split; [discriminate |]. intros [NS [q [H _]]].
    assert (K : until_nul v = Some (s, q)) by (apply until_nul_iff; split; assumption).
    rewrite U in K. discriminate.
Qed.

(** Whole records *)
Lemma u16_cases : forall E pos d,
  (exists n r, n < 65536 /\ d = enc16 n ++ r /\ read_u16 E (mkCursor pos d) = (Ok n, mkCursor (pos + 2) r)) \/
  (len d < 2 /\ exists c, read_u16 E (mkCursor pos d) = (Err "failed to read short", c)).
Proof.
  intros E pos d. destruct d as [| a [| b r]].
  - right. split; [rewrite len_nil; lia |]. apply read_u16_short. rewrite len_nil; lia.
  - right. split; [rewrite len_cons, len_nil; lia |]. apply read_u16_short. rewrite len_cons, len_nil; lia.
  - left. exists (le16 a b), r. rewrite enc16_le16, read_u16_cons. split; [apply le16_lt |]. split; reflexivity.
Qed.

Lemma enc16_inj : forall n m r q, n < 65536 -> m < 65536 -> enc16 n ++ r = enc16 m ++ q -> n = m /\ r = q.
Proof.
  intros n m r q Hn Hm H. unfold enc16 in H. simpl in H. injection H as H1 H2 H3.
  split; [| assumption]. rewrite <- (le16_enc16 n Hn), <- (le16_enc16 m Hm). congruence.
Qed.

Lemma enc32_inj : forall n m r q, n < 4294967296 -> m < 4294967296 ->
  enc32 n ++ r = enc32 m ++ q -> n = m /\ r = q.
Proof.
  intros n m r q Hn Hm H. unfold enc32 in H. simpl in H. injection H as H1 H2 H3 H4 H5.
  split; [| assumption]. rewrite <- (le32_enc32 n Hn), <- (le32_enc32 m Hm). congruence.
Qed.

Lemma len_enc16_app : forall n r, len (enc16 n ++ r) = 2 + len r.
Proof. intros. unfold enc16. simpl. rewrite !len_cons. lia. Qed.

Lemma update_frags_value : forall E v u,
  update_frags_try_from E v = Ok u <->
  exists player score rest, score < 65536 /\ v = encode_score player score ++ rest /\
    u = mkUpdateFrags (n_of player) score.
Proof.
  intros E v u. unfold update_frags_try_from, read_update_frags, cursor_new, encode_score.
  destruct v as [| b d].
  - rewrite read_byte_nil. split; [discriminate |]. intros (p & s & r & _ & H & _). discriminate.
  - rewrite read_byte_cons. destruct (u16_cases E (0 + 1) d) as [(n & r & L & D & R) | (L & c & R)]; rewrite R; cbn [fst].
    + split.
      * intros H. inv H. exists b, n, r. repeat split; assumption.
      * intros (p & s & q & L' & H & ->). simpl in H. injection H as <- H. rewrite D in H.
        destruct (enc16_inj n s r q L L' H) as [<- _]. reflexivity.
    + split; [discriminate |]. intros (p & s & q & L' & H & _). simpl in H. injection H as _ H.
      exfalso. rewrite H in L. change (len (enc16 s ++ q) < 2) in L. rewrite len_enc16_app in L. lia.
Qed.

Lemma update_frags_error : forall E v,
  (v = [] -> update_frags_try_from E v = Err "failed to read byte") /\
  (1 <= len v -> len v < 3 -> update_frags_try_from E v = Err "failed to read short") /\
  (3 <= len v -> exists u, update_frags_try_from E v = Ok u).
Proof.
  intros E v. split; [| split].
  - intros ->. reflexivity.
  - intros H1 H2. destruct v as [| b d]; [rewrite len_nil in H1; lia |]. rewrite len_cons in H2.
    unfold update_frags_try_from, read_update_frags, cursor_new. rewrite read_byte_cons.
    destruct (read_u16_short E (0 + 1) d) as [c ->]; [lia |]. reflexivity.
  - intros H. destruct v as [| b [| x [| y d]]]; rewrite ?len_cons, ?len_nil in H; try lia.
    eexists. unfold update_frags_try_from, read_update_frags, cursor_new.
    rewrite read_byte_cons, read_u16_cons. reflexivity.
Qed.

Lemma update_ping_value : forall E v u,
  update_ping_try_from E v = Ok u <->
  exists player ping loss rest, ping < 65536 /\ v = encode_ping player ping loss ++ rest /\
    u = mkUpdatePing (n_of player) ping.
Proof.
  intros E v u. unfold update_ping_try_from, read_update_ping, cursor_new, encode_ping.
  destruct v as [| b [| x [| y [| z d]]]].
  - rewrite read_byte_nil. split; [discriminate |]. intros (p & s & l & r & _ & H & _). discriminate.
  - rewrite read_byte_cons. destruct (read_u16_short E (0 + 1) []) as [c ->]; [rewrite len_nil; lia |].
    split; [discriminate |]. intros (p & s & l & r & _ & H & _). discriminate.
  - rewrite read_byte_cons. destruct (read_u16_short E (0 + 1) [x]) as [c ->]; [rewrite len_cons, len_nil; lia |].
    split; [discriminate |]. intros (p & s & l & r & _ & H & _). discriminate.
  - rewrite read_byte_cons, read_u16_cons, read_byte_nil.
    split; [discriminate |]. intros (p & s & l & r & _ & H & _). discriminate.
  - rewrite read_byte_cons, read_u16_cons, read_byte_cons. cbn [fst]. split.
    + intros H. inv H. exists b, (le16 x y), z, d. rewrite enc16_le16.
      repeat split. apply le16_lt.
    + intros (p & s & l & q & L & H & ->). unfold enc16 in H. simpl in H.
      injection H as <- -> -> _ _. rewrite le16_enc16 by assumption. reflexivity.
Qed.

Lemma update_ping_error : forall E v,
  (v = [] \/ len v = 3 -> update_ping_try_from E v = Err "failed to read byte") /\
  (1 <= len v -> len v < 3 -> update_ping_try_from E v = Err "failed to read short") /\
  (4 <= len v -> exists u, update_ping_try_from E v = Ok u).
Proof.
  intros E v. split; [| split].
  - intros [-> | H]; [reflexivity |].
    destruct v as [| b [| x [| y [| z d]]]]; rewrite ?len_cons, ?len_nil in H; try lia.
    unfold update_ping_try_from, read_update_ping, cursor_new.
    rewrite read_byte_cons, read_u16_cons, read_byte_nil. reflexivity.
  - intros H1 H2. destruct v as [| b d]; [rewrite len_nil in H1; lia |]. rewrite len_cons in H2.
    unfold update_ping_try_from, read_update_ping, cursor_new. rewrite read_byte_cons.
    destruct (read_u16_short E (0 + 1) d) as [c ->]; [lia |]. reflexivity.
  - intros H. destruct v as [| b [| x [| y [| z d]]]]; rewrite ?len_cons, ?len_nil in H; try lia.
    eexists. unfold update_ping_try_from, read_update_ping, cursor_new.
    rewrite read_byte_cons, read_u16_cons, read_byte_cons. reflexivity.
Qed.

Lemma print_id_level : forall b, print_id_from b = level_of b.
Proof. intros b; destruct b; reflexivity. Qed.

Lemma print_value : forall E v p,
  print_try_from E v = Ok p <->
  exists level text rest, ~ In x00 text /\ v = encode_text level text ++ rest /\
    p = mkPrint (level_of level) text.
Proof.
  intros E v p. unfold print_try_from, read_print, cursor_new, encode_text.
  destruct v as [| b d].
  - rewrite read_byte_nil. split; [discriminate |]. intros (l & t & r & _ & H & _). discriminate.
  - rewrite read_byte_cons, bstring_exact, print_id_level. destruct (until_nul d) as [[s r] |] eqn:U; cbn [fst].
    + split.
      * intros H. inv H. apply until_nul_iff in U. destruct U as [NS ->].
        exists b, s, r. split; [assumption |]. split; [| reflexivity].
        simpl. rewrite <- app_assoc. reflexivity.
      * intros (l & t & q & NT & H & ->). simpl in H. rewrite <- app_assoc in H. injection H as <- H.
        assert (K : until_nul d = Some (t, q)) by (apply until_nul_iff; split; assumption).
        rewrite U in K. inv K. reflexivity.
    + split; [discriminate |]. intros (l & t & q & NT & H & _). simpl in H. rewrite <- app_assoc in H.
      injection H as _ H.
      assert (K : until_nul d = Some (t, q)) by (apply until_nul_iff; split; assumption).
      rewrite U in K. discriminate.
Qed.

Lemma print_error : forall E v,
  (v = [] -> print_try_from E v = Err "failed to read byte") /\
  (forall level d, v = level :: d -> ~ In x00 d -> print_try_from E v = Err "failed to read string") /\
  (forall level d, v = level :: d -> In x00 d -> exists p, print_try_from E v = Ok p).
Proof.
  intros E v. split; [intros ->; reflexivity |].
  split; intros level d -> H; unfold print_try_from, read_print, cursor_new;
    rewrite read_byte_cons, bstring_exact.
  - apply until_nul_none in H. rewrite H. reflexivity.
  - destruct (until_nul d) as [[s r] |] eqn:U; [eexists; reflexivity |].
    apply until_nul_none in U. contradiction.
Qed.

(** Hidden blocks *)
Lemma block_value : forall E size type number rest,
  size < 4294967296 -> type < 65536 -> number < 65536 ->
  block_try_from E (encode_block size type number ++ rest) =
  if 2 <=? size then
    Ret (Ok (mkBlock (size - 2) (size + 6) (hidden_message_from type) number))
  else if checked E then Panic POverflow
  else Ret (Ok (mkBlock (18446744073709551614 + size) (size + 6) (hidden_message_from type) number)).
Proof.
  intros E size type number rest Hs Ht Hn. unfold block_try_from, cursor_new, encode_block.
  rewrite <- !app_assoc. unfold enc32, enc16. cbn [app]. rewrite read_u32_cons, le32_enc32 by assumption.
  unfold usub, uadd. change SHORT with 2. change BLOCK_HEADER_SIZE with 8. change usize_bound with 18446744073709551616.
  destruct (2 <=? size) eqn:C.
  - apply N.leb_le in C. cbn [bind].
    replace (8 + (size - 2) <? 18446744073709551616) with true by (symmetry; apply N.ltb_lt; lia).
    cbn [bind]. rewrite !read_u16_cons. rewrite !le16_enc16 by assumption.
    replace (8 + (size - 2)) with (size + 6) by lia. reflexivity.
  - apply N.leb_gt in C. destruct (checked E); [reflexivity |]. cbn [bind].
    rewrite (N.mod_small (size + 18446744073709551616 - 2)) by lia.
    replace (8 + (size + 18446744073709551616 - 2) <? 18446744073709551616) with false
      by (symmetry; apply N.ltb_ge; lia). cbn [bind].
    replace (8 + (size + 18446744073709551616 - 2)) with (size + 6 + 1 * 18446744073709551616) by lia.
    rewrite N.mod_add, (N.mod_small (size + 6)) by lia.
    rewrite !read_u16_cons, !le16_enc16 by assumption.
    replace (size + 18446744073709551616 - 2) with (18446744073709551614 + size) by lia. reflexivity.
Qed.

Lemma block_error : forall E v,
  (len v < 4 -> block_try_from E v = Ret (Err "failed to read long")) /\
  (forall size rest, v = enc32 size ++ rest -> size < 4294967296 -> len rest < 4 ->
     block_try_from E v =
     if (size <? 2) && checked E then Panic POverflow else Ret (Err "failed to read short")).
Proof.
  intros E v. split.
  - intros H. unfold block_try_from, cursor_new. destruct (read_u32_short E 0 v H) as [c ->]. reflexivity.
  - intros size rest -> H2 H. unfold block_try_from, cursor_new. unfold enc32. cbn [app].
    rewrite read_u32_cons, le32_enc32 by assumption. unfold usub, uadd.
    change SHORT with 2. change BLOCK_HEADER_SIZE with 8. change usize_bound with 18446744073709551616.
    rewrite N.leb_antisym.
    assert (S : forall b (t : N), (let! total_size := Ret t in
      match read_u16 E (mkCursor (0 + 4) rest) with
      | (Err e, _) => Ret (Err e)
      | (Ok h, cur) => match read_u16 E cur with
        | (Err e, _) => Ret (Err e)
        | (Ok number, _) => Ret (Ok (mkBlock b total_size (hidden_message_from h) number))
        end
      end) = Ret (Err "failed to read short")).
    { intros b0 t. cbn [bind]. destruct rest as [| a [| b r]].
      + destruct (read_u16_short E (0 + 4) []) as [c ->]; [rewrite len_nil; lia | reflexivity].
      + destruct (read_u16_short E (0 + 4) [a]) as [c ->]; [rewrite len_cons, len_nil; lia | reflexivity].
      + rewrite read_u16_cons. rewrite !len_cons in H.
        destruct (read_u16_short E (0 + 4 + 2) r) as [c ->]; [lia | reflexivity]. }
    destruct (N.ltb_spec size 2) as [L | L]; cbn [negb andb].
    + destruct (checked E); [reflexivity |]. cbn [bind].
      match goal with |- context[if ?c then Ret _ else _] => destruct c end; apply S.
    + cbn [bind]. replace (8 + (size - 2) <? 18446744073709551616) with true by (symmetry; apply N.ltb_lt; lia).
      apply S.
Qed.
