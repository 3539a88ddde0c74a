(** The frame walk: reading one frame header, and the loop all walkers share. *)
From Coq Require Import Lia ZifyN ZifyNat ZifyBool.
From Verif.Model Require Import Base Env Primitives Prot Frame.
From Verif.Spec Require Import Occ Mvd.
From Verif.Proofs Require Import BaseFacts.

(** Bytes and little-endian numbers *)
Lemma n_of_byte_of : forall n, n_of (byte_of n) = n mod 256.
Proof.
  intros n. unfold byte_of, n_of.
  assert (H : n mod 256 < 256) by (apply N.mod_lt; lia).
  destruct (Byte.of_N (n mod 256)) eqn:E.
  - apply Byte.to_of_N. exact E.
  - apply Byte.of_N_None_iff in E. lia.
Qed.

Lemma byte_of_n_of : forall b, byte_of (n_of b) = b.
Proof.
  intros b. apply n_of_inj. rewrite n_of_byte_of. apply N.mod_small. apply n_of_lt.
Qed.

Lemma byte_of_mod : forall n m, n mod 256 = m mod 256 -> byte_of n = byte_of m.
Proof. intros n m H. apply n_of_inj. rewrite !n_of_byte_of. exact H. Qed.

Lemma digits256 : forall a b, a < 256 -> (a + 256 * b) mod 256 = a /\ (a + 256 * b) / 256 = b.
Proof.
  intros a b H. split.
  - rewrite N.mul_comm, N.mod_add by lia. apply N.mod_small. exact H.
  - rewrite N.mul_comm, N.div_add by lia. rewrite N.div_small by exact H. lia.
Qed.

Lemma enc16_le16 : forall a b, enc16 (le16 a b) = [a; b].
Proof.
  intros a b. unfold enc16, le16. pose proof (n_of_lt a). pose proof (n_of_lt b).
  destruct (digits256 (n_of a) (n_of b)) as [A B]; [assumption |]. rewrite B, byte_of_n_of.
  f_equal. apply n_of_inj. rewrite n_of_byte_of. exact A.
Qed.

Lemma le16_enc16 : forall n, n < 65536 -> le16 (byte_of n) (byte_of (n / 256)) = n.
Proof.
  intros n H. unfold le16. rewrite !n_of_byte_of.
  rewrite (N.mod_small (n / 256)) by (apply N.div_lt_upper_bound; lia).
  pose proof (N.div_mod n 256 ltac:(lia)). lia.
Qed.

Lemma div_65536 : forall n, n / 65536 = n / 256 / 256.
Proof. intros. rewrite N.div_div by lia. reflexivity. Qed.
Lemma div_16777216 : forall n, n / 16777216 = n / 256 / 256 / 256.
Proof. intros. rewrite !N.div_div by lia. reflexivity. Qed.

Lemma le32_enc32 : forall n, n < 4294967296 ->
  le32 (byte_of n) (byte_of (n / 256)) (byte_of (n / 65536)) (byte_of (n / 16777216)) = n.
Proof.
  intros n H. unfold le32. rewrite !n_of_byte_of, div_65536, div_16777216.
  pose proof (N.div_mod n 256 ltac:(lia)).
  pose proof (N.div_mod (n / 256) 256 ltac:(lia)).
  pose proof (N.div_mod (n / 256 / 256) 256 ltac:(lia)).
  assert (n / 256 / 256 / 256 < 256).
  { rewrite <- div_16777216. apply N.div_lt_upper_bound; lia. }
  rewrite (N.mod_small (n / 256 / 256 / 256)) by assumption. lia.
Qed.

Lemma enc32_le32 : forall a b c d, enc32 (le32 a b c d) = [a; b; c; d].
Proof.
  intros a b c d. unfold enc32. rewrite div_65536, div_16777216.
  pose proof (n_of_lt a). pose proof (n_of_lt b). pose proof (n_of_lt c). pose proof (n_of_lt d).
  replace (le32 a b c d) with (n_of a + 256 * (n_of b + 256 * (n_of c + 256 * n_of d)))
    by (unfold le32; lia).
  destruct (digits256 (n_of a) (n_of b + 256 * (n_of c + 256 * n_of d))) as [A1 A2]; [assumption |].
  destruct (digits256 (n_of b) (n_of c + 256 * n_of d)) as [B1 B2]; [assumption |].
  destruct (digits256 (n_of c) (n_of d)) as [C1 C2]; [assumption |].
  rewrite A2, B2, C2.
  repeat f_equal; try (apply n_of_inj; rewrite n_of_byte_of; assumption).
  apply byte_of_n_of.
Qed.

Lemma le32_lt : forall a b c d, le32 a b c d < 4294967296.
Proof.
  intros. unfold le32.
  pose proof (n_of_lt a). pose proof (n_of_lt b). pose proof (n_of_lt c). pose proof (n_of_lt d). lia.
Qed.
Lemma le16_lt : forall a b, le16 a b < 65536.
Proof. intros. unfold le16. pose proof (n_of_lt a). pose proof (n_of_lt b). lia. Qed.

Lemma len_enc32 : forall n, len (enc32 n) = 4.
Proof. reflexivity. Qed.

(** Frame kinds *)
Lemma command_of_kind : forall t,
  command_from t = if has_length t then CRead
                   else if kind t =? 2 then CSet
                   else if kind t =? 0 then CQwd else CEmpty.
Proof. intros t; destruct t; reflexivity. Qed.

Lemma target_of_kind : forall t,
  match target_from t with TMultiple => LONG | _ => 0 end = if has_mask t then 4 else 0.
Proof. intros t; destruct t; reflexivity. Qed.

Lemma mask_has_length : forall t, has_mask t = true -> has_length t = true.
Proof. intros t. unfold has_mask, has_length. intros ->. rewrite orb_true_r. reflexivity. Qed.

(** header size by type byte *)
Definition hdr (t : byte) : N :=
  2 + (if has_mask t then 4 else 0) + (if has_length t then 4 else 0).

Definition info_at (idx : N) (time t : byte) (s : N) : info := {|
  i_duration := n_of time;
  i_target := target_from t;
  i_command := command_from t;
  i_index := idx;
  i_size := s;
  i_header_size := hdr t;
  i_header_range := (idx, idx + hdr t);
  i_body_size := s - hdr t;
  i_body_range := (idx + hdr t, idx + s) |}.

Lemma announced_inv : forall d s, announced d = Some s ->
  exists time t r, d = time :: t :: r /\ hdr t <= s /\ hdr t <= len d /\
    (has_length t = false -> s = hdr t + fixed_body t).
Proof.
  intros d s H. destruct d as [| time [| t r]]; try discriminate. simpl in H.
  exists time, t, r. split; [reflexivity |]. unfold hdr.
  destruct (has_length t) eqn:HL.
  - destruct (skipn (if has_mask t then 4 else 0)%nat r) as [| a [| b [| c [| e q]]]] eqn:E; inv H.
    rewrite !len_cons. assert (L : len (skipn (if has_mask t then 4 else 0)%nat r) = 4 + len q).
    { rewrite E. rewrite !len_cons. lia. }
    rewrite len_skipn in L. destruct (has_mask t); repeat split; try lia; discriminate.
  - inv H. rewrite !len_cons. destruct (has_mask t) eqn:HM.
    + apply mask_has_length in HM. congruence.
    + repeat split; intros; lia.
Qed.

Lemma hdr_pos : forall t, 2 <= hdr t.
Proof. intros. unfold hdr. lia. Qed.

Lemma hdr_le : forall t, hdr t <= 10.
Proof. intros. unfold hdr. destruct (has_mask t), (has_length t); lia. Qed.

Lemma announced_pos : forall d s, announced d = Some s -> 2 <= s.
Proof.
  intros d s H. apply announced_inv in H. destruct H as [time [t [r [_ [H _]]]]].
  pose proof (hdr_pos t). lia.
Qed.

Lemma read_byte_cons : forall E pos b r,
  read_byte E (mkCursor pos (b :: r)) = (Ok b, mkCursor (pos + 1) r).
Proof. intros. unfold read_byte, read_exact, advance. simpl. reflexivity. Qed.

Lemma read_byte_nil : forall E pos,
  read_byte E (mkCursor pos []) = (Err "failed to read byte", mkCursor pos []).
Proof.
  intros. unfold read_byte, read_exact. simpl. rewrite N.add_0_r.
  destruct (eof_on_short_read E); reflexivity.
Qed.

Lemma read_u32_cons : forall E pos a b c d r,
  read_u32 E (mkCursor pos (a :: b :: c :: d :: r)) = (Ok (le32 a b c d), mkCursor (pos + 4) r).
Proof. intros. unfold read_u32, read_exact, advance. simpl. reflexivity. Qed.

Lemma read_u32_short : forall E pos r, len r < 4 ->
  exists c, read_u32 E (mkCursor pos r) = (Err "failed to read long", c).
Proof.
  intros E pos r H. unfold read_u32, read_exact. unfold c_rest.
  replace (Nat.leb 4 (length r)) with false; [eauto |].
  symmetry. apply Nat.leb_gt. unfold len in H. lia.
Qed.

Lemma read_u16_cons : forall E pos a b r,
  read_u16 E (mkCursor pos (a :: b :: r)) = (Ok (le16 a b), mkCursor (pos + 2) r).
Proof. intros. unfold read_u16, read_exact, advance. simpl. reflexivity. Qed.

Lemma read_u16_short : forall E pos r, len r < 2 ->
  exists c, read_u16 E (mkCursor pos r) = (Err "failed to read short", c).
Proof.
  intros E pos r H. unfold read_u16, read_exact. unfold c_rest.
  replace (Nat.leb 2 (length r)) with false; [eauto |].
  symmetry. apply Nat.leb_gt. unfold len in H. lia.
Qed.

(** Reading one header *)
Lemma fdi_none : forall E p d, announced d = None ->
  exists e, from_data_and_index E (p ++ d) (len p) = Ret (Err e).
Proof.
  intros E p d H. unfold from_data_and_index. rewrite slice_from_app. simpl bind.
  unfold cursor_new. destruct d as [| time [| t r]].
  - rewrite read_byte_nil. eauto.
  - rewrite read_byte_cons, read_byte_nil. eauto.
  - rewrite !read_byte_cons. rewrite target_of_kind, command_of_kind. simpl in H.
    destruct (has_length t); [| discriminate].
    unfold advance. cbn [c_pos c_rest].
    set (k := if has_mask t then 4 else 0) in *.
    assert (K : N.to_nat k = (if has_mask t then 4 else 0)%nat) by (subst k; destruct (has_mask t); reflexivity).
    rewrite K.
    destruct (skipn (if has_mask t then 4 else 0)%nat r) as [| a [| b [| c [| e q]]]] eqn:Q;
      try discriminate H;
      match goal with |- context[read_u32 E (mkCursor ?p ?r)] =>
        destruct (read_u32_short E p r) as [cc ->]; [rewrite ?len_cons, len_nil; lia |] end; eauto.
Qed.

Lemma fdi_some : forall E p d s time t r, announced d = Some s -> d = time :: t :: r ->
  from_data_and_index E (p ++ d) (len p) =
  if len (p ++ d) <? s then Ret (Err "Frame is smaller than expected size")
  else Ret (Ok (info_at (len p) time t s)).
Proof.
  intros E p d s time t r H D. unfold from_data_and_index. rewrite slice_from_app. simpl bind.
  unfold cursor_new. subst d. rewrite !read_byte_cons. rewrite target_of_kind.
  unfold info_at. rewrite command_of_kind. simpl in H. unfold advance. cbn [c_pos c_rest].
  unfold hdr. destruct (has_length t) eqn:HL.
  - set (k := if has_mask t then 4 else 0) in *.
    assert (K : N.to_nat k = (if has_mask t then 4 else 0)%nat) by (subst k; destruct (has_mask t); reflexivity).
    rewrite K.
    destruct (skipn (if has_mask t then 4 else 0)%nat r) as [| a [| b [| c [| e q]]]]; try discriminate H.
    rewrite read_u32_cons. cbn [c_pos]. fold (le32 a b c e) in H. inv H.
    replace (0 + 1 + 1 + k + 4) with (2 + k + 4) by lia.
    destruct (len (p ++ time :: t :: r) <? 2 + k + 4 + le32 a b c e); [reflexivity |].
    repeat f_equal; lia.
  - assert (HM : has_mask t = false).
    { destruct (has_mask t) eqn:HM; [| reflexivity]. apply mask_has_length in HM. congruence. }
    rewrite HM. inv H. unfold fixed_body.
    destruct (kind t =? 2).
    + cbn [c_pos]. destruct (len (p ++ time :: t :: r) <? 2 + 8) eqn:C; cbn -[N.add N.sub len N.ltb];
      change (2 * LONG) with 8; replace (0 + 1 + 1 + 0 + 8) with (2+8) by lia; rewrite C; reflexivity.
    + destruct (kind t =? 0); cbn -[N.add N.sub len N.ltb];
      replace (0 + 1 + 1 + 0 + 0) with (2 + 0) by lia;
      destruct (len (p ++ time :: t :: r) <? 2 + 0) eqn:C; reflexivity.
Qed.

(** A complete frame announces its own size. *)
Lemma len_encode_frame : forall f, wf_frame f ->
  len (encode_frame f) = hdr (f_type f) + len (f_body f).
Proof.
  intros f [HM HL]. unfold encode_frame, hdr. rewrite !len_cons, !len_app, HM.
  destruct (has_length (f_type f)); rewrite ?len_enc32, ?len_nil; lia.
Qed.

Lemma announced_encode : forall f r, wf_frame f ->
  announced (encode_frame f ++ r) = Some (len (encode_frame f)).
Proof.
  intros f r W. rewrite len_encode_frame by assumption. destruct W as [HM HL].
  unfold encode_frame, hdr. simpl. destruct (has_length (f_type f)) eqn:L.
  - rewrite <- !app_assoc.
    assert (K : (if has_mask (f_type f) then 4 else 0)%nat = length (f_mask f)).
    { unfold len in HM. destruct (has_mask (f_type f)); lia. }
    rewrite K, skipn_app_exact. simpl.
    fold (le32 (byte_of (len (f_body f))) (byte_of (len (f_body f) / 256))
               (byte_of (len (f_body f) / 65536)) (byte_of (len (f_body f) / 16777216))).
    rewrite le32_enc32 by assumption. f_equal.
  - destruct (has_mask (f_type f)) eqn:M; [apply mask_has_length in M; congruence |].
    f_equal. lia.
Qed.

Lemma frame_body_slice : forall f p r, wf_frame f ->
  slice (p ++ encode_frame f ++ r) (len p + hdr (f_type f)) (len p + len (encode_frame f)) = Ret (f_body f).
Proof.
  intros f p r W. pose proof (len_encode_frame f W) as L. destruct W as [HM HL].
  set (h := f_time f :: f_type f :: f_mask f
    ++ (if has_length (f_type f) then enc32 (len (f_body f)) else [])).
  assert (E : encode_frame f = h ++ f_body f).
  { unfold encode_frame, h. simpl. rewrite <- app_assoc. reflexivity. }
  assert (LH : len h = hdr (f_type f)).
  { rewrite E, len_app in L. lia. }
  rewrite L, N.add_assoc, E, <- LH, <- len_app.
  rewrite <- app_assoc, (app_assoc p h). apply slice_app.
Qed.

(** Every announced frame that fits is an encoded frame. *)
Lemma announced_frame : forall d s, announced d = Some s -> s <= len d ->
  exists f r, wf_frame f /\ d = encode_frame f ++ r /\ len (encode_frame f) = s.
Proof.
  intros d s H L. destruct d as [| time [| t q]]; try discriminate. simpl in H.
  rewrite !len_cons in L.
  destruct (has_length t) eqn:HL.
  - set (k := (if has_mask t then 4 else 0)%nat) in *.
    assert (Q : q = firstn k q ++ skipn k q) by (symmetry; apply firstn_skipn).
    destruct (skipn k q) as [| a [| b [| c [| e r]]]] eqn:S; try discriminate.
    inv H. fold (le32 a b c e) in L |- *.
    assert (LK : len (firstn k q) = if has_mask t then 4 else 0).
    { assert (len (skipn k q) = 4 + len r) by (rewrite S, !len_cons; lia).
      rewrite len_skipn in H. rewrite len_firstn. subst k. destruct (has_mask t); lia. }
    assert (LR : len q = len (firstn k q) + 4 + len r).
    { rewrite Q at 1. rewrite len_app, !len_cons. lia. }
    destruct (split_at _ r (le32 a b c e)) as [body [rest [R LB]]]; [lia |].
    set (f := mkFrame time t (firstn k q) body).
    assert (W : wf_frame f).
    { split; [exact LK |]. cbn [f_type f_body f]. rewrite HL, LB. apply le32_lt. }
    exists f, rest. split; [exact W |]. split.
    + unfold encode_frame. cbn [f f_time f_type f_mask f_body]. rewrite HL, LB, enc32_le32.
      rewrite Q at 1. simpl. rewrite <- !app_assoc. simpl. rewrite R. reflexivity.
    + rewrite len_encode_frame by exact W. cbn [f f_type f_body]. unfold hdr. rewrite HL, LB.
      lia.
  - inv H.
    destruct (split_at _ q (fixed_body t)) as [body [rest [R LB]]]; [lia |].
    assert (HM : has_mask t = false).
    { destruct (has_mask t) eqn:HM; [| reflexivity]. apply mask_has_length in HM. congruence. }
    set (f := mkFrame time t [] body).
    assert (W : wf_frame f).
    { split; cbn [f f_type f_mask f_body]; [rewrite HM; reflexivity | rewrite HL; exact LB]. }
    exists f, rest. split; [exact W |]. split.
    + unfold encode_frame. cbn [f f_time f_type f_mask f_body]. rewrite HL. subst q. reflexivity.
    + rewrite len_encode_frame by exact W. cbn [f f_type f_body]. unfold hdr. rewrite HL, LB, HM. lia.
Qed.

(** Injectivity of frame encoding, in front of anything *)
Lemma encode_frame_inj : forall f g r q, wf_frame f -> wf_frame g ->
  encode_frame f ++ r = encode_frame g ++ q -> f = g /\ r = q.
Proof.
  intros f g r q Wf Wg E.
  assert (L : len (encode_frame f) = len (encode_frame g)).
  { pose proof (announced_encode f r Wf) as A. rewrite E, announced_encode in A by exact Wg. congruence. }
  apply app_inj_len in E; [| exact L]. destruct E as [E ->]. split; [| reflexivity].
  unfold encode_frame in E. destruct f as [ft fy fm fb], g as [gt gy gm gb].
  cbn [f_time f_type f_mask f_body] in *. inversion E; subst.
  destruct Wf as [Mf _], Wg as [Mg _]. cbn [f_type f_mask] in *.
  apply app_inj_len in H2; [| congruence]. destruct H2 as [-> H2].
  apply app_inj_len in H2; [| destruct (has_length gy); reflexivity]. destruct H2 as [_ ->]. reflexivity.
Qed.

(** Decomposition of arbitrary bytes *)
Lemma encode_cons : forall f fs, encode (f :: fs) = encode_frame f ++ encode fs.
Proof. reflexivity. Qed.
Lemma encode_app : forall fs gs, encode (fs ++ gs) = encode fs ++ encode gs.
Proof. intros. unfold encode. rewrite map_app, concat_app. reflexivity. Qed.

Lemma no_frame_spec : forall rest, no_frame rest <->
  forall f r, wf_frame f -> rest <> encode_frame f ++ r.
Proof.
  intros rest. unfold no_frame. split.
  - intros H f r W E. subst rest. rewrite announced_encode, len_app in H by exact W. lia.
  - intros H. destruct (announced rest) as [s |] eqn:A; [| exact I].
    destruct (N.lt_ge_cases (len rest) s) as [C | C]; [exact C |].
    destruct (announced_frame rest s A C) as [f [r [W [E _]]]]. exfalso. apply (H f r W E).
Qed.

Lemma decompose : forall data, exists fs rest,
  data = encode fs ++ rest /\ wf fs /\ no_frame rest.
Proof.
  intros data. remember (length data) as n eqn:HN.
  revert data HN. induction n as [n IH] using lt_wf_ind. intros data HN.
  destruct (announced data) as [s |] eqn:A.
  - destruct (N.lt_ge_cases (len data) s) as [C | C].
    + exists [], data. repeat split; [constructor |]. unfold no_frame. rewrite A. exact C.
    + destruct (announced_frame data s A C) as [f [r [W [E L]]]].
      apply announced_pos in A.
      destruct (IH (length r)) with (data := r) as [fs [rest [E2 [W2 N2]]]]; [| reflexivity |].
      { subst n data. rewrite app_length. unfold len in L. lia. }
      exists (f :: fs), rest. rewrite encode_cons, <- app_assoc, <- E2. repeat split; auto.
      constructor; assumption.
  - exists [], data. repeat split; [constructor |]. unfold no_frame. rewrite A. exact I.
Qed.

Lemma decompose_unique : forall fs fs' rest rest', wf fs -> wf fs' -> no_frame rest -> no_frame rest' ->
  encode fs ++ rest = encode fs' ++ rest' -> fs = fs' /\ rest = rest'.
Proof.
  induction fs as [| f fs IH]; intros fs' rest rest' W W' N N' E.
  - destruct fs' as [| f' fs']; [auto |]. exfalso. inv W'.
    rewrite encode_cons, <- app_assoc in E. simpl in E.
    rewrite no_frame_spec in N. apply (N f' (encode fs' ++ rest')); assumption.
  - destruct fs' as [| f' fs'].
    + exfalso. inv W. rewrite encode_cons, <- app_assoc in E. simpl in E.
      rewrite no_frame_spec in N'. apply (N' f (encode fs ++ rest)); auto.
    + inv W. inv W'. rewrite !encode_cons, <- !app_assoc in E.
      apply encode_frame_inj in E; auto. destruct E as [-> E].
      apply IH in E; auto. destruct E as [-> ->]. auto.
Qed.

Lemma stops_no_frame : forall total rest, len rest <= total -> stops total rest -> no_frame rest.
Proof.
  intros total rest H. unfold stops, no_frame. destruct (announced rest); [lia | auto].
Qed.

(** The walk over complete frames *)
Section Walk.
  Context {St : Type} (g : St -> N -> frame -> M (step St)).

  (** [Continue] with the state after the last frame, or [Break] as soon as one does *)
  Fixpoint walk (idx : N) (fs : list frame) (st : St) : M (step St) :=
    match fs with
    | [] => Ret (Continue st)
    | f :: fs' =>
        let! s := g st idx f in
        match s with
        | Break st' => Ret (Break st')
        | Continue st' => walk (idx + len (encode_frame f)) fs' st'
        end
    end.
End Walk.

Definition info_of (idx : N) (f : frame) : info :=
  info_at idx (f_time f) (f_type f) (len (encode_frame f)).

Section Loop.
  Context {St : Type} (E : env) (data : bytes) (body : St -> info -> M (step St)).

  Definition tail_walk (fuel : nat) (idx : N) (r : step St) : M St :=
    match r with
    | Break st => Ret st
    | Continue st => frame_loop E fuel data body idx st
    end.

  Lemma frame_loop_walk : forall g fs p rest st fuel,
    data = p ++ encode fs ++ rest -> wf fs ->
    (forall st p' f r, data = p' ++ encode_frame f ++ r -> wf_frame f ->
       body st (info_of (len p') f) = g st (len p') f) ->
    (length fs < fuel)%nat ->
    exists fuel', (fuel = length fs + fuel')%nat /\
    frame_loop E fuel data body (len p) st =
    bind (walk g (len p) fs st) (tail_walk fuel' (len p + len (encode fs))).
  Proof.
    intros g fs. induction fs as [| f fs IH]; intros p rest st fuel D W B F.
    - exists fuel. split; [reflexivity |]. simpl. change (len (encode [])) with 0. rewrite N.add_0_r. reflexivity.
    - inv W. destruct fuel as [| fuel]; [simpl in F; lia |].
      rewrite encode_cons in D. rewrite <- app_assoc in D.
      destruct (IH (p ++ encode_frame f) rest st fuel) as [fuel' [F' _]];
        [rewrite <- app_assoc; exact D | assumption | assumption | simpl in F; lia |].
      exists fuel'. split; [simpl; lia |]. simpl frame_loop. simpl walk.
      rewrite D at 1. rewrite (fdi_some E p _ (len (encode_frame f)) (f_time f) (f_type f)
        (f_mask f ++ (if has_length (f_type f) then enc32 (len (f_body f)) else []) ++ f_body f ++ encode fs ++ rest)).
      2: { apply announced_encode. assumption. }
      2: { unfold encode_frame. simpl. rewrite <- !app_assoc. reflexivity. }
      replace (len (p ++ encode_frame f ++ encode fs ++ rest) <? len (encode_frame f)) with false
        by (rewrite !len_app; lia).
      simpl bind. change (info_at _ _ _ _) with (info_of (len p) f).
      rewrite (B st p f (encode fs ++ rest) D); [| assumption].
      destruct (g st (len p) f) as [[st' | st'] | pp |]; simpl; try reflexivity.
      change (i_size (info_of (len p) f)) with (len (encode_frame f)).
      rewrite encode_cons, <- len_app.
      destruct (IH (p ++ encode_frame f) rest st' fuel) as [fuel'' [F'' ->]];
        [rewrite <- app_assoc; exact D | assumption | assumption | simpl in F; lia |].
      assert (fuel'' = fuel') by lia. subst fuel''.
      rewrite !len_app, N.add_assoc. reflexivity.
  Qed.

  Lemma frame_loop_stops : forall p rest st fuel,
    data = p ++ rest -> stops (len data) rest -> (0 < fuel)%nat ->
    frame_loop E fuel data body (len p) st = Ret st.
  Proof.
    intros p rest st [| fuel] D S F; [lia |]. simpl. rewrite D at 1. unfold stops in S.
    destruct (announced rest) as [s |] eqn:A.
    - destruct (announced_inv _ _ A) as [time [t [r [R _]]]].
      rewrite (fdi_some E p rest s time t r A R).
      rewrite <- D. replace (len data <? s) with true by lia. reflexivity.
    - destruct (fdi_none E p rest A) as [e ->]. reflexivity.
  Qed.

  (** a rest that overruns the data but not by more than the data *)
  Lemma frame_loop_overrun : forall p rest s time t r st fuel,
    data = p ++ rest -> announced rest = Some s -> rest = time :: t :: r ->
    s <= len data -> len rest < s -> (1 < fuel)%nat ->
    frame_loop E fuel data body (len p) st =
    let! st' := body st (info_at (len p) time t s) in
    match st' with
    | Break st' => Ret st'
    | Continue _ => Panic PSlice
    end.
  Proof.
    intros p rest s time t r st [| [| fuel]] D A R S O F; try lia. simpl. rewrite D at 1.
    rewrite (fdi_some E p rest s time t r A R).
    rewrite <- D. replace (len data <? s) with false by lia. simpl.
    destruct (body st (info_at (len p) time t s)) as [[st' | st'] | |]; simpl; try reflexivity.
    unfold from_data_and_index at 1. rewrite slice_from_panic; [reflexivity |].
    rewrite D, len_app. lia.
  Qed.
End Loop.

Lemma length_encode : forall fs, wf fs -> (length fs <= length (encode fs))%nat.
Proof.
  induction fs as [| f fs IH]; intros W; [simpl; lia |]. inv W.
  rewrite encode_cons, app_length. simpl.
  pose proof (announced_pos _ _ (announced_encode f [] H1)). apply IH in H2. unfold len in H. lia.
Qed.

(** The whole walk from the beginning of the data *)
Lemma frame_loop_total : forall St E data body (g : St -> N -> frame -> M (step St)) fs rest st,
  data = encode fs ++ rest -> wf fs -> no_frame rest ->
  (forall st p' f r, data = p' ++ encode_frame f ++ r -> wf_frame f ->
     body st (info_of (len p') f) = g st (len p') f) ->
  exists fuel', (1 < fuel')%nat /\
  frame_loop E (frame_fuel data) data body 0 st =
  bind (walk g 0 fs st) (tail_walk E data body fuel' (len (encode fs))).
Proof.
  intros St E data body g fs rest st D W NF B.
  destruct (frame_loop_walk E data body g fs [] rest st (frame_fuel data)) as [fuel' [F Q]]; auto.
  { unfold frame_fuel. rewrite D, app_length. pose proof (length_encode fs W). lia. }
  exists fuel'. split; [| exact Q].
  unfold frame_fuel in F. rewrite D, app_length in F. pose proof (length_encode fs W). lia.
Qed.
