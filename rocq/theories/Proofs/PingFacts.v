(** ping_per_player_number (C12). *)
From Coq Require Import Lia ZifyN ZifyNat ZifyBool.
From Verif.Model Require Import Base Env Primitives Prot Frame Message Float Ping.
From Verif.Spec Require Import Mvd Messages Pings.
From Verif.Proofs Require Import BaseFacts FrameFacts PrintFacts RoundFacts.
Open Scope N_scope.

(** Maps that collect values per key *)
Section Gather.
  Context {K V : Type} (eqb : K -> K -> bool) (eqb_ok : forall a b, eqb a b = true <-> a = b).
  Definition gather1 (m : list (K * list V)) (x : K * V) : list (K * list V) :=
    aset eqb (fst x) (aget_or eqb (fst x) [] m ++ [snd x]) m.
  Definition gather (l : list (K * V)) (m : list (K * list V)) : list (K * list V) :=
    fold_left gather1 l m.
  Definition values_of (k : K) (l : list (K * V)) : list V :=
    map snd (filter (fun x => eqb (fst x) k) l).

  Lemma gather_app : forall l1 l2 m, gather (l1 ++ l2) m = gather l2 (gather l1 m).
  Proof. intros. unfold gather. apply fold_left_app. Qed.

  Lemma eqb_symm : forall a b, eqb a b = eqb b a.
  Proof.
    intros a b. destruct (eqb a b) eqn:E.
    - apply eqb_ok in E. subst. symmetry. apply eqb_ok. reflexivity.
    - destruct (eqb b a) eqn:E2; [| reflexivity]. apply eqb_ok in E2. subst.
      assert (eqb a a = true) by (apply eqb_ok; reflexivity). congruence.
  Qed.

  Lemma gather_get : forall l m k,
    aget_or eqb k [] (gather l m) = aget_or eqb k [] m ++ values_of k l.
  Proof.
    induction l as [| [k0 v] l IH]; intros m k; simpl.
    - symmetry. apply app_nil_r.
    - rewrite IH. unfold gather1. cbn [fst snd]. rewrite (aget_or_aset eqb eqb_ok).
      unfold values_of. cbn [filter fst]. rewrite (eqb_symm k0 k). destruct (eqb k k0) eqn:E.
      + apply eqb_ok in E. subst. cbn [map snd]. rewrite <- app_assoc. reflexivity.
      + reflexivity.
  Qed.

  Lemma gather_nodup : forall l m, NoDup (map fst m) -> NoDup (map fst (gather l m)).
  Proof.
    induction l as [| x l IH]; intros m H; [exact H |]. simpl. apply IH.
    apply (aset_nodup eqb eqb_ok). exact H.
  Qed.

  Lemma gather_keys : forall l m k, In k (map fst (gather l m)) <-> In k (map fst m) \/ In k (map fst l).
  Proof.
    induction l as [| [k0 v] l IH]; intros m k; [simpl; tauto |].
    simpl. rewrite IH. unfold gather1. cbn [fst snd].
    rewrite aset_keys. destruct (existsb (eqb k0) (map fst m)) eqn:E.
    - apply existsb_exists in E. destruct E as [y [I Y]]. apply eqb_ok in Y. subst y.
      split; [tauto |]. intros [H | [H | H]]; [tauto | subst; tauto | tauto].
    - rewrite in_app_iff. simpl. tauto.
  Qed.

  Lemma gather_entries : forall l k vs, In (k, vs) (gather l []) -> vs = values_of k l /\ vs <> [].
  Proof.
    intros l k vs H.
    assert (ND : NoDup (map fst (gather l []))) by (apply gather_nodup; constructor).
    pose proof (in_aget eqb eqb_ok _ _ _ ND H) as G.
    pose proof (gather_get l [] k) as X. unfold aget_or in X. rewrite G in X. simpl in X. subst vs.
    split; [reflexivity |].
    assert (I : In k (map fst l)).
    { assert (I0 : In k (map fst (gather l []))) by (apply in_map_iff; exists (k, values_of k l); auto).
      apply gather_keys in I0. destruct I0 as [[] | I0]. exact I0. }
    apply in_map_iff in I. destruct I as [[k' v] [E I]]. simpl in E. subst k'.
    intros C. assert (M : In v (values_of k l)).
    { unfold values_of. apply in_map_iff. exists (k, v). split; [reflexivity |].
      apply filter_In. split; [exact I | apply eqb_ok; reflexivity]. }
    rewrite C in M. exact M.
  Qed.

  Lemma gather_empty : forall l, is_empty (gather l []) = is_empty l.
  Proof.
    intros [| [k v] l]; [reflexivity |]. simpl is_empty at 2. apply is_empty_false. intros C.
    assert (I : In k (map fst (gather ((k, v) :: l) []))) by (apply gather_keys; right; left; reflexivity).
    rewrite C in I. exact I.
  Qed.
End Gather.

(** rebuilding a map with distinct keys *)
Lemma aset_fresh : forall K V (eqb : K -> K -> bool), (forall a b, eqb a b = true <-> a = b) ->
  forall k (v : V) m, ~ In k (map fst m) -> aset eqb k v m = m ++ [(k, v)].
Proof.
  intros K V eqb ok k v m. induction m as [| [k0 v0] m IH]; intros H; [reflexivity |].
  simpl. destruct (eqb k k0) eqn:E.
  - apply ok in E. subst. exfalso. apply H. left. reflexivity.
  - rewrite IH; [reflexivity |]. intros I. apply H. right. exact I.
Qed.

Lemma ping_type : forall b, is_update_ping (message_type_from b) = (n_of b =? 36).
Proof. intros b; destruct b; reflexivity. Qed.

Lemma ping_records_fuel : forall n d, (length d <= n)%nat -> ping_records_n n d = ping_records d.
Proof.
  intros n d. revert n. assert (P : forall k d, (length d <= k)%nat -> forall n m,
    (length d <= n)%nat -> (length d <= m)%nat -> ping_records_n n d = ping_records_n m d).
  { induction k as [| k IH]; intros d' Hk n m Hn Hm.
    - destruct d'; [| simpl in Hk; lia]. destruct n, m; reflexivity.
    - destruct d' as [| t [| p [| lo [| hi [| x r]]]]]; try (destruct n, m; reflexivity).
      destruct n as [| n]; [simpl in Hn; lia |]. destruct m as [| m]; [simpl in Hm; lia |].
      simpl. destruct (n_of t =? 36); [| reflexivity]. f_equal.
      assert (L : (length (skipn 2 r) <= length r)%nat) by (rewrite skipn_length; lia).
      simpl in *. apply IH; lia. }
  intros n H. unfold ping_records. apply (P (length d)); lia.
Qed.

Lemma ping_records_cons : forall t p lo hi x r,
  ping_records (t :: p :: lo :: hi :: x :: r) =
  if n_of t =? 36 then (n_of p, le16 lo hi) :: ping_records (skipn 2 r) else [].
Proof.
  intros. unfold ping_records at 1. simpl length.
  assert (S : forall n, ping_records_n (S n) (t :: p :: lo :: hi :: x :: r) =
    if n_of t =? 36 then (n_of p, le16 lo hi) :: ping_records_n n (skipn 2 r) else []) by reflexivity.
  rewrite S, ping_records_fuel by (rewrite skipn_length; lia). reflexivity.
Qed.

Lemma ping_records_short : forall d, (length d < 5)%nat -> ping_records d = [].
Proof.
  intros d H. destruct d as [| a [| b [| c [| e [| f r]]]]]; try reflexivity. simpl in H; lia.
Qed.

Lemma ping_records_length : forall d, (length (ping_records d) <= length d)%nat.
Proof.
  intros d. remember (length d) as n eqn:Hn. assert (H : (length d <= n)%nat) by lia. clear Hn.
  revert d H. induction n as [| n IH]; intros d H.
  - destruct d; [simpl; lia | simpl in H; lia].
  - destruct d as [| t [| p [| lo [| hi [| x r]]]]]; try (simpl; lia).
    rewrite ping_records_cons. destruct (n_of t =? 36); [| simpl; lia]. cbn [length] in *.
    assert (L : (length (skipn 2 r) <= n - 4)%nat) by (rewrite skipn_length; lia).
    specialize (IH (skipn 2 r) ltac:(lia)). lia.
Qed.

(** the reading inverts the encoding *)
Lemma ping_records_encode : forall us tail, Forall wf_ping us ->
  (forall r, tail <> x24 :: r) ->
  ping_records (concat (map encode_ping us) ++ tail) = map (fun u => (n_of (pu_player u), pu_ping u)) us.
Proof.
  induction us as [| u us IH]; intros tail W T.
  - simpl. destruct tail as [| t [| p [| lo [| hi [| x r]]]]]; try reflexivity.
    rewrite ping_records_cons. destruct (n_of t =? 36) eqn:E; [| reflexivity].
    exfalso. apply (T (p :: lo :: hi :: x :: r)). f_equal. apply n_of_inj. change (n_of x24) with 36. lia.
  - inv W. cbn [map concat]. rewrite <- app_assoc. unfold encode_ping at 1, enc16. cbn [app].
    rewrite ping_records_cons. change (n_of x24 =? 36) with true. cbn iota.
    rewrite le16_enc16 by assumption. cbn [skipn]. f_equal. apply IH; assumption.
Qed.

Definition add_pings := @gather N N N.eqb.

Lemma read_pings_S : forall E fuel body total did,
  read_pings E (S fuel) body total did =
  let (t, body) := read_message_type E body in
  if is_ok_and t is_update_ping then
    let (u, body) := read_update_ping E body in
    match u with
    | Ok u =>
        read_pings E fuel (advance 2 body)
          (gather1 N.eqb total (up_player_number u, up_ping u)) true
    | Err _ => read_pings E fuel body total did
    end
  else Ret (total, did).
Proof. reflexivity. Qed.

Lemma read_pings_nil : forall E fuel pos total did,
  read_pings E (S fuel) (mkCursor pos []) total did = Ret (total, did).
Proof.
  intros. rewrite read_pings_S. destruct (read_message_type_nil E pos) as [e ->]. reflexivity.
Qed.

Lemma read_pings_short : forall E fuel d pos total did, (length d < 5)%nat -> (length d < fuel)%nat ->
  read_pings E fuel (mkCursor pos d) total did = Ret (total, did).
Proof.
  intros E fuel d pos total did S F.
  assert (One : forall f b pos, (1 < f)%nat -> read_pings E f (mkCursor pos [b]) total did = Ret (total, did)).
  { intros [| [| f]] b pos0 L; try lia. rewrite read_pings_S, read_message_type_cons.
    cbn [is_ok_and]. rewrite ping_type. destruct (n_of b =? 36); [| reflexivity].
    unfold read_update_ping. rewrite read_byte_nil. cbn beta iota. apply read_pings_nil. }
  destruct d as [| a [| b [| c [| e [| g r]]]]]; [| | | | | simpl in S; lia];
    (destruct fuel as [| fuel]; [simpl in F; lia |]); simpl in F.
  - apply read_pings_nil.
  - apply One. lia.
  - rewrite read_pings_S, read_message_type_cons. cbn [is_ok_and]. rewrite ping_type.
    destruct (n_of a =? 36); [| reflexivity]. unfold read_update_ping. rewrite read_byte_cons.
    unfold read_u16, read_exact. cbn [c_rest length Nat.leb]. cbn beta iota. destruct (eof_on_short_read E);
      (destruct fuel; [lia |]); apply read_pings_nil.
  - rewrite read_pings_S, read_message_type_cons. cbn [is_ok_and]. rewrite ping_type.
    destruct (n_of a =? 36); [| reflexivity]. unfold read_update_ping. rewrite read_byte_cons.
    unfold read_u16, read_exact. cbn [c_rest length Nat.leb]. cbn beta iota. destruct (eof_on_short_read E).
    + destruct fuel; [lia |]. apply read_pings_nil.
    + apply One. lia.
  - rewrite read_pings_S, read_message_type_cons. cbn [is_ok_and]. rewrite ping_type.
    destruct (n_of a =? 36); [| reflexivity]. unfold read_update_ping. rewrite read_byte_cons.
    rewrite read_u16_cons, read_byte_nil. cbn beta iota. destruct fuel; [lia |]. apply read_pings_nil.
Qed.

Lemma read_pings_spec : forall E fuel d pos total did, (length d < fuel)%nat ->
  read_pings E fuel (mkCursor pos d) total did =
  Ret (add_pings (ping_records d) total, did || negb (is_empty (ping_records d))).
Proof.
  intros E. induction fuel as [| fuel IH]; intros d pos total did F; [lia |].
  destruct d as [| t [| p [| lo [| hi [| x r]]]]];
    try (rewrite read_pings_short by (simpl in *; lia); rewrite ping_records_short by (simpl; lia);
         simpl; rewrite orb_false_r; reflexivity).
  rewrite read_pings_S, read_message_type_cons. cbn [is_ok_and].
  rewrite ping_type, ping_records_cons. destruct (n_of t =? 36).
  - unfold read_update_ping. rewrite read_byte_cons, read_u16_cons, read_byte_cons.
    cbn [up_player_number up_ping]. unfold advance. cbn [c_pos c_rest].
    rewrite IH by (simpl in F; rewrite skipn_length; lia).
    change (N.to_nat 2) with 2%nat. unfold add_pings. cbn [gather fold_left is_empty negb].
    rewrite orb_true_r. reflexivity.
  - simpl. rewrite orb_false_r. reflexivity.
Qed.

(** The walk *)
Definition sample_loop (E : env) (data : bytes) : N * pings -> info -> M (step (N * pings)) :=
  fun '(count, total) i =>
    let! st :=
      if 0 <? i_body_size i then
        let! body := body_of data i in
        let! r := read_pings E (S (length body)) (cursor_new body) total false in
        let '(total, did) := r in
        Ret ((if did : bool then count + 1 else count), total)
      else Ret (count, total) in
    if MAX_SAMPLES <=? fst st then Ret (Break st) else Ret (Continue st).

Definition sample_step (st : N * pings) (f : frame) : N * pings :=
  let l := ping_records (f_body f) in
  (if is_empty l then fst st else fst st + 1, add_pings l (snd st)).
Definition sample_g (st : N * pings) (idx : N) (f : frame) : M (step (N * pings)) :=
  let st' := sample_step st f in
  if MAX_SAMPLES <=? fst st' then Ret (Break st') else Ret (Continue st').

Lemma sample_body : forall E data st p f r, data = p ++ encode_frame f ++ r -> wf_frame f ->
  sample_loop E data st (info_of (len p) f) = sample_g st (len p) f.
Proof.
  intros E data [count total] p f r D W. unfold sample_loop, sample_g, sample_step.
  rewrite body_size_of by exact W. rewrite (body_of_frame data p f r D W). cbn [bind fst snd].
  destruct (0 <? len (f_body f)) eqn:C.
  - unfold cursor_new. rewrite read_pings_spec by lia. cbn [bind fst snd orb].
    destruct (is_empty (ping_records (f_body f))); reflexivity.
  - assert (f_body f = []) as -> by (apply len_0; lia). reflexivity.
Qed.

Lemma walk_sample : forall fs idx n total, n < 8 ->
  walk sample_g idx fs (n, total) =
  if n + len (ping_frames fs) <? 8
  then Ret (Continue (n + len (ping_frames fs), add_pings (concat (ping_frames fs)) total))
  else Ret (Break (8, add_pings (concat (firstn (N.to_nat (8 - n)) (ping_frames fs))) total)).
Proof.
  induction fs as [| f fs IH]; intros idx n total H.
  - simpl. rewrite len_nil, N.add_0_r. replace (n <? 8) with true by lia. reflexivity.
  - cbn [walk]. unfold sample_g at 1, sample_step. cbn [fst snd].
    unfold ping_frames. cbn [map filter]. fold (ping_frames fs).
    destruct (ping_records (f_body f)) as [| x l] eqn:P; cbn [is_empty negb].
    + unfold MAX_SAMPLES. replace (8 <=? n) with false by lia. cbn [bind add_pings gather fold_left].
      apply IH. exact H.
    + unfold MAX_SAMPLES. rewrite len_cons. destruct (8 <=? n + 1) eqn:C.
      * cbn [bind]. replace (n + (1 + len (ping_frames fs)) <? 8) with false by lia.
        replace (n + 1) with 8 by lia. replace (N.to_nat (8 - n)) with 1%nat by lia.
        cbn [firstn concat]. rewrite app_nil_r. reflexivity.
      * cbn [bind]. rewrite IH by lia. rewrite N.add_assoc.
        destruct (n + 1 + len (ping_frames fs) <? 8); [cbn [concat]; unfold add_pings; rewrite gather_app; reflexivity |].
        replace (N.to_nat (8 - n)) with (S (N.to_nat (8 - (n + 1)))) by lia. cbn [firstn concat].
        unfold add_pings. rewrite (gather_app N.eqb (x :: l)). reflexivity.
Qed.

Lemma sampled_few : forall fs, len (ping_frames fs) < 8 -> sampled fs = concat (ping_frames fs).
Proof.
  intros fs H. unfold sampled. rewrite firstn_all2; [reflexivity |].
  unfold len in H. lia.
Qed.

Lemma sample_quiet : forall E fs rest, wf fs ->
  stops (len (encode fs ++ rest)) rest ->
  exists n, sample_pings E (encode fs ++ rest) = Ret (n, add_pings (sampled fs) []).
Proof.
  intros E fs rest W Q. unfold sample_pings. fold (sample_loop E (encode fs ++ rest)).
  rewrite (frame_loop_quiet _ E (encode fs ++ rest) _ sample_g fs rest);
    [| reflexivity | exact W | exact Q | apply sample_body].
  rewrite walk_sample by lia. rewrite N.add_0_l. destruct (len (ping_frames fs) <? 8) eqn:C.
  - cbn [bind]. rewrite sampled_few by lia. eauto.
  - cbn [bind]. exists 8. reflexivity.
Qed.

(** Once eight frames were sampled nothing behind them matters. *)
Lemma sample_enough : forall E fs rest, wf fs -> 8 <= len (ping_frames fs) ->
  sample_pings E (encode fs ++ rest) = Ret (8, add_pings (sampled fs) []).
Proof.
  intros E fs rest W Q. unfold sample_pings. fold (sample_loop E (encode fs ++ rest)).
  destruct (decompose rest) as [gs [rest' [-> [W' NF]]]].
  assert (D : encode fs ++ encode gs ++ rest' = encode (fs ++ gs) ++ rest')
    by (rewrite encode_app, app_assoc; reflexivity).
  rewrite D. assert (W2 : wf (fs ++ gs)) by (apply Forall_app; auto).
  destruct (frame_loop_total _ E (encode (fs ++ gs) ++ rest') (sample_loop E (encode (fs ++ gs) ++ rest')) sample_g (fs ++ gs) rest' (0, []))
    as [fuel [F ->]]; [reflexivity | exact W2 | exact NF | apply sample_body |].
  rewrite walk_sample by lia. rewrite N.add_0_l.
  assert (A : ping_frames (fs ++ gs) = ping_frames fs ++ ping_frames gs).
  { unfold ping_frames. rewrite map_app, filter_app. reflexivity. }
  rewrite A, len_app. replace (len (ping_frames fs) + len (ping_frames gs) <? 8) with false by lia.
  cbn [bind tail_walk]. rewrite firstn_app. unfold len in Q.
  replace (N.to_nat (8 - 0) - length (ping_frames fs))%nat with 0%nat by lia.
  cbn [firstn]. rewrite app_nil_r. reflexivity.
Qed.

Lemma sample_crash : forall E fs rest, wf fs -> overruns (len (encode fs ++ rest)) rest ->
  len (ping_frames fs) < 8 ->
  sample_pings E (encode fs ++ rest) = Panic PSlice.
Proof.
  intros E fs rest W Q L. unfold sample_pings. fold (sample_loop E (encode fs ++ rest)).
  destruct (frame_loop_crash _ E (encode fs ++ rest) (sample_loop E (encode fs ++ rest))
    sample_g fs rest (0, [])) as [i [B1 [B2 [_ ->]]]];
    [reflexivity | exact W | exact Q | apply sample_body |].
  rewrite walk_sample by lia. rewrite N.add_0_l. replace (len (ping_frames fs) <? 8) with true by lia.
  cbn [bind]. unfold sample_loop. replace (0 <? i_body_size i) with true by lia.
  rewrite body_of_overrun by exact B2. reflexivity.
Qed.

(** Averages *)
Lemma sum_fold : forall E bound l s, s < bound ->
  foldM (fun s p => uadd E bound s p) l s =
  if s + sum l <? bound then Ret (s + sum l)
  else if checked E then Panic POverflow else Ret ((s + sum l) mod bound).
Proof.
  intros E bound. induction l as [| p l IH]; intros s H; cbn [foldM sum fold_right].
  - rewrite N.add_0_r. replace (s <? bound) with true by lia. reflexivity.
  - change (fold_right N.add 0 l) with (sum l). unfold uadd at 1.
    destruct (s + p <? bound) eqn:C.
    + cbn [bind]. rewrite IH by lia. rewrite N.add_assoc. reflexivity.
    + replace (s + (p + sum l) <? bound) with false by lia. destruct (checked E) eqn:K; [reflexivity |].
      cbn [bind]. rewrite IH by (apply N.mod_lt; lia).
      rewrite (N.add_assoc s p). rewrite <- (N.add_mod_idemp_l (s + p) (sum l)) by lia.
      destruct ((s + p) mod bound + sum l <? bound) eqn:C2; [| reflexivity].
      rewrite (N.mod_small ((s + p) mod bound + sum l)) by lia. reflexivity.
Qed.

Definition averaged (E : env) (l : list N) : N :=
  (if checked E then sum l else sum l mod 65536) / len l.

Lemma average_spec : forall E l, l <> [] -> len l < 9223372036854775808 ->
  average E l = if checked E && (65536 <=? sum l) then Panic POverflow else Ret (averaged E l).
Proof.
  intros E l NE L. apply len_pos in NE. unfold average, averaged. rewrite sum_fold, N.add_0_l by reflexivity.
  change u16_bound with 65536.
  destruct (sum l <? 65536) eqn:C.
  - replace (65536 <=? sum l) with false by lia. rewrite andb_false_r. cbn [bind].
    rewrite average_floor by lia. rewrite N.mod_small by lia. destruct (checked E); reflexivity.
  - replace (65536 <=? sum l) with true by lia. rewrite andb_true_r. destruct (checked E); [reflexivity |].
    cbn [bind]. rewrite average_floor; [reflexivity | apply N.mod_lt; lia | lia].
Qed.

Definition average_step (E : env) : list (N * N) -> N * list N -> M (list (N * N)) :=
  fun m '(pnum, l) => let! a := average E l in Ret (aset N.eqb pnum a m).

Lemma average_fold : forall E total m, NoDup (map fst m ++ map fst total) ->
  (forall k l, In (k, l) total -> l <> [] /\ len l < 9223372036854775808) ->
  foldM (average_step E) total m =
  if checked E && existsb (fun x => 65536 <=? sum (snd x)) total then Panic POverflow
  else Ret (m ++ map (fun x => (fst x, averaged E (snd x))) total).
Proof.
  intros E. induction total as [| [k l] total IH]; intros m ND G.
  - simpl. rewrite andb_false_r, app_nil_r. reflexivity.
  - cbn [foldM existsb snd]. unfold average_step at 1. destruct (G k l) as [G1 G2]; [left; reflexivity |].
    rewrite average_spec by assumption. destruct (checked E && (65536 <=? sum l)) eqn:C.
    + cbn [bind]. apply andb_true_iff in C. destruct C as [-> ->]. reflexivity.
    + cbn [bind]. rewrite (aset_fresh _ _ N.eqb N.eqb_eq).
      * rewrite IH.
        -- destruct (checked E); [| cbn; rewrite <- app_assoc; reflexivity]. cbn [andb] in C.
           rewrite C. cbn [orb andb]. destruct (existsb (fun x => 65536 <=? sum (snd x)) total); [reflexivity |].
           cbn [map fst snd]. rewrite <- app_assoc. reflexivity.
        -- rewrite map_app. cbn [map fst]. rewrite <- app_assoc. exact ND.
        -- intros k' l' I. apply (G k'). right. exact I.
      * intros I. cbn [map fst] in ND. apply NoDup_remove_2 in ND. apply ND. apply in_or_app. left. exact I.
Qed.

Lemma pings_of_values : forall p l, pings_of p l = values_of N.eqb p l.
Proof. reflexivity. Qed.

Lemma sampled_length : forall fs, wf fs -> len (sampled fs) < 34359738368.
Proof.
  intros fs W. unfold sampled. fold (ping_frames fs).
  assert (B : Forall (fun l => len l < 4294967296) (ping_frames fs)).
  { unfold ping_frames. apply Forall_forall. intros l I. apply filter_In in I. destruct I as [I _].
    apply in_map_iff in I. destruct I as [f [<- I]]. unfold wf in W. rewrite Forall_forall in W.
    apply W in I. destruct I as [_ I].
    pose proof (ping_records_length (f_body f)) as R. unfold len in *.
    destruct (has_length (f_type f)); [lia |]. unfold fixed_body in I. destruct (kind (f_type f) =? 2); lia. }
  assert (G : forall n (L : list (list (N * N))), Forall (fun l => len l < 4294967296) L ->
            len (concat (firstn n L)) <= N.of_nat n * 4294967295).
  { intros n. induction n as [| n IH]; intros L F; [simpl; rewrite len_nil; lia |].
    destruct F as [| l L Hl F]; [simpl; rewrite len_nil; lia |].
    cbn [firstn concat]. rewrite len_app. specialize (IH L F). lia. }
  specialize (G 8%nat _ B). lia.
Qed.

Lemma filter_len : forall A (f : A -> bool) l, len (filter f l) <= len l.
Proof.
  intros A f l. induction l as [| x l IH]; [simpl; lia |]. simpl.
  destruct (f x); rewrite ?len_cons; lia.
Qed.

Lemma values_of_len : forall p (l : list (N * N)), len (values_of N.eqb p l) <= len l.
Proof.
  intros p l. unfold values_of. rewrite len_map. apply filter_len.
Qed.

Definition averages_mod (E : env) (l : list (N * N)) : list (N * N) :=
  map (fun x => (fst x, averaged E (snd x))) (add_pings l []).

Lemma pings_result : forall E data fs n, wf fs ->
  sample_pings E data = Ret (n, add_pings (sampled fs) []) ->
  ping_per_player_number E data =
  if is_empty (sampled fs) then Ret (Err "Unable to read pings")
  else if checked E && existsb (fun x => 65536 <=? sum (snd x)) (add_pings (sampled fs) [])
       then Panic POverflow
       else Ret (Ok (averages_mod E (sampled fs))).
Proof.
  intros E data fs n W S. unfold ping_per_player_number. rewrite S. cbn [bind snd].
  unfold add_pings. rewrite (gather_empty N.eqb N.eqb_eq).
  destruct (is_empty (sampled fs)); [reflexivity |]. fold (average_step E).
  rewrite average_fold; cbn [map app].
  - unfold averages_mod, add_pings.
    destruct (checked E && existsb _ _); reflexivity.
  - apply (gather_nodup N.eqb N.eqb_eq). constructor.
  - intros k l I. apply (gather_entries N.eqb N.eqb_eq) in I. destruct I as [I1 I2]. split; [exact I2 |].
    subst l. pose proof (values_of_len k (sampled fs)). pose proof (sampled_length fs W). lia.
Qed.

Lemma existsb_big : forall l,
  existsb (fun x => 65536 <=? sum (snd x)) (add_pings l []) = true <->
  exists p, In p (map fst l) /\ 65536 <= sum (pings_of p l).
Proof.
  intros l. rewrite existsb_exists. split.
  - intros [[k vs] [I B]]. cbn [snd] in B. exists k. split.
    + assert (In k (map fst (add_pings l []))) by (apply in_map_iff; exists (k, vs); auto).
      apply (gather_keys N.eqb N.eqb_eq) in H. destruct H as [[] | H]. exact H.
    + apply (gather_entries N.eqb N.eqb_eq) in I. destruct I as [-> _]. rewrite pings_of_values. lia.
  - intros [p [I B]]. assert (J : In p (map fst (add_pings l []))) by (apply (gather_keys N.eqb N.eqb_eq); auto).
    apply in_map_iff in J. destruct J as [[k vs] [E J]]. simpl in E. subst k. exists (p, vs). split; [exact J |].
    apply (gather_entries N.eqb N.eqb_eq) in J. destruct J as [-> _]. cbn [snd]. rewrite <- pings_of_values. lia.
Qed.

Lemma averages_mod_spec : forall E l,
  NoDup (map fst (averages_mod E l)) /\
  (forall p, In p (map fst (averages_mod E l)) <-> In p (map fst l)) /\
  (forall p a, In (p, a) (averages_mod E l) -> a = averaged E (pings_of p l)).
Proof.
  intros E l. unfold averages_mod.
  assert (K : map fst (map (fun x => (fst x, averaged E (snd x))) (add_pings l [])) = map fst (add_pings l []))
    by (rewrite map_map; reflexivity).
  rewrite K. split; [| split].
  - apply (gather_nodup N.eqb N.eqb_eq). constructor.
  - intros p. split; intros H.
    + apply (gather_keys N.eqb N.eqb_eq) in H. destruct H as [[] | H]. exact H.
    + apply (gather_keys N.eqb N.eqb_eq). auto.
  - intros p a I. apply in_map_iff in I. destruct I as [[k vs] [X I]]. inv X.
    apply (gather_entries N.eqb N.eqb_eq) in I. destruct I as [-> _]. reflexivity.
Qed.

(** The theorems *)
Lemma sample_reached : forall E fs rest, wf fs -> sampling_ends fs rest ->
  exists n, sample_pings E (encode fs ++ rest) = Ret (n, add_pings (sampled fs) []).
Proof.
  intros E fs rest W [R | R]; [apply sample_quiet; assumption |]. exists 8. apply sample_enough; assumption.
Qed.

Lemma pings_none_proof : forall E fs rest, wf fs -> sampling_ends fs rest ->
  sampled fs = [] -> ping_per_player_number E (encode fs ++ rest) = Ret (Err "Unable to read pings").
Proof.
  intros E fs rest W R Z. destruct (sample_reached E fs rest W R) as [n S].
  rewrite (pings_result E _ fs n W S), Z. reflexivity.
Qed.

Lemma pings_average_proof : forall E fs rest, wf fs -> sampling_ends fs rest ->
  sampled fs <> [] ->
  (forall p, In p (map fst (sampled fs)) -> sum (pings_of p (sampled fs)) < 65536) ->
  exists tbl, ping_per_player_number E (encode fs ++ rest) = Ret (Ok tbl) /\ averages tbl (sampled fs).
Proof.
  intros E fs rest W R Z B. destruct (sample_reached E fs rest W R) as [n S].
  rewrite (pings_result E _ fs n W S). apply is_empty_false in Z. rewrite Z.
  destruct (existsb (fun x => 65536 <=? sum (snd x)) (add_pings (sampled fs) [])) eqn:X.
  - apply existsb_big in X. destruct X as [p [I X]]. apply B in I. lia.
  - rewrite andb_false_r. eexists. split; [reflexivity |].
    destruct (averages_mod_spec E (sampled fs)) as [A1 [A2 A3]]. split; [exact A1 |]. split; [exact A2 |].
    intros p a I. rewrite (A3 p a I). unfold averaged.
    assert (J : In p (map fst (sampled fs))).
    { apply A2. apply in_map_iff. exists (p, a). auto. }
    apply B in J. rewrite N.mod_small by exact J. destruct (checked E); reflexivity.
Qed.

Lemma pings_overflow_proof : forall E fs rest p, wf fs -> sampling_ends fs rest ->
  In p (map fst (sampled fs)) -> 65536 <= sum (pings_of p (sampled fs)) ->
  if checked E then ping_per_player_number E (encode fs ++ rest) = Panic POverflow
  else exists tbl a, ping_per_player_number E (encode fs ++ rest) = Ret (Ok tbl) /\ In (p, a) tbl /\
       a = (sum (pings_of p (sampled fs)) mod 65536) / len (pings_of p (sampled fs)).
Proof.
  intros E fs rest p W R I B. destruct (sample_reached E fs rest W R) as [n S].
  rewrite (pings_result E _ fs n W S). 
  assert (Z : is_empty (sampled fs) = false).
  { apply is_empty_false. intros C. rewrite C in I. exact I. }
  rewrite Z. destruct (checked E) eqn:K.
  - replace (existsb _ _) with true; [reflexivity |]. symmetry. apply existsb_big. eauto.
  - cbn [andb]. destruct (averages_mod_spec E (sampled fs)) as [A1 [A2 A3]].
    assert (J : In p (map fst (averages_mod E (sampled fs)))) by (apply A2; exact I).
    apply in_map_iff in J. destruct J as [[k a] [X J]]. simpl in X. subst k.
    exists (averages_mod E (sampled fs)), a. repeat split; auto. rewrite (A3 p a J). unfold averaged.
    rewrite K. reflexivity.
Qed.

Lemma pings_crash_proof : forall E fs rest, wf fs -> overruns (len (encode fs ++ rest)) rest ->
  len (ping_frames fs) < 8 -> ping_per_player_number E (encode fs ++ rest) = Panic PSlice.
Proof.
  intros E fs rest W O L. unfold ping_per_player_number. rewrite sample_crash by assumption. reflexivity.
Qed.
