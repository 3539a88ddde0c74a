(** The print walk (src/prints.rs) against the spec. *)
From Coq Require Import Lia ZifyN ZifyNat ZifyBool.
From Verif.Model Require Import Base Env Primitives Prot Frame Message Prints.
From Verif.Spec Require Import Occ Mvd Messages.
From Verif.Proofs Require Import BaseFacts FrameFacts.

Arguments encode_message : simpl never.
Arguments encode_frame : simpl never.

(** Walks that never stop early *)
Lemma walk_pure : forall St (g : St -> N -> frame -> M (step St)) h fs idx st,
  (forall st idx f, In f fs -> g st idx f = Ret (Continue (h st idx f))) ->
  walk g idx fs st = Ret (Continue (fold_left (fun st '(i, f) => h st i f) (located idx fs) st)).
Proof.
  intros St g h fs. induction fs as [| f fs IH]; intros idx st H; simpl; [reflexivity |].
  rewrite H by (left; reflexivity). simpl. apply IH. intros. apply H. right. assumption.
Qed.

Lemma rest_cases : forall total rest, len rest <= total -> no_frame rest ->
  stops total rest \/ overruns total rest.
Proof.
  intros total rest L H. unfold no_frame in H. unfold stops, overruns.
  destruct (announced rest) as [s |]; [| left; exact I].
  destruct (N.lt_ge_cases total s) as [C | C]; [left; exact C | right; eauto].
Qed.

(** the walk ends quietly *)
Lemma frame_loop_quiet : forall St E data body (g : St -> N -> frame -> M (step St)) fs rest st,
  data = encode fs ++ rest -> wf fs -> stops (len data) rest ->
  (forall st p' f r, data = p' ++ encode_frame f ++ r -> wf_frame f ->
     body st (info_of (len p') f) = g st (len p') f) ->
  frame_loop E (frame_fuel data) data body 0 st =
  let! r := walk g 0 fs st in
  match r with Break st' => Ret st' | Continue st' => Ret st' end.
Proof.
  intros St E data body g fs rest st D W S B.
  assert (NF : no_frame rest).
  { apply (stops_no_frame (len data)); [rewrite D, len_app; lia | exact S]. }
  destruct (frame_loop_total St E data body g fs rest st D W NF B) as [fuel' [F ->]].
  destruct (walk g 0 fs st) as [[st' | st'] | |]; simpl; try reflexivity.
  apply (frame_loop_stops E data body (encode fs) rest); auto; lia.
Qed.

(** the walk runs into a frame that overruns the data *)
Lemma frame_loop_crash : forall St E data body (g : St -> N -> frame -> M (step St)) fs rest st,
  data = encode fs ++ rest -> wf fs -> overruns (len data) rest ->
  (forall st p' f r, data = p' ++ encode_frame f ++ r -> wf_frame f ->
     body st (info_of (len p') f) = g st (len p') f) ->
  exists i, 0 < i_body_size i /\ len data < snd (i_body_range i) /\ i_index i = len (encode fs) /\
  frame_loop E (frame_fuel data) data body 0 st =
  let! r := walk g 0 fs st in
  match r with
  | Break st' => Ret st'
  | Continue st' =>
      let! r' := body st' i in
      match r' with Break st'' => Ret st'' | Continue _ => Panic PSlice end
  end.
Proof.
  intros St E data body g fs rest st D W [s [A [L1 L2]]] B.
  assert (NF : no_frame rest) by (unfold no_frame; rewrite A; exact L1).
  destruct (announced_inv _ _ A) as [time [t [r [R [H1 [H2 _]]]]]].
  exists (info_at (len (encode fs)) time t s). unfold info_at. cbn [i_body_size i_body_range i_index snd].
  repeat split; [lia | rewrite D, len_app; lia |].
  destruct (frame_loop_total St E data body g fs rest st D W NF B) as [fuel' [F ->]].
  destruct (walk g 0 fs st) as [[st' | st'] | |]; simpl; try reflexivity.
  rewrite (frame_loop_overrun E data body (encode fs) rest s time t r); auto.
Qed.

(** Reading messages *)
Lemma message_type_print : forall b, is_print (message_type_from b) = Byte.eqb b x08.
Proof. intros b; destruct b; reflexivity. Qed.

Lemma print_id_level : forall b, print_id_from b = level_of b.
Proof. intros b; destruct b; reflexivity. Qed.

Lemma until_nul_spec : forall d,
  match until_nul d with
  | Some (s, r) => d = s ++ x00 :: r /\ ~ In x00 s
  | None => ~ In x00 d
  end.
Proof.
  induction d as [| b d IH]; simpl; [auto |].
  destruct (Byte.eqb b x00) eqn:Eb.
  - apply byte_eqb_true in Eb. subst b. simpl. auto.
  - apply byte_eqb_false in Eb. destruct (until_nul d) as [[s r] |].
    + destruct IH as [-> IH]. split; [reflexivity |]. simpl. intros [C | C]; auto.
    + simpl. intros [C | C]; auto.
Qed.

Lemma read_bstring_rest_spec : forall d pos,
  match until_nul d with
  | Some (s, r) => read_bstring_rest pos d = (Ok s, mkCursor (pos + len s + 1) r)
  | None => exists e, read_bstring_rest pos d = (Err e, mkCursor (pos + len d) [])
  end.
Proof.
  induction d as [| b d IH]; intros pos.
  - exists "failed to read string"%string. simpl. rewrite len_nil, N.add_0_r. reflexivity.
  - simpl until_nul. simpl read_bstring_rest. destruct (Byte.eqb b x00) eqn:Eb.
    + apply byte_eqb_true in Eb. subst b. rewrite len_nil. f_equal. f_equal. lia.
    + specialize (IH (pos + 1)). destruct (until_nul d) as [[s r] |].
      * rewrite IH. f_equal. f_equal. rewrite len_cons. lia.
      * destruct IH as [e IH]. exists e. rewrite IH. f_equal. f_equal. rewrite len_cons. lia.
Qed.

Lemma until_nul_app : forall s r, ~ In x00 s -> until_nul (s ++ x00 :: r) = Some (s, r).
Proof.
  intros s r H. pose proof (until_nul_spec (s ++ x00 :: r)) as U.
  destruct (until_nul (s ++ x00 :: r)) as [[s' r'] |].
  - destruct U as [E N]. f_equal.
    assert (len s = len s').
    { pose proof (find_byte_app s x00 r H). pose proof (find_byte_app s' x00 r' N). rewrite <- E in *. congruence. }
    apply app_inj_len in E; [| assumption]. destruct E as [-> E]. inv E. reflexivity.
  - exfalso. apply U. apply in_or_app. right. left. reflexivity.
Qed.

Lemma message_at_some : forall d m r, message_at d = Some (m, r) <->
  d = encode_message m ++ r /\ wf_message m.
Proof.
  intros d m r. split.
  - intros H. unfold message_at in H. destruct d as [| b [| level q]]; try discriminate.
    destruct (Byte.eqb b x08) eqn:Eb; [| discriminate]. apply byte_eqb_true in Eb. subst b.
    pose proof (until_nul_spec q) as U. destruct (until_nul q) as [[s r'] |]; [| discriminate].
    inv H. destruct U as [-> U]. split; [| exact U]. unfold encode_message. simpl.
    rewrite <- app_assoc. reflexivity.
  - intros [-> W]. unfold encode_message. simpl. rewrite <- app_assoc. simpl.
    rewrite until_nul_app by exact W. destruct m; reflexivity.
Qed.

Lemma message_at_none : forall d, message_at d = None <->
  forall m r, wf_message m -> d <> encode_message m ++ r.
Proof.
  intros d. split.
  - intros H m r W E. assert (message_at d = Some (m, r)) by (apply message_at_some; auto). congruence.
  - intros H. destruct (message_at d) as [[m r] |] eqn:E; [| reflexivity].
    apply message_at_some in E. destruct E. exfalso. apply (H m r); assumption.
Qed.

Lemma len_encode_message : forall m, len (encode_message m) = len (m_text m) + 3.
Proof. intros. unfold encode_message. rewrite !len_cons, len_app, len_cons, len_nil. lia. Qed.

Lemma messages_n_opens : forall n d, (length d <= n)%nat -> opens_with d (messages_n n d).
Proof.
  induction n as [| n IH]; intros d L.
  - destruct d; [| simpl in L; lia]. split; [constructor |]. exists []. split; [reflexivity |].
    intros m t _ C. unfold encode_message in C. discriminate.
  - simpl. destruct (message_at d) as [[m r] |] eqn:A.
    + apply message_at_some in A. destruct A as [-> W].
      destruct (IH r) as [Wr [tail [E T]]].
      { rewrite app_length in L. unfold encode_message in L. simpl in L. lia. }
      split; [constructor; assumption |]. exists tail. split; [| exact T].
      cbn [map concat]. rewrite <- app_assoc, <- E. reflexivity.
    + split; [constructor |]. exists d. split; [reflexivity |].
      intros m t W. apply message_at_none; assumption.
Qed.

Lemma messages_opens : forall d, opens_with d (messages d).
Proof. intros. apply messages_n_opens. lia. Qed.

Lemma opens_with_unique : forall ms ms' d, opens_with d ms -> opens_with d ms' -> ms = ms'.
Proof.
  induction ms as [| m ms IH]; intros ms' d [W [tail [E T]]] [W' [tail' [E' T']]].
  - destruct ms' as [| m' ms']; [reflexivity |]. exfalso. inv W'.
    cbn [map concat] in E'. rewrite <- app_assoc in E'. apply (T m' (concat (map encode_message ms') ++ tail')); auto.
  - destruct ms' as [| m' ms'].
    + exfalso. inv W. cbn [map concat] in *. rewrite <- app_assoc in E'.
      apply (T' m (concat (map encode_message ms) ++ tail)); auto.
    + inv W. inv W'. cbn [map concat] in E'. rewrite <- !app_assoc in E'.
      assert (A : message_at (encode_message m ++ concat (map encode_message ms) ++ tail)
                = Some (m, concat (map encode_message ms) ++ tail)) by (apply message_at_some; auto).
      assert (A' : message_at (encode_message m' ++ concat (map encode_message ms') ++ tail')
                = Some (m', concat (map encode_message ms') ++ tail')) by (apply message_at_some; auto).
      rewrite E' in A. rewrite A' in A. inv A. f_equal.
      apply (IH ms' (concat (map encode_message ms) ++ tail)).
      * split; [assumption |]. exists tail. auto.
      * split; [assumption |]. exists tail'. auto.
Qed.

Lemma opens_with_messages : forall d ms, opens_with d ms <-> ms = messages d.
Proof.
  intros d ms. split.
  - intros H. apply (opens_with_unique _ _ d H (messages_opens d)).
  - intros ->. apply messages_opens.
Qed.

Lemma messages_cons : forall m r, wf_message m ->
  messages (encode_message m ++ r) = m :: messages r.
Proof.
  intros m r W. symmetry. apply opens_with_messages.
  destruct (messages_opens r) as [W' [tail [E T]]].
  split; [constructor; assumption |]. exists tail. split; [| exact T].
  cbn [map concat]. rewrite <- app_assoc, <- E. reflexivity.
Qed.

Lemma messages_nil : forall d, message_at d = None -> messages d = [].
Proof.
  intros d H. symmetry. apply opens_with_messages. split; [constructor |]. exists d.
  split; [reflexivity |]. apply message_at_none. exact H.
Qed.

(** [read_print] after the type byte *)
Lemma read_print_cases : forall E pos d,
  match d with
  | [] => exists e, read_print E (mkCursor pos d) = (Err e, mkCursor pos [])
  | level :: q =>
      match until_nul q with
      | Some (s, r) => read_print E (mkCursor pos d) = (Ok (mkPrint (level_of level) s), mkCursor (pos + 1 + len s + 1) r)
      | None => exists e, read_print E (mkCursor pos d) = (Err e, mkCursor (pos + 1 + len q) [])
      end
  end.
Proof.
  intros E pos d. destruct d as [| level q].
  - unfold read_print. rewrite read_byte_nil. eauto.
  - pose proof (read_bstring_rest_spec q (pos + 1)) as U.
    unfold read_print. rewrite read_byte_cons. unfold read_bstring. cbn [c_pos c_rest].
    rewrite print_id_level.
    destruct (until_nul q) as [[s r] |].
    + rewrite U. reflexivity.
    + destruct U as [e ->]. eauto.
Qed.

Lemma read_message_type_nil : forall E pos,
  exists e, read_message_type E (mkCursor pos []) = (Err e, mkCursor pos []).
Proof. intros. unfold read_message_type. rewrite read_byte_nil. eauto. Qed.

Lemma read_message_type_cons : forall E pos b r,
  read_message_type E (mkCursor pos (b :: r)) = (Ok (message_type_from b), mkCursor (pos + 1) r).
Proof. intros. unfold read_message_type. rewrite read_byte_cons. reflexivity. Qed.

(** one message at the front *)
Lemma read_message_some : forall E pos d m r, message_at d = Some (m, r) ->
  exists pos' pos'', read_message_type E (mkCursor pos d) = (Ok MtPrint, mkCursor pos' (skipn 1 d)) /\
    read_print E (mkCursor pos' (skipn 1 d)) = (Ok (as_print m), mkCursor pos'' r).
Proof.
  intros E pos d m r H. apply message_at_some in H. destruct H as [-> W].
  unfold encode_message. simpl. exists (pos + 1). eexists. rewrite read_message_type_cons.
  split; [reflexivity |].
  pose proof (read_print_cases E (pos + 1) (m_level m :: (m_text m ++ [x00]) ++ r)) as R.
  cbn beta iota in R. rewrite <- app_assoc in R. simpl in R.
  rewrite until_nul_app in R by exact W. rewrite <- app_assoc. simpl. rewrite R. reflexivity.
Qed.

Lemma read_prints_nil : forall E fuel pos acc,
  read_prints E (S fuel) (mkCursor pos []) acc = Ret acc.
Proof.
  intros. cbn [read_prints]. destruct (read_message_type_nil E pos) as [e ->]. reflexivity.
Qed.

Lemma read_prints_spec : forall E fuel d pos acc, (length d < fuel)%nat ->
  read_prints E fuel (mkCursor pos d) acc = Ret (acc ++ map as_print (filter has_text (messages d))).
Proof.
  intros E fuel. induction fuel as [| fuel IH]; intros d pos acc L; [lia |].
  simpl read_prints. destruct (message_at d) as [[m r] |] eqn:A.
  - destruct (read_message_some E pos d m r A) as [pos' [pos'' [T P]]].
    rewrite T. simpl is_ok_and. cbn iota. rewrite P. rewrite IH.
    + apply message_at_some in A. destruct A as [-> W]. rewrite messages_cons by exact W.
      simpl. unfold has_text at 2. destruct (is_empty (m_text m)) eqn:Em; simpl; [reflexivity |].
      rewrite <- app_assoc. reflexivity.
    + apply message_at_some in A. destruct A as [-> W]. rewrite app_length in L.
      unfold encode_message in L. simpl in L. lia.
  - rewrite messages_nil by exact A. simpl. rewrite app_nil_r.
    destruct d as [| b d].
    + destruct (read_message_type_nil E pos) as [e ->]. reflexivity.
    + rewrite read_message_type_cons. simpl is_ok_and. rewrite message_type_print.
      destruct (Byte.eqb b x08) eqn:Eb; [| reflexivity]. apply byte_eqb_true in Eb. subst b.
      simpl in L. destruct fuel as [| fuel]; [lia |].
      pose proof (read_print_cases E (pos + 1) d) as R. destruct d as [| level q].
      * destruct R as [e ->]. apply read_prints_nil.
      * simpl in A. destruct (until_nul q) as [[s r] |]; [discriminate |].
        destruct R as [e ->]. apply read_prints_nil.
Qed.

(** The loop body of [prints] *)
Definition prints_step (ps : list Print) (f : frame) : list Print :=
  ps ++ map as_print (filter has_text (messages (f_body f))).

Lemma body_size_of : forall idx f, wf_frame f -> i_body_size (info_of idx f) = len (f_body f).
Proof. intros. unfold info_of, info_at. cbn [i_body_size]. rewrite len_encode_frame by assumption. lia. Qed.

Lemma body_of_frame : forall data p f r, data = p ++ encode_frame f ++ r -> wf_frame f ->
  body_of data (info_of (len p) f) = Ret (f_body f).
Proof.
  intros data p f r -> W. unfold body_of, info_of, info_at. cbn [i_body_range fst snd].
  apply frame_body_slice. exact W.
Qed.

Lemma body_of_overrun : forall data i, len data < snd (i_body_range i) -> body_of data i = Panic PSlice.
Proof. intros. unfold body_of. apply slice_panic. assumption. Qed.

Definition prints_loop (E : env) (data : bytes) (prints : list Print) (i : info) : M (step (list Print)) :=
  if 0 <? i_body_size i then
    let! body := body_of data i in
    let! prints := read_prints E (S (length body)) (cursor_new body) prints in
    Ret (Continue prints)
  else Ret (Continue prints).

Lemma prints_body : forall E data st p f r, data = p ++ encode_frame f ++ r -> wf_frame f ->
  prints_loop E data st (info_of (len p) f) = Ret (Continue (prints_step st f)).
Proof.
  intros E data st p f r D W. unfold prints_loop. rewrite body_size_of by exact W.
  rewrite (body_of_frame data p f r D W). cbn [bind].
  unfold cursor_new, prints_step. destruct (0 <? len (f_body f)) eqn:C.
  - rewrite read_prints_spec by lia. reflexivity.
  - assert (f_body f = []) as -> by (apply len_0; lia). simpl. rewrite app_nil_r. reflexivity.
Qed.

Lemma fold_prints : forall fs idx acc,
  fold_left (fun st '(_, f) => prints_step st f) (located idx fs) acc
  = acc ++ map as_print (demo_messages fs).
Proof.
  induction fs as [| f fs IH]; intros idx acc; simpl.
  - rewrite app_nil_r. reflexivity.
  - rewrite IH. unfold prints_step, demo_messages. simpl. rewrite filter_app, map_app, <- app_assoc. reflexivity.
Qed.

(** dedup and collapse *)
Lemma print_id_eqb_true : forall a b, print_id_eqb a b = true <-> a = b.
Proof. intros a b; destruct a, b; simpl; split; congruence. Qed.

Lemma print_eqb_true : forall a b, print_eqb a b = true <-> a = b.
Proof.
  intros [a1 a2] [b1 b2]. unfold print_eqb. cbn [pr_id pr_content].
  rewrite andb_true_iff, print_id_eqb_true, beq_eq. split; [intros [-> ->]; reflexivity | intros H; inv H; auto].
Qed.

Lemma dedup_from_collapse : forall A (eqb : A -> A -> bool) dec l x,
  (forall a b, eqb a b = true <-> a = b) -> x :: dedup_from eqb x l = collapse dec (x :: l).
Proof.
  intros A eqb dec l. induction l as [| y l IH]; intros x H; [reflexivity |].
  cbn [dedup_from].
  replace (collapse dec (x :: y :: l)) with
    (if dec x y then collapse dec (y :: l) else x :: collapse dec (y :: l)) by reflexivity.
  destruct (eqb y x) eqn:E.
  - apply H in E. subst y. destruct (dec x x); [| contradiction]. apply IH. exact H.
  - destruct (dec x y) as [-> | N].
    + assert (eqb y y = true) by (apply H; reflexivity). congruence.
    + f_equal. apply IH. exact H.
Qed.

Lemma dedup_collapse : forall A (eqb : A -> A -> bool) dec l,
  (forall a b, eqb a b = true <-> a = b) -> dedup eqb l = collapse dec l.
Proof. intros A eqb dec [| x l] H; [reflexivity |]. apply dedup_from_collapse. exact H. Qed.

(** prints() on any bytes *)
Lemma prints_quiet : forall E fs rest, wf fs -> stops (len (encode fs ++ rest)) rest ->
  prints E (encode fs ++ rest) = Ret (collapse print_dec (map as_print (demo_messages fs))).
Proof.
  intros E fs rest W Q. unfold prints. fold (prints_loop E (encode fs ++ rest)).
  rewrite (frame_loop_quiet _ E (encode fs ++ rest) _ (fun st _ f => Ret (Continue (prints_step st f))) fs rest);
    [| reflexivity | exact W | exact Q | apply prints_body].
  rewrite (walk_pure _ _ (fun st _ f => prints_step st f)) by reflexivity.
  cbn [bind]. rewrite fold_prints. rewrite (dedup_collapse _ _ print_dec) by apply print_eqb_true. reflexivity.
Qed.

Lemma prints_crash : forall E fs rest, wf fs -> overruns (len (encode fs ++ rest)) rest ->
  prints E (encode fs ++ rest) = Panic PSlice.
Proof.
  intros E fs rest W Q. unfold prints. fold (prints_loop E (encode fs ++ rest)).
  destruct (frame_loop_crash _ E (encode fs ++ rest) (prints_loop E (encode fs ++ rest))
    (fun st _ f => Ret (Continue (prints_step st f))) fs rest []) as [i [B1 [B2 [_ ->]]]];
    [reflexivity | exact W | exact Q | apply prints_body |].
  rewrite (walk_pure _ _ (fun st _ f => prints_step st f)) by reflexivity.
  cbn [bind]. unfold prints_loop. replace (0 <? i_body_size i) with true by lia.
  rewrite body_of_overrun by exact B2. reflexivity.
Qed.
