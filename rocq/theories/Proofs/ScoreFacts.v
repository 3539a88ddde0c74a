(** The score table (src/frags.rs) against [Spec/Score.v]. *)
From Coq Require Import Lia ZifyN ZifyNat ZifyBool.
From Verif.Model Require Import Base Env Primitives Prot Frame Message Clients FragEvent Frags.
From Verif.Spec Require Import Occ Mvd Messages Score.
From Verif.Proofs Require Import BaseFacts FrameFacts PrintFacts.

(** The obituaries with the offsets of their frames *)
Definition obit_of (f : frame) : list message :=
  match messages (f_body f) with
  | m :: _ => if has_text m && (n_of (m_level m) =? 1) then [m] else []
  | [] => []
  end.

Fixpoint obits_at (idx : N) (fs : list frame) : list (message * N * list frame) :=
  match fs with
  | [] => []
  | f :: fs' => map (fun m => (m, idx, fs)) (obit_of f) ++ obits_at (idx + len (encode_frame f)) fs'
  end.

Lemma obits_at_obituaries : forall fs idx,
  map (fun '(m, _, s) => (m, s)) (obits_at idx fs) = obituaries fs.
Proof.
  induction fs as [| f fs IH]; intros idx; [reflexivity |]. simpl.
  rewrite map_app, IH. f_equal. unfold obit_of.
  destruct (messages (f_body f)) as [| m ms]; [reflexivity |].
  destruct (has_text m && (n_of (m_level m) =? 1)); reflexivity.
Qed.

Lemma level_medium : forall b, print_id_eqb PiMedium (level_of b) = (n_of b =? 1).
Proof. intros b; destruct b; reflexivity. Qed.

Definition print_frames_loop (E : env) (data : bytes) (acc : list (Print * N)) (i : info)
  : M (step (list (Print * N))) :=
       if i_body_size i =? 0 then Ret (Continue acc)
       else
         let! body := body_of data i in
         let (t, cur) := read_message_type E (cursor_new body) in
         if is_ok_and t is_print then
           match fst (read_print E cur) with
           | Ok p =>
               if negb (is_empty (pr_content p)) && print_id_eqb PiMedium (pr_id p)
               then Ret (Continue (acc ++ [(p, i_index i)]))
               else Ret (Continue acc)
           | Err _ => Ret (Continue acc)
           end
         else Ret (Continue acc).

Definition pf_step (acc : list (Print * N)) (idx : N) (f : frame) : list (Print * N) :=
  acc ++ map (fun m => (as_print m, idx)) (obit_of f).

Lemma messages_hd : forall d, hd_error (messages d) = option_map fst (message_at d).
Proof.
  intros d. destruct (message_at d) as [[m r] |] eqn:A; simpl.
  - apply message_at_some in A. destruct A as [-> W]. rewrite messages_cons by exact W. reflexivity.
  - rewrite messages_nil by exact A. reflexivity.
Qed.

Lemma obit_of_message_at : forall f,
  obit_of f = match message_at (f_body f) with
              | Some (m, _) => if has_text m && (n_of (m_level m) =? 1) then [m] else []
              | None => []
              end.
Proof.
  intros f. unfold obit_of. pose proof (messages_hd (f_body f)) as H.
  destruct (messages (f_body f)) as [| m ms]; destruct (message_at (f_body f)) as [[m' r] |]; simpl in H; inv H; reflexivity.
Qed.

Lemma print_frames_body : forall E data st p f r, data = p ++ encode_frame f ++ r -> wf_frame f ->
  print_frames_loop E data st (info_of (len p) f) = Ret (Continue (pf_step st (len p) f)).
Proof.
  intros E data st p f r D W. unfold print_frames_loop. rewrite body_size_of by exact W.
  rewrite (body_of_frame data p f r D W). cbn [bind]. unfold pf_step. rewrite obit_of_message_at.
  change (i_index (info_of (len p) f)) with (len p).
  destruct (len (f_body f) =? 0) eqn:C.
  - assert (f_body f = []) as -> by (apply len_0; lia). simpl. rewrite app_nil_r. reflexivity.
  - unfold cursor_new. destruct (message_at (f_body f)) as [[m q] |] eqn:A.
    + destruct (read_message_some E 0 (f_body f) m q A) as [pos' [pos'' [-> P]]]. cbn [is_ok_and is_print].
      rewrite P. cbn [fst as_print pr_content pr_id]. rewrite level_medium. unfold has_text.
      destruct (negb (is_empty (m_text m)) && (n_of (m_level m) =? 1)); [reflexivity |].
      simpl. rewrite app_nil_r. reflexivity.
    + simpl map. rewrite app_nil_r. destruct (f_body f) as [| b d].
      * destruct (read_message_type_nil E 0) as [e ->]. reflexivity.
      * rewrite read_message_type_cons. simpl is_ok_and. rewrite message_type_print.
        destruct (Byte.eqb b x08) eqn:Eb; [| reflexivity]. apply byte_eqb_true in Eb. subst b.
        pose proof (read_print_cases E (0 + 1) d) as R. destruct d as [| level d].
        -- destruct R as [e ->]. reflexivity.
        -- simpl in A. destruct (until_nul d) as [[s q] |]; [discriminate |].
           destruct R as [e ->]. reflexivity.
Qed.

Lemma fold_print_frames : forall fs idx acc,
  fold_left (fun st '(i, f) => pf_step st i f) (located idx fs) acc
  = acc ++ map (fun '(m, i, _) => (as_print m, i)) (obits_at idx fs).
Proof.
  induction fs as [| f fs IH]; intros idx acc; simpl.
  - rewrite app_nil_r. reflexivity.
  - rewrite IH. unfold pf_step. rewrite map_app, map_map, <- app_assoc. reflexivity.
Qed.

Lemma print_frames_quiet : forall E fs rest, wf fs -> stops (len (encode fs ++ rest)) rest ->
  print_frames E (encode fs ++ rest) = Ret (map (fun '(m, i, _) => (as_print m, i)) (obits_at 0 fs)).
Proof.
  intros E fs rest W Q. unfold print_frames. fold (print_frames_loop E (encode fs ++ rest)).
  rewrite (frame_loop_quiet _ E (encode fs ++ rest) _ (fun st i f => Ret (Continue (pf_step st i f))) fs rest);
    [| reflexivity | exact W | exact Q | apply print_frames_body].
  rewrite (walk_pure _ _ pf_step) by reflexivity.
  cbn [bind]. rewrite fold_print_frames. reflexivity.
Qed.

Lemma print_frames_crash : forall E fs rest, wf fs -> overruns (len (encode fs ++ rest)) rest ->
  print_frames E (encode fs ++ rest) = Panic PSlice.
Proof.
  intros E fs rest W Q. unfold print_frames. fold (print_frames_loop E (encode fs ++ rest)).
  destruct (frame_loop_crash _ E (encode fs ++ rest) (print_frames_loop E (encode fs ++ rest))
    (fun st i f => Ret (Continue (pf_step st i f))) fs rest []) as [i [B1 [B2 [_ ->]]]];
    [reflexivity | exact W | exact Q | apply print_frames_body |].
  rewrite (walk_pure _ _ pf_step) by reflexivity.
  cbn [bind]. unfold print_frames_loop. replace (i_body_size i =? 0) with false by lia.
  rewrite body_of_overrun by exact B2. reflexivity.
Qed.

(** Nearby score updates *)
Definition after_print (body : bytes) : bytes :=
  match body with
  | [] => []
  | _ :: q => match until_nul q with Some (_, r) => r | None => [] end
  end.

Lemma read_print_rest : forall E pos d, exists pos', snd (read_print E (mkCursor pos d)) = mkCursor pos' (after_print d).
Proof.
  intros E pos d. pose proof (read_print_cases E pos d) as R. destruct d as [| b q]; cbn [after_print].
  - destruct R as [e ->]. eexists; reflexivity.
  - destruct (until_nul q) as [[s r] |]; [rewrite R; eexists; reflexivity | destruct R as [e ->]; eexists; reflexivity].
Qed.

Lemma update_frags_type : forall b, is_update_frags (message_type_from b) = (n_of b =? 14).
Proof. intros b; destruct b; reflexivity. Qed.

Lemma read_update_frags_spec : forall E pos d nums,
  (let (t, cur) := read_message_type E (mkCursor pos d) in
   if is_ok_and t is_update_frags then
     match fst (read_update_frags E cur) with
     | Ok u => nums ++ [uf_player_number u]
     | Err _ => nums
     end
   else nums) = nums ++ score_update d.
Proof.
  intros E pos d nums. destruct d as [| t d].
  - destruct (read_message_type_nil E pos) as [e ->]. simpl. rewrite app_nil_r. reflexivity.
  - rewrite read_message_type_cons. simpl is_ok_and. rewrite update_frags_type.
    destruct (n_of t =? 14) eqn:T.
    + unfold read_update_frags. destruct d as [| n d].
      * rewrite read_byte_nil. simpl. rewrite app_nil_r. reflexivity.
      * rewrite read_byte_cons. destruct d as [| lo [| hi d]].
        -- destruct (read_u16_short E (pos + 1 + 1) []) as [c ->]; [reflexivity |]. simpl. rewrite app_nil_r. reflexivity.
        -- destruct (read_u16_short E (pos + 1 + 1) [lo]) as [c ->]; [reflexivity |]. simpl. rewrite app_nil_r. reflexivity.
        -- rewrite read_u16_cons. simpl. rewrite T. reflexivity.
    + simpl. destruct d as [| n [| lo [| hi d]]]; rewrite ?T, app_nil_r; reflexivity.
Qed.

Definition nearby_loop (E : env) (data : bytes) : N * list N -> info -> M (step (N * list N)) :=
    (fun '(frame_count, nums) i =>
       if MAX_FRAME_COUNT <=? frame_count then Ret (Break (frame_count, nums))
       else if i_body_size i =? 0 then Ret (Continue (frame_count, nums))
       else
         let! body := body_of data i in
         let cur := cursor_new body in
         let cur := if frame_count =? 1 then snd (read_print E cur) else cur in
         let (t, cur) := read_message_type E cur in
         let nums :=
           if is_ok_and t is_update_frags then
             match fst (read_update_frags E cur) with
             | Ok u => nums ++ [uf_player_number u]
             | Err _ => nums
             end
           else nums in
         Ret (Continue (frame_count + 1, nums))).

Definition nearby_step (st : N * list N) (idx : N) (f : frame) : M (step (N * list N)) :=
  let '(c, nums) := st in
  if 4 <=? c then Ret (Break (c, nums))
  else if negb (has_body f) then Ret (Continue (c, nums))
  else Ret (Continue (c + 1, nums ++ score_update (if c =? 1 then after_print (f_body f) else f_body f))).

Lemma has_body_len : forall f, has_body f = negb (len (f_body f) =? 0).
Proof.
  intros f. unfold has_body. destruct (f_body f); [reflexivity |]. rewrite len_cons. simpl.
  symmetry. apply negb_true_iff. lia.
Qed.

Lemma nearby_body : forall E data st p f r, data = p ++ encode_frame f ++ r -> wf_frame f ->
  nearby_loop E data st (info_of (len p) f) = nearby_step st (len p) f.
Proof.
  intros E data [c nums] p f r D W. unfold nearby_loop, nearby_step. rewrite body_size_of by exact W.
  rewrite (body_of_frame data p f r D W). cbn [bind]. rewrite has_body_len, negb_involutive.
  change MAX_FRAME_COUNT with 4. destruct (4 <=? c); [reflexivity |].
  destruct (len (f_body f) =? 0); [reflexivity |]. unfold cursor_new.
  destruct (c =? 1).
  - destruct (read_print_rest E 0 (f_body f)) as [pos' ->].
    rewrite <- (read_update_frags_spec E pos').
    destruct (read_message_type E (mkCursor pos' (after_print (f_body f)))); reflexivity.
  - rewrite <- (read_update_frags_spec E 0).
    destruct (read_message_type E (mkCursor 0 (f_body f))); reflexivity.
Qed.

Lemma walk_nearby : forall fs idx c nums, 1 < c -> c <= 4 ->
  exists c', walk nearby_step idx fs (c, nums) =
    Ret (Continue (c', nums ++ concat (map (fun f => score_update (f_body f))
                                           (firstn (N.to_nat (4 - c)) (filter has_body fs))))) \/
    walk nearby_step idx fs (c, nums) =
    Ret (Break (c', nums ++ concat (map (fun f => score_update (f_body f))
                                           (firstn (N.to_nat (4 - c)) (filter has_body fs))))).
Proof.
  induction fs as [| f fs IH]; intros idx c nums C1 C2.
  - exists c. left. simpl. rewrite firstn_nil. simpl. rewrite app_nil_r. reflexivity.
  - cbn [walk]. unfold nearby_step at 1. unfold nearby_step at 2. destruct (4 <=? c) eqn:C.
    + assert (c = 4) by lia. subst c. exists 4. right. simpl. rewrite app_nil_r. reflexivity.
    + destruct (has_body f) eqn:Hf; cbn [negb bind filter]; rewrite Hf.
      * replace (c =? 1) with false by lia.
        destruct (IH (idx + len (encode_frame f)) (c + 1) (nums ++ score_update (f_body f))) as [c' H]; [lia | lia |].
        exists c'. replace (N.to_nat (4 - c)) with (S (N.to_nat (4 - (c + 1)))) by lia.
        cbn [firstn map concat]. rewrite app_assoc. exact H.
      * apply IH; assumption.
Qed.

Lemma nearby_spec : forall E data p m fs rest,
  data = p ++ encode fs ++ rest -> wf fs -> stops (len data) rest ->
  (exists f fs', fs = f :: fs' /\ obit_of f = [m]) ->
  exists c, nearby_frag_updates E data (len p) = Ret (c, nearby_updates m fs).
Proof.
  intros E data p m fs rest D W Q [f [fs' [-> O]]].
  unfold nearby_frag_updates. fold (nearby_loop E data).
  destruct (frame_loop_walk E data (nearby_loop E data) nearby_step (f :: fs') p rest (1, []) (frame_fuel data))
    as [fuel' [F ->]]; [exact D | exact W | apply nearby_body | |].
  { unfold frame_fuel. rewrite D, !app_length. pose proof (length_encode _ W). lia. }
  assert (F' : (0 < fuel')%nat).
  { unfold frame_fuel in F. rewrite D, !app_length in F. pose proof (length_encode _ W). lia. }
  rewrite obit_of_message_at in O.
  destruct (message_at (f_body f)) as [[m' r] |] eqn:A; [| discriminate].
  destruct (has_text m' && (n_of (m_level m') =? 1)) eqn:T; [| discriminate]. injection O as ->.
  apply message_at_some in A. destruct A as [B Wm].
  assert (Hb : has_body f = true) by (unfold has_body; rewrite B; reflexivity).
  cbn [walk]. unfold nearby_step at 1. change (4 <=? 1) with false. cbn iota. rewrite Hb. cbn [negb bind].
  change (1 =? 1) with true. cbn iota.
  assert (AP : after_print (f_body f) = r).
  { rewrite B. unfold encode_message. simpl app. unfold after_print.
    change (m_level m :: (m_text m ++ [x00]) ++ r) with ((m_level m :: m_text m ++ [x00]) ++ r).
    replace ((m_level m :: m_text m ++ [x00]) ++ r) with ((m_level m :: m_text m) ++ x00 :: r)
      by (simpl; rewrite <- app_assoc; reflexivity).
    rewrite until_nul_app; [reflexivity |]. intros [C | C]; [| apply Wm; exact C].
    rewrite C in T. apply andb_prop in T. destruct T as [_ T]. discriminate. }
  rewrite AP. cbn [app].
  destruct (walk_nearby fs' (len p + len (encode_frame f)) (1 + 1) (score_update r)) as [c' H]; [lia | lia |].
  assert (N : nearby_updates m (f :: fs') = score_update r ++
     concat (map (fun f => score_update (f_body f)) (firstn (N.to_nat (4 - (1 + 1))) (filter has_body fs')))).
  { unfold nearby_updates. rewrite B, skipn_app_exact. reflexivity. }
  rewrite N. exists c'. destruct H as [-> | ->]; cbn [bind tail_walk]; [| reflexivity].
  rewrite <- len_app. apply (frame_loop_stops E data _ (p ++ encode (f :: fs')) rest).
  - rewrite <- app_assoc. exact D.
  - exact Q.
  - exact F'.
Qed.

(** First matches *)
Lemma list_find_first : forall A (q : A -> bool) (P : A -> Prop) l,
  (forall a, q a = true <-> P a) ->
  match List.find q l with
  | Some a => first_with P l a
  | None => Forall (fun a => ~ P a) l
  end.
Proof.
  intros A q P l H. induction l as [| a l IH]; simpl; [constructor |].
  destruct (q a) eqn:Q.
  - exists [], l. split; [reflexivity |]. split; [apply H; exact Q | constructor].
  - assert (NP : ~ P a) by (intros C; apply H in C; congruence).
    destruct (List.find q l) as [b |].
    + destruct IH as [l1 [l2 [-> [Pb F]]]]. exists (a :: l1), l2. repeat split; auto.
    + constructor; auto.
Qed.

Lemma first_with_unique : forall A (P : A -> Prop) l a b, first_with P l a -> first_with P l b -> a = b.
Proof.
  intros A P l a b [l1 [l2 [E [Pa Fa]]]] [k1 [k2 [E' [Pb Fb]]]]. subst l.
  revert k1 E' Fb. induction l1 as [| x l1 IH]; intros k1 E' Fb.
  - destruct k1 as [| y k1]; simpl in E'; inversion E'; subst; [reflexivity |]. inv Fb. contradiction.
  - inv Fa. destruct k1 as [| y k1]; simpl in E'; inversion E'; subst; [contradiction |].
    inv Fb. eapply IH; eauto.
Qed.

Lemma first_with_none : forall A (P : A -> Prop) l a, Forall (fun a => ~ P a) l -> ~ first_with P l a.
Proof.
  intros A P l a F [l1 [l2 [-> [Pa _]]]]. rewrite Forall_forall in F.
  apply (F a); [apply in_or_app; right; left; reflexivity | exact Pa].
Qed.

Lemma first_with_P : forall A (P : A -> Prop) l a, first_with P l a -> P a.
Proof. intros A P l a [l1 [l2 [_ [H _]]]]. exact H. Qed.

Lemma charged_unique : forall cs v nums k k', charged cs v nums k -> charged cs v nums k' -> k = k'.
Proof.
  intros cs v nums k k' [w [Hw [n [c [Hn [Hc <-]]]]]] [w' [Hw' [n' [c' [Hn' [Hc' <-]]]]]].
  assert (w = w') by (eapply first_with_unique; eauto). subst w'.
  assert (n = n') by (eapply first_with_unique; eauto). subst n'.
  f_equal. eapply first_with_unique; eauto.
Qed.

Definition killer_of (cs : list Client) (victim_name : str) (nums : list N) : option str :=
  match List.find (fun c => beq (c_name c) victim_name) cs with
  | None => None
  | Some victim =>
      match List.find (fun c => beq (c_team c) (c_team victim) && negb (beq (c_name c) (c_name victim)))
                      (filter_map (fun n => List.find (fun c => c_number c =? n) cs) nums) with
      | Some killer => Some (c_name killer)
      | None => None
      end
  end.

Lemma killer_of_charged : forall cs v nums,
  match killer_of cs v nums with
  | Some k => charged cs v nums k
  | None => forall k, ~ charged cs v nums k
  end.
Proof.
  intros cs v nums. unfold killer_of.
  pose proof (list_find_first _ (fun c => beq (c_name c) v) (fun c => c_name c = v) cs) as FV.
  destruct (List.find (fun c => beq (c_name c) v) cs) as [vic |].
  2: { intros k [w [Hw _]]. apply (first_with_none _ _ _ w (FV (fun a => beq_eq _ _)) Hw). }
  specialize (FV (fun a => beq_eq _ _)).
  assert (NV : c_name vic = v) by (apply first_with_P in FV; exact FV).
  set (P := fun n => exists c, first_with (fun c => c_number c = n) cs c /\ c_team c = c_team vic /\ c_name c <> v).
  assert (Main : match List.find (fun c => beq (c_team c) (c_team vic) && negb (beq (c_name c) (c_name vic)))
                      (filter_map (fun n => List.find (fun c => c_number c =? n) cs) nums) with
          | Some k => exists n, first_with P nums n /\ first_with (fun c => c_number c = n) cs k
          | None => Forall (fun n => ~ P n) nums
          end).
  { clear FV. induction nums as [| n nums IH]; simpl; [constructor |].
    pose proof (list_find_first _ (fun c => c_number c =? n) (fun c => c_number c = n) cs (fun a => N.eqb_eq _ _)) as FN.
    assert (Skip : ~ P n ->
      match List.find (fun c => beq (c_team c) (c_team vic) && negb (beq (c_name c) (c_name vic)))
                      (filter_map (fun n => List.find (fun c => c_number c =? n) cs) nums) with
          | Some k => exists n', first_with P (n :: nums) n' /\ first_with (fun c => c_number c = n') cs k
          | None => Forall (fun n => ~ P n) (n :: nums)
          end).
    { intros NP. destruct (List.find _ (filter_map _ nums)) as [k |].
      - destruct IH as [n' [[l1 [l2 [-> [Pn F]]]] Hk]]. exists n'. split; [| exact Hk].
        exists (n :: l1), l2. repeat split; auto.
      - constructor; auto. }
    destruct (List.find (fun c => c_number c =? n) cs) as [c |].
    - simpl. destruct (beq (c_team c) (c_team vic) && negb (beq (c_name c) (c_name vic))) eqn:Q.
      + apply andb_prop in Q. destruct Q as [Q1 Q2]. apply beq_eq in Q1. apply negb_true_iff, beq_neq in Q2.
        exists n. split; [| exact FN]. exists [], nums. split; [reflexivity |]. split; [| constructor].
        exists c. rewrite <- NV. auto.
      + apply Skip. intros [c' [Hc [T Nm]]].
        assert (c' = c) by (eapply first_with_unique; eauto). subst c'.
        apply andb_false_iff in Q. destruct Q as [Q | Q].
        * apply beq_neq in Q. contradiction.
        * apply negb_false_iff, beq_eq in Q. congruence.
    - apply Skip. intros [c' [Hc _]]. apply (first_with_none _ _ _ c' FN Hc). }
  destruct (List.find _ (filter_map _ nums)) as [k |].
  - destruct Main as [n [Hn Hk]]. exists vic. split; [exact FV |]. exists n, k. auto.
  - intros k [w [Hw [n [c [Hn _]]]]].
    assert (w = vic) by (eapply first_with_unique; eauto). subst w.
    apply (first_with_none _ _ _ n Main Hn).
Qed.

Definition cs_of (r : result (list Client)) : list Client := match r with Ok cs => cs | Err _ => [] end.

Lemma find_team_killer_spec : forall E data idx victim c nums r,
  nearby_frag_updates E data idx = Ret (c, nums) -> clients E data = Ret r ->
  exists e, find_team_killer E data idx victim =
    Ret (match killer_of (cs_of r) victim nums with Some k => Ok k | None => Err e end).
Proof.
  intros E data idx victim c nums r H C. unfold find_team_killer. rewrite H. cbn [bind snd].
  destruct (is_empty nums) eqn:Em.
  - apply is_empty_true in Em. subst nums. unfold killer_of. simpl.
    exists "Unable to find nearby frag updates"%string.
    destruct (List.find (fun c => beq (c_name c) victim) (cs_of r)); reflexivity.
  - rewrite C. cbn [bind]. destruct r as [cs | e]; cbn [cs_of]; unfold killer_of.
    + destruct (List.find (fun c => beq (c_name c) victim) cs) as [vic |]; [| eexists; reflexivity].
      destruct (List.find _ (filter_map _ nums)) as [k |]; [exists EmptyString | eexists]; reflexivity.
    + simpl. eexists; reflexivity.
Qed.

(** no nearby updates: the clients are not even looked at *)
Lemma find_team_killer_none : forall E data idx victim c,
  nearby_frag_updates E data idx = Ret (c, []) ->
  find_team_killer E data idx victim = Ret (Err "Unable to find nearby frag updates").
Proof. intros E data idx victim c H. unfold find_team_killer. rewrite H. reflexivity. Qed.

(** Entries of one message, as a function *)
Definition entries_of (cs : list Client) (nums : list N) (e : result FragEvent) : list (str * Z) :=
  match e with
  | Ok (Frag killer _) => [(killer, 1%Z)]
  | Ok (Death player) => [(player, (-1)%Z)]
  | Ok (Suicide player) => [(player, (-2)%Z)]
  | Ok (SuicideByWeapon player) => [(player, (-1)%Z)]
  | Ok (Teamkill killer) => [(killer, (-1)%Z)]
  | Ok (TeamkillByUnknown victim) =>
      match killer_of cs victim nums with Some k => [(k, (-1)%Z)] | None => [] end
  | Err _ => []
  end.

Lemma entries_of_spec : forall cs nums e, entries cs nums e (entries_of cs nums e).
Proof.
  intros cs nums [[| | | | | victim] | msg]; simpl; try reflexivity.
  pose proof (killer_of_charged cs victim nums) as K. destruct (killer_of cs victim nums) as [k |]; eauto.
Qed.

Lemma entries_unique : forall cs nums e l l', entries cs nums e l -> entries cs nums e l' -> l = l'.
Proof.
  intros cs nums e l l'. destruct e as [[| | | | | victim] | msg]; simpl; try congruence.
  intros [[k [K ->]] | [K ->]] [[k' [K' ->]] | [K' ->]]; try reflexivity.
  - rewrite (charged_unique _ _ _ _ _ K K'). reflexivity.
  - exfalso. apply (K' k K).
  - exfalso. apply (K k' K').
Qed.

(** adding entries one after the other *)
Definition add_entry (E : env) (m : list (str * Z)) (x : str * Z) : M (list (str * Z)) :=
  frag_add E (fst x) (snd x) m.

Lemma score_print_entries : forall E data p m fs rest r tbl,
  data = p ++ encode fs ++ rest -> wf fs -> stops (len data) rest ->
  (exists f fs', fs = f :: fs' /\ obit_of f = [m]) ->
  clients E data = Ret r ->
  score_print E data tbl (as_print m, len p) =
  foldM (add_entry E) (entries_of (cs_of r) (nearby_updates m fs)
                         (frag_event_from (trim_end (to_unicode E (m_text m))))) tbl.
Proof.
  intros E data p m fs rest r tbl D W Q O C. unfold score_print. cbn [fst snd as_print pr_content].
  assert (One : forall k d, frag_add E k d tbl = foldM (add_entry E) [(k, d)] tbl).
  { intros k d. simpl. unfold add_entry. cbn [fst snd]. destruct (frag_add E k d tbl); reflexivity. }
  destruct (frag_event_from (trim_end (to_unicode E (m_text m)))) as [[| | | | | victim] | msg];
    cbn [entries_of]; try apply One; try reflexivity.
  destruct (nearby_spec E data p m fs rest D W Q O) as [c H].
  destruct (find_team_killer_spec E data (len p) victim c _ r H C) as [e ->]. cbn [bind].
  destruct (killer_of (cs_of r) victim (nearby_updates m fs)); [apply One | reflexivity].
Qed.

Lemma obits_at_prefix : forall fs p m idx s, In (m, idx, s) (obits_at (len p) fs) ->
  exists q, p ++ encode fs = q ++ encode s /\ len q = idx /\ (wf fs -> wf s) /\
            exists f fs', s = f :: fs' /\ obit_of f = [m].
Proof.
  induction fs as [| f fs IH]; intros p m idx s H; [contradiction |].
  simpl in H. apply in_app_or in H. destruct H as [H | H].
  - apply in_map_iff in H. destruct H as [m' [E Hm]]. inv E.
    exists p. repeat split; auto. exists f, fs. split; [reflexivity |].
    unfold obit_of in *. destruct (messages (f_body f)) as [| m0 ms]; [contradiction |].
    destruct (has_text m0 && (n_of (m_level m0) =? 1)); [| contradiction].
    destruct Hm as [-> | []]. reflexivity.
  - rewrite <- len_app in H. apply IH in H. destruct H as [q [E1 [E2 [E3 E4]]]].
    exists q. rewrite encode_cons, app_assoc. repeat split; auto. intros W. inv W. auto.
Qed.

Lemma foldM_concat : forall A B C (f : A -> B -> M A) (h : C -> list B) l a,
  foldM (fun a c => foldM f (h c) a) l a = foldM f (concat (map h l)) a.
Proof.
  intros A B C f h l. induction l as [| c l IH]; intros a; simpl; [reflexivity |].
  rewrite foldM_app. destruct (foldM f (h c) a); simpl; auto.
Qed.

Lemma foldM_map : forall A B C (f : A -> B -> M A) (h : C -> B) l a,
  foldM f (map h l) a = foldM (fun a c => f a (h c)) l a.
Proof.
  intros A B C f h l. induction l as [| c l IH]; intros a; simpl; [reflexivity |].
  destruct (f a (h c)); simpl; auto.
Qed.

Definition event_of (E : env) (m : message) : result FragEvent :=
  frag_event_from (trim_end (to_unicode E (m_text m))).

Definition all_entries (E : env) (cs : list Client) (fs : list frame) : list (str * Z) :=
  concat (map (fun '(m, s) => entries_of cs (nearby_updates m s) (event_of E m)) (obituaries fs)).

Lemma frags_quiet : forall E fs rest r, wf fs -> stops (len (encode fs ++ rest)) rest ->
  clients E (encode fs ++ rest) = Ret r ->
  frags_per_player_name E (encode fs ++ rest) = foldM (add_entry E) (all_entries E (cs_of r) fs) [].
Proof.
  intros E fs rest r W Q C. unfold frags_per_player_name.
  rewrite print_frames_quiet by assumption. cbn [bind].
  rewrite foldM_map. unfold all_entries. rewrite <- (obits_at_obituaries fs 0), map_map, <- foldM_concat.
  apply foldM_ext. intros tbl [[m idx] s] H.
  apply (obits_at_prefix fs []) in H. destruct H as [q [E1 [E2 [E3 E4]]]]. simpl in E1. subst idx.
  rewrite E1 in *. rewrite <- app_assoc in *.
  apply (score_print_entries E _ q m s rest r); auto.
Qed.

Lemma frags_crash : forall E fs rest, wf fs -> overruns (len (encode fs ++ rest)) rest ->
  frags_per_player_name E (encode fs ++ rest) = Panic PSlice.
Proof. intros. unfold frags_per_player_name. rewrite print_frames_crash by assumption. reflexivity. Qed.

(** Sums *)
Lemma sum_app : forall a b : list Z,
  fold_right Z.add 0%Z (a ++ b) = (fold_right Z.add 0 a + fold_right Z.add 0 b)%Z.
Proof. induction a as [| z a IH]; intros b; cbn [app fold_right]; [lia |]. rewrite IH. lia. Qed.

Lemma total_app : forall name a b, total name (a ++ b) = (total name a + total name b)%Z.
Proof. intros name a b. unfold total. rewrite filter_app, map_app. apply sum_app. Qed.

Lemma total_one : forall name k d, total name [(k, d)] = if beq k name then d else 0%Z.
Proof. intros. unfold total. simpl. destruct (beq k name); simpl; lia. Qed.

Lemma total_bound : forall name l, Forall (fun x => -2 <= snd x <= 1)%Z l ->
  (- 2 * Z.of_nat (length l) <= total name l <= Z.of_nat (length l))%Z.
Proof.
  intros name l H. induction H as [| [k d] l Hd F IH]; [simpl; unfold total; simpl; lia |].
  change ((k, d) :: l) with ([(k, d)] ++ l). rewrite total_app, total_one. simpl length. simpl in Hd.
  destruct (beq k name); lia.
Qed.

Lemma foldM_add_spec : forall E l pre m,
  Forall (fun x => -2 <= snd x <= 1)%Z (pre ++ l) ->
  (Z.of_nat (length (pre ++ l)) <= 1073741824)%Z ->
  NoDup (map fst m) ->
  (forall name, aget beq name m = if existsb (fun x => beq (fst x) name) pre then Some (total name pre) else None) ->
  exists m', foldM (add_entry E) l m = Ret m' /\ NoDup (map fst m') /\
    forall name, aget beq name m' = if existsb (fun x => beq (fst x) name) (pre ++ l) then Some (total name (pre ++ l)) else None.
Proof.
  intros E l. induction l as [| [k d] l IH]; intros pre m F B ND H.
  - exists m. rewrite app_nil_r in *. auto.
  - cbn [foldM]. unfold add_entry at 1. cbn [fst snd]. unfold frag_add.
    assert (V : aget_or beq k 0%Z m = total k pre).
    { unfold aget_or. rewrite H. destruct (existsb (fun x => beq (fst x) k) pre) eqn:X; [reflexivity |].
      unfold total. assert (filter (fun x => beq (fst x) k) pre = []) as ->; [| reflexivity].
      clear -X. induction pre as [| y pre IH]; simpl in *; [reflexivity |].
      apply orb_false_iff in X. destruct X as [-> X]. auto. }
    rewrite V. unfold iadd.
    assert (R : (-2147483648 <= total k pre + d <= 2147483647)%Z).
    { replace (total k pre + d)%Z with (total k (pre ++ [(k, d)])).
      2: { rewrite total_app, total_one, beq_refl. reflexivity. }
      assert (F1 : Forall (fun x => -2 <= snd x <= 1)%Z (pre ++ [(k, d)])).
      { apply Forall_app in F. destruct F as [F1 F2]. inv F2. apply Forall_app. auto. }
      pose proof (total_bound k _ F1). rewrite app_length in *. cbn [length] in *. lia. }
    replace ((i32_min <=? total k pre + d) && (total k pre + d <=? i32_max))%Z with true
      by (unfold i32_min, i32_max; lia).
    cbn [bind].
    replace (pre ++ (k, d) :: l) with ((pre ++ [(k, d)]) ++ l) in * by (rewrite <- app_assoc; reflexivity).
    apply IH; auto.
    + apply aset_nodup; [apply beq_eq | exact ND].
    + intros name. rewrite (aget_aset beq beq_eq). rewrite existsb_app, total_app, total_one. simpl existsb.
      rewrite orb_false_r, (beq_sym k name). destruct (beq name k) eqn:X.
      * apply beq_eq in X. subst name. rewrite orb_true_r. reflexivity.
      * rewrite orb_false_r, H. destruct (existsb _ pre); [f_equal; lia | reflexivity].
Qed.

Lemma all_entries_small : forall E cs fs, Forall (fun x => -2 <= snd x <= 1)%Z (all_entries E cs fs) /\
  (length (all_entries E cs fs) <= length fs)%nat.
Proof.
  intros E cs fs. unfold all_entries. induction fs as [| f fs IH]; simpl; [split; [constructor | lia] |].
  rewrite map_app, concat_app, app_length. destruct IH as [F L].
  assert (Small : forall nums e, Forall (fun x : str * Z => -2 <= snd x <= 1)%Z (entries_of cs nums e)
    /\ (length (entries_of cs nums e) <= 1)%nat).
  { intros nums [[| | | | | v] | msg]; simpl; try (split; [repeat constructor; simpl; lia | lia]).
    destruct (killer_of cs v nums); simpl; (split; [repeat constructor; simpl; lia | lia]). }
  destruct (messages (f_body f)) as [| m ms]; cbn [map concat app length]; [split; [exact F | lia] |].
  destruct (has_text m && (n_of (m_level m) =? 1)); cbn [map concat app length]; [| split; [exact F | lia]].
  rewrite app_nil_r. destruct (Small (nearby_updates m (f :: fs)) (event_of E m)) as [F' L'].
  split; [apply Forall_app; split; assumption | lia].
Qed.

Lemma existsb_in : forall name (l : list (str * Z)),
  existsb (fun x => beq (fst x) name) l = true <-> In name (map fst l).
Proof.
  intros name l. rewrite existsb_exists, in_map_iff. split.
  - intros [x [I Q]]. apply beq_eq in Q. eauto.
  - intros [x [Q I]]. exists x. split; [exact I | apply beq_eq; exact Q].
Qed.

Lemma frags_table : forall E fs rest r, wf fs -> stops (len (encode fs ++ rest)) rest ->
  len (encode fs ++ rest) < 2147483648 ->
  clients E (encode fs ++ rest) = Ret r ->
  exists tbl, frags_per_player_name E (encode fs ++ rest) = Ret tbl /\ NoDup (map fst tbl) /\
    forall name, aget beq name tbl =
      if existsb (fun x => beq (fst x) name) (all_entries E (cs_of r) fs)
      then Some (total name (all_entries E (cs_of r) fs)) else None.
Proof.
  intros E fs rest r W Q L C. rewrite (frags_quiet E fs rest r W Q C).
  destruct (all_entries_small E (cs_of r) fs) as [F B].
  apply (foldM_add_spec E _ [] []); auto.
  - cbn [app]. assert (2 * N.of_nat (length fs) <= len (encode fs)).
    { clear -W. induction W as [| f fs Wf W IH]; [reflexivity |].
      rewrite encode_cons, len_app. pose proof (announced_pos _ _ (announced_encode f [] Wf)). simpl length. lia. }
    rewrite len_app in L. apply Z.le_trans with (Z.of_nat (length fs)); [apply inj_le; exact B | lia].
  - constructor.
Qed.

(** The table from any list of per-message entries that satisfies the specification *)
Lemma all_entries_spec : forall E cs fs per,
  Forall2 (fun '(m, s) l => entries cs (nearby_updates m s) (event_of E m) l) (obituaries fs) per ->
  concat per = all_entries E cs fs.
Proof.
  intros E cs fs per H. unfold all_entries. f_equal.
  induction H as [| [m s] l obs per H F IH]; [reflexivity |].
  cbn [map]. rewrite IH. f_equal. eapply entries_unique; [exact H | apply entries_of_spec].
Qed.

(** Without anonymous team kills the client list is not needed. *)
Definition anonymous (e : result FragEvent) : bool :=
  match e with Ok (TeamkillByUnknown _) => true | _ => false end.

Lemma entries_of_named : forall cs cs' nums e, anonymous e = false ->
  entries_of cs nums e = entries_of cs' nums e.
Proof. intros cs cs' nums [[| | | | | v] | m] H; simpl in *; congruence. Qed.

Lemma score_print_named : forall E data m idx tbl, anonymous (event_of E m) = false ->
  score_print E data tbl (as_print m, idx) = foldM (add_entry E) (entries_of [] [] (event_of E m)) tbl.
Proof.
  intros E data m idx tbl H. unfold score_print. cbn [fst snd as_print pr_content].
  fold (event_of E m).
  assert (One : forall k d, frag_add E k d tbl = foldM (add_entry E) [(k, d)] tbl).
  { intros k d. simpl. unfold add_entry. cbn [fst snd]. destruct (frag_add E k d tbl); reflexivity. }
  destruct (event_of E m) as [[| | | | | v] | msg]; simpl in H; try discriminate; cbn [entries_of];
    try apply One; try reflexivity.
Qed.

Lemma frags_named : forall E fs rest, wf fs -> stops (len (encode fs ++ rest)) rest ->
  Forall (fun '(m, _) => anonymous (event_of E m) = false) (obituaries fs) ->
  frags_per_player_name E (encode fs ++ rest) = foldM (add_entry E) (all_entries E [] fs) [].
Proof.
  intros E fs rest W Q A. unfold frags_per_player_name.
  rewrite print_frames_quiet by assumption. cbn [bind].
  rewrite foldM_map. unfold all_entries. rewrite <- (obits_at_obituaries fs 0), map_map, <- foldM_concat.
  apply foldM_ext. intros tbl [[m idx] s] H.
  assert (A' : anonymous (event_of E m) = false).
  { rewrite Forall_forall in A. apply (A (m, s)). rewrite <- (obits_at_obituaries fs 0).
    apply in_map_iff. exists (m, idx, s). auto. }
  rewrite score_print_named by exact A'.
  destruct (event_of E m) as [[| | | | | v] | msg]; simpl in A'; try discriminate; reflexivity.
Qed.

Lemma frags_table_of : forall E cs fs tblM, 
  (len (encode fs) < 2147483648) -> wf fs ->
  tblM = foldM (add_entry E) (all_entries E cs fs) [] ->
  exists tbl, tblM = Ret tbl /\ NoDup (map fst tbl) /\
    forall name, aget beq name tbl =
      if existsb (fun x => beq (fst x) name) (all_entries E cs fs)
      then Some (total name (all_entries E cs fs)) else None.
Proof.
  intros E cs fs tblM L W ->.
  destruct (all_entries_small E cs fs) as [F B].
  apply (foldM_add_spec E _ [] []); auto.
  - cbn [app]. assert (2 * N.of_nat (length fs) <= len (encode fs)).
    { clear -W. induction W as [| f fs Wf W IH]; [reflexivity |].
      rewrite encode_cons, len_app. pose proof (announced_pos _ _ (announced_encode f [] Wf)). simpl length. lia. }
    apply Z.le_trans with (Z.of_nat (length fs)); [apply inj_le; exact B | lia].
  - constructor.
Qed.

Lemma tabulates_of : forall tbl l, NoDup (map fst tbl) ->
  (forall name, aget beq name tbl =
     if existsb (fun x => beq (fst x) name) l then Some (total name l) else None) ->
  tabulates tbl l.
Proof.
  intros tbl l ND G. split; [exact ND |]. split.
  - intros name. specialize (G name). destruct (existsb (fun x => beq (fst x) name) l) eqn:X.
    + apply existsb_exists in X. destruct X as [[k d] [X1 X2]]. apply beq_eq in X2. simpl in X2. subst k.
      split; intros _; [apply in_map_iff; exists (name, d); auto |].
      apply (aget_in beq beq_eq) in G. apply in_map_iff. eexists. split; [| exact G]. reflexivity.
    + apply (aget_none beq beq_eq) in G. split; intros H; [contradiction |].
      exfalso. apply in_map_iff in H. destruct H as [[k d] [H1 H2]]. simpl in H1. subst k.
      assert (existsb (fun x => beq (fst x) name) l = true); [| congruence].
      apply existsb_exists. exists (name, d). split; [exact H2 | apply beq_refl].
  - intros name v H. apply (in_aget beq beq_eq) in H; [| exact ND]. rewrite G in H.
    destruct (existsb _ l); congruence.
Qed.
