(** What the walkers look at, and demos put together. *)
From Coq Require Import Lia ZifyN ZifyNat ZifyBool Permutation.
From Verif.Model Require Import Base Env Primitives Prot Frame Message Prints Clients FragEvent Frags FlagEvent Flags Ping Players.
From Verif.Spec Require Import Occ Mvd Messages Teams Obituary Score Flags Pings Join.
From Verif.Proofs Require Import BaseFacts FrameFacts PrintFacts PrintProps ScoreFacts ScoreProps ObituaryFacts FlagFacts PingFacts TailFacts TeamFacts.

(** ** The score table as a function of the client list and of the obituaries with the score
    updates near them *)
Definition score_text (E : env) (C : M (result (list Client))) (tbl : list (str * Z)) (x : message * list N)
  : M (list (str * Z)) :=
  match event_of E (fst x) with
  | Ok (TeamkillByUnknown victim) =>
      if is_empty (snd x) then Ret tbl
      else let! r := C in
           foldM (add_entry E) (entries_of (cs_of r) (snd x) (Ok (TeamkillByUnknown victim))) tbl
  | e => foldM (add_entry E) (entries_of [] [] e) tbl
  end.

Definition reports (fs : list frame) : list (message * list N) :=
  map (fun '(m, s) => (m, nearby_updates m s)) (obituaries fs).

Lemma score_print_text : forall E data p m fs rest tbl,
  data = p ++ encode fs ++ rest -> wf fs -> stops (len data) rest ->
  (exists f fs', fs = f :: fs' /\ obit_of f = [m]) ->
  score_print E data tbl (as_print m, len p) = score_text E (clients E data) tbl (m, nearby_updates m fs).
Proof.
  intros E data p m fs rest tbl D W Q O. unfold score_text. cbn [fst snd].
  destruct (anonymous (event_of E m)) eqn:A.
  - unfold score_print. cbn [fst snd as_print pr_content]. fold (event_of E m).
    destruct (event_of E m) as [[| | | | | v] | msg]; try discriminate A.
    destruct (nearby_spec E data p m fs rest D W Q O) as [c H].
    destruct (is_empty (nearby_updates m fs)) eqn:Em.
    + apply is_empty_true in Em. rewrite Em in H. rewrite (find_team_killer_none E data _ v c H). reflexivity.
    + destruct (clients E data) as [r | |] eqn:C; cbn [bind].
      * destruct (find_team_killer_spec E data (len p) v c _ r H C) as [e ->]. cbn [bind entries_of].
        destruct (killer_of (cs_of r) v (nearby_updates m fs)) as [k |]; [| reflexivity].
        cbn [foldM]. unfold add_entry. cbn [fst snd]. destruct (frag_add E k (-1) tbl); reflexivity.
      * unfold find_team_killer. rewrite H. cbn [bind snd]. rewrite Em, C. reflexivity.
      * unfold find_team_killer. rewrite H. cbn [bind snd]. rewrite Em, C. reflexivity.
  - rewrite score_print_named by exact A. destruct (event_of E m) as [[| | | | | v] | msg]; try reflexivity. discriminate A.
Qed.

Lemma frags_texts : forall E fs rest, wf fs -> stops (len (encode fs ++ rest)) rest ->
  frags_per_player_name E (encode fs ++ rest) = foldM (score_text E (clients E (encode fs ++ rest))) (reports fs) [].
Proof.
  intros E fs rest W Q. unfold frags_per_player_name. rewrite print_frames_quiet by assumption. cbn [bind].
  unfold reports. rewrite <- (obits_at_obituaries fs 0), map_map, !foldM_map.
  apply foldM_ext. intros tbl [[m idx] s] H.
  apply (obits_at_prefix fs []) in H. destruct H as [q [E1 [E2 [E3 E4]]]]. cbn [app] in E1. subst idx.
  rewrite E1 in *. rewrite <- app_assoc in *. apply (score_print_text E _ q m s rest); auto.
Qed.

(** ** Only the bodies count *)
Definition body_reports_one (b : bytes) (next : list bytes) : list (message * list N) :=
  match messages b with
  | m :: _ => if has_text m && (n_of (m_level m) =? 1)
              then [(m, score_update (skipn (length (encode_message m)) b) ++ concat (map score_update (firstn 2 next)))]
              else []
  | [] => []
  end.
Fixpoint body_reports (bs : list bytes) : list (message * list N) :=
  match bs with
  | [] => []
  | b :: bs' => body_reports_one b bs' ++ body_reports bs'
  end.

Lemma has_body_false : forall f, has_body f = false -> f_body f = [].
Proof. intros f H. unfold has_body in H. destruct (f_body f); [reflexivity | discriminate]. Qed.

Lemma reports_bodies : forall fs, reports fs = body_reports (bodies fs).
Proof.
  unfold reports. induction fs as [| f fs IH]; [reflexivity |].
  cbn [obituaries]. rewrite map_app, IH. unfold bodies. cbn [filter]. destruct (has_body f) eqn:H.
  - cbn [map body_reports]. fold (bodies fs). f_equal. unfold body_reports_one.
    destruct (messages (f_body f)) as [| m ms]; [reflexivity |].
    destruct (has_text m && (n_of (m_level m) =? 1)); [| reflexivity]. cbn [map nearby_updates].
    unfold bodies. rewrite firstn_map, map_map. reflexivity.
  - rewrite (has_body_false f H). reflexivity.
Qed.

Lemma demo_messages_bodies : forall fs, demo_messages fs = filter has_text (concat (map messages (bodies fs))).
Proof.
  intros fs. unfold demo_messages. f_equal. induction fs as [| f fs IH]; [reflexivity |].
  cbn [map concat]. rewrite IH. unfold bodies. cbn [filter]. destruct (has_body f) eqn:H; [reflexivity |].
  rewrite (has_body_false f H). reflexivity.
Qed.

Lemma ping_frames_bodies : forall fs, ping_frames fs = filter (fun l => negb (is_empty l)) (map ping_records (bodies fs)).
Proof.
  induction fs as [| f fs IH]; [reflexivity |]. unfold ping_frames in *. cbn [map filter]. unfold bodies. cbn [filter].
  destruct (has_body f) eqn:H; [cbn [map filter]; rewrite IH; reflexivity |].
  rewrite (has_body_false f H). exact IH.
Qed.

Lemma announces_body : forall E f g t, f_body f = f_body g -> announces E f t -> announces E g t.
Proof. intros E f g t H A. unfold announces, silent in *. rewrite <- H. exact A. Qed.

Lemma announces_unique : forall E f t t', announces E f t -> announces E f t' -> t = t'.
Proof.
  intros E f t t' A B. apply (frame_texts_announces E f [] t) in A. apply (frame_texts_announces E f [] t') in B.
  rewrite A in B. exact B.
Qed.

Lemma announces_empty : forall E f t, f_body f = [] -> announces E f t -> t = [].
Proof.
  intros E f t H [[_ A] | [[a [b O]] _]]; [exact A |]. rewrite H in O. destruct a; discriminate.
Qed.

Ltac nobody f H :=
  match goal with A : announces _ f ?t |- _ => rewrite (announces_empty _ f t (has_body_false f H) A) end.

Lemma announced_bodies : forall E fs anns gs anns', bodies fs = bodies gs ->
  Forall2 (announces E) fs anns -> Forall2 (announces E) gs anns' -> concat anns = concat anns'.
Proof.
  intros E fs. induction fs as [| f fs IH]; intros anns gs anns' B F G.
  - inv F. revert anns' G. induction gs as [| g gs IHg]; intros anns' G; inv G; [reflexivity |].
    unfold bodies in B. cbn [filter] in B. destruct (has_body g) eqn:H; [discriminate |].
    cbn [concat]. nobody g H. apply IHg; assumption.
  - inv F. unfold bodies in B. cbn [filter] in B. destruct (has_body f) eqn:H.
    + cbn [map] in B. revert anns' G. induction gs as [| g gs IHg]; intros anns' G; [discriminate |].
      inv G. cbn [filter] in B. destruct (has_body g) eqn:Hg.
      * cbn [map] in B. injection B as B1 B2. cbn [concat]. f_equal; [| eapply IH; eassumption].
        eapply announces_unique; [eapply announces_body; [exact B1 | eassumption] | eassumption].
      * cbn [concat]. nobody g Hg. apply IHg; assumption.
    + cbn [concat]. nobody f H. eapply IH; eassumption.
Qed.

Lemma bodies_only_proof : forall E fs gs, wf fs -> wf gs -> bodies fs = bodies gs ->
  prints E (encode fs) = prints E (encode gs) /\
  flag_events_per_player_name E (encode fs) = flag_events_per_player_name E (encode gs) /\
  ping_per_player_number E (encode fs) = ping_per_player_number E (encode gs) /\
  (all_named E fs \/ clients E (encode fs) = clients E (encode gs) ->
   frags_per_player_name E (encode fs) = frags_per_player_name E (encode gs)).
Proof.
  intros E fs gs W V B. split; [| split; [| split]].
  - rewrite !prints_encode by assumption. rewrite !demo_messages_bodies, B. reflexivity.
  - unfold flag_events_per_player_name. destruct (announces_all E fs) as [a A]. destruct (announces_all E gs) as [a' A'].
    rewrite (whole_eq fs), (whole_eq gs), (flag_prints_quiet E fs [] a), (flag_prints_quiet E gs [] a'); auto; try exact I.
    cbn [bind]. rewrite (announced_bodies E fs a gs a' B A A'). reflexivity.
  - unfold ping_per_player_number. rewrite (whole_eq fs), (whole_eq gs).
    destruct (sample_quiet E fs [] W I) as [n ->]. destruct (sample_quiet E gs [] V I) as [n' ->]. cbn [bind snd].
    unfold sampled. rewrite !ping_frames_bodies, B. reflexivity.
  - intros C. rewrite (whole_eq fs), (whole_eq gs). rewrite !frags_texts by (first [assumption | exact I]).
    rewrite <- !whole_eq. rewrite !reports_bodies, <- B, <- reports_bodies.
    destruct C as [N | C]; [| rewrite C; reflexivity].
    apply foldM_ext. intros tbl [m nums] H. unfold reports in H. apply in_map_iff in H. destruct H as [[m' s] [X I1]].
    injection X as -> <-. unfold score_text. cbn [fst snd].
    destruct (event_of E m) as [[| | | | | v] | msg] eqn:Ev; try reflexivity. exfalso.
    apply reads_iff in Ev. refine (N m s _ v I1 _ Ev). apply trimmed_iff. reflexivity.
Qed.

(** ** Concatenation and permutation of demos without anonymous team kills *)
Lemma named_reports : forall E fs, all_named E fs ->
  Forall (fun x => anonymous (event_of E (fst x)) = false) (obituaries fs).
Proof.
  intros E fs N. apply Forall_forall. intros [m s] H. cbn [fst].
  destruct (event_of E m) as [[| | | | | v] | msg] eqn:Ev; try reflexivity. exfalso.
  apply reads_iff in Ev. refine (N m s _ v H _ Ev). apply trimmed_iff. reflexivity.
Qed.

Definition frame_entries (E : env) (f : frame) : list (str * Z) :=
  concat (map (fun m => entries_of [] [] (event_of E m)) (obit_of f)).

Lemma obituaries_cons : forall f fs, obituaries (f :: fs) = map (fun m => (m, f :: fs)) (obit_of f) ++ obituaries fs.
Proof.
  intros f fs. cbn [obituaries]. f_equal. unfold obit_of. destruct (messages (f_body f)) as [| m ms]; [reflexivity |].
  destruct (has_text m && (n_of (m_level m) =? 1)); reflexivity.
Qed.

Lemma all_entries_frames : forall E fs, all_entries E [] fs = concat (map (frame_entries E) fs).
Proof.
  intros E fs. induction fs as [| f fs IH]; [reflexivity |].
  unfold all_entries. rewrite obituaries_cons.
  rewrite map_app, concat_app. fold (all_entries E [] fs). rewrite IH. cbn [map concat]. f_equal.
  unfold frame_entries. rewrite map_map. f_equal.
Qed.

Lemma named_table : forall E fs, wf fs -> len (encode fs) < 2147483648 -> all_named E fs ->
  exists tbl, frags_per_player_name E (encode fs) = Ret tbl /\ tabulates tbl (concat (map (frame_entries E) fs)).
Proof.
  intros E fs W L N. rewrite <- all_entries_frames.
  assert (A : Forall (fun '(m, _) => anonymous (event_of E m) = false) (obituaries fs)).
  { eapply Forall_impl; [| apply named_reports; exact N]. intros [m s] H. exact H. }
  pose proof (frags_named E fs [] W I A) as F. rewrite <- whole_eq in F.
  destruct (frags_table_of E [] fs _ L W F) as [tbl [T [ND G]]]. exists tbl. split; [exact T |].
  apply tabulates_of; assumption.
Qed.

Lemma all_named_frames : forall E fs, all_named E fs <->
  forall f m t v, In f fs -> In m (obit_of f) -> trimmed (to_unicode E (m_text m)) t -> ~ reads t (TeamkillByUnknown v).
Proof.
  intros E fs. split.
  - intros N f m t v I O. assert (exists s, In (m, s) (obituaries fs)) as [s J]; [| eapply N; exact J].
    clear N. induction fs as [| g fs IH]; [contradiction |]. rewrite obituaries_cons. destruct I as [-> | I].
    + exists (f :: fs). apply in_or_app. left. apply in_map_iff. eauto.
    + destruct (IH I) as [s J]. exists s. apply in_or_app. auto.
  - intros H m s t v I. assert (exists f, In f fs /\ In m (obit_of f)) as [f [J1 J2]]; [| eapply H; eassumption].
    clear H. induction fs as [| g fs IH]; [contradiction |]. rewrite obituaries_cons in I. apply in_app_or in I. destruct I as [I | I].
    + apply in_map_iff in I. destruct I as [m' [X J]]. injection X as <- <-. exists g. split; [left; reflexivity | exact J].
    + destruct (IH I) as [f [A B]]. exists f. split; [right; exact A | exact B].
Qed.

Lemma all_named_app : forall E fs gs, all_named E fs -> all_named E gs -> all_named E (fs ++ gs).
Proof.
  intros E fs gs A B. rewrite all_named_frames in *. intros f m t v I. apply in_app_or in I. destruct I as [I | I]; eauto.
Qed.

Lemma all_named_perm : forall E fs gs, Permutation fs gs -> all_named E fs -> all_named E gs.
Proof.
  intros E fs gs P A. rewrite all_named_frames in *. intros f m t v I. apply A. eapply Permutation_in; [symmetry; exact P | exact I].
Qed.

Lemma tabulates_value : forall tbl l n v, tabulates tbl l -> looked_up tbl n 0%Z v -> v = total n l.
Proof.
  intros tbl l n v [ND [K V]] [I | [N ->]]; [apply V; exact I |].
  rewrite K in N. clear -N. unfold total. replace (filter (fun x => beq (fst x) n) l) with (@nil (str * Z)); [reflexivity |].
  symmetry. induction l as [| [k d] l IH]; [reflexivity |]. cbn [filter fst map In] in *.
  destruct (beq k n) eqn:X; [apply beq_eq in X; tauto |]. apply IH. tauto.
Qed.

Lemma frags_join_proof : forall E fs gs, wf fs -> wf gs -> len (encode fs) + len (encode gs) < 2147483648 ->
  all_named E fs -> all_named E gs ->
  exists a b c, frags_per_player_name E (encode fs) = Ret a /\ frags_per_player_name E (encode gs) = Ret b /\
    frags_per_player_name E (encode fs ++ encode gs) = Ret c /\ scores_added a b c.
Proof.
  intros E fs gs W V L A B.
  destruct (named_table E fs W ltac:(lia) A) as [a [Fa Ta]]. destruct (named_table E gs V ltac:(lia) B) as [b [Fb Tb]].
  assert (W2 : wf (fs ++ gs)) by (apply Forall_app; auto).
  destruct (named_table E (fs ++ gs) W2) as [c [Fc Tc]]; [rewrite encode_app, len_app; lia | apply all_named_app; assumption |].
  rewrite encode_app in Fc. exists a, b, c. split; [exact Fa |]. split; [exact Fb |]. split; [exact Fc |].
  rewrite map_app, concat_app in Tc. split.
  - destruct Ta as [_ [Ka _]], Tb as [_ [Kb _]], Tc as [Nc [Kc _]]. split; [exact Nc |]. intros n.
    rewrite Kc, Ka, Kb, map_app, in_app_iff. reflexivity.
  - intros n x y z X Y Z. rewrite (tabulates_value _ _ _ _ Ta X), (tabulates_value _ _ _ _ Tb Y), (tabulates_value _ _ _ _ Tc Z).
    apply ScoreFacts.total_app.
Qed.

Lemma total_perm : forall n l l', Permutation l l' -> total n l = total n l'.
Proof.
  intros n l l' P. induction P.
  - reflexivity.
  - change (x :: l) with ([x] ++ l). change (x :: l') with ([x] ++ l'). rewrite !ScoreFacts.total_app, IHP. reflexivity.
  - change (y :: x :: l) with ([y] ++ [x] ++ l). change (x :: y :: l) with ([x] ++ [y] ++ l). rewrite !ScoreFacts.total_app. lia.
  - congruence.
Qed.

Lemma concat_perm : forall A (l l' : list (list A)), Permutation l l' -> Permutation (concat l) (concat l').
Proof.
  intros A l l' P. induction P; cbn [concat].
  - constructor.
  - apply Permutation_app_head. exact IHP.
  - rewrite !app_assoc. apply Permutation_app_tail. apply Permutation_app_comm.
  - etransitivity; eassumption.
Qed.

Lemma in_rows : forall K V (t : list (K * V)) k, In k (map fst t) <-> exists v, In (k, v) t.
Proof.
  intros K V t k. rewrite in_map_iff. split.
  - intros [[k' v] [X I]]. cbn [fst] in X. subst k'. eauto.
  - intros [v I]. exists (k, v). auto.
Qed.

Lemma frags_perm_proof : forall E fs gs, wf fs -> Permutation fs gs -> len (encode fs) < 2147483648 -> all_named E fs ->
  exists a b, frags_per_player_name E (encode fs) = Ret a /\ frags_per_player_name E (encode gs) = Ret b /\ same_rows a b.
Proof.
  intros E fs gs W P L A. assert (V : wf gs) by (eapply Permutation_Forall; eassumption).
  destruct (named_table E fs W L A) as [a [Fa Ta]].
  assert (L' : len (encode gs) < 2147483648).
  { assert (length (encode gs) = length (encode fs)) as X; [| unfold len in *; lia].
    apply Permutation_length. apply concat_perm. apply Permutation_map. symmetry. exact P. }
  destruct (named_table E gs V L' (all_named_perm E fs gs P A)) as [b [Fb Tb]].
  exists a, b. split; [exact Fa |]. split; [exact Fb |].
  assert (Q : Permutation (concat (map (frame_entries E) fs)) (concat (map (frame_entries E) gs)))
    by (apply concat_perm, Permutation_map; exact P).
  destruct Ta as [Na [Ka Va]], Tb as [Nb [Kb Vb]]. split; [exact Na |]. split; [exact Nb |].
  assert (K : forall n, In n (map fst a) <-> In n (map fst b)).
  { intros n. rewrite Ka, Kb. split; apply Permutation_in; [| symmetry]; apply Permutation_map; exact Q. }
  intros n v. split; intros I.
  - assert (J : In n (map fst b)) by (apply K; apply in_rows; eauto). apply in_rows in J. destruct J as [w J].
    rewrite (Va n v I), (total_perm n _ _ Q), <- (Vb n w J). exact J.
  - assert (J : In n (map fst a)) by (apply K; apply in_rows; eauto). apply in_rows in J. destruct J as [w J].
    rewrite (Vb n v I), <- (total_perm n _ _ Q), <- (Va n w J). exact J.
Qed.

(** ** Flags *)
Lemma deeds_of_texts : forall E (texts : list bytes), exists deeds, Forall2 (fun t l => tells_all (to_unicode E t) l) texts deeds.
Proof.
  intros E texts. induction texts as [| t texts [ds H]]; [exists []; constructor |].
  destruct (tells_all_exists_proof (to_unicode E t)) as [l T]. exists (l :: ds). constructor; assumption.
Qed.

(** the deeds of all frames, one list for each *)
Definition tells_of (E : env) (f : frame) (ds : list (deed * str)) : Prop :=
  exists texts per, announces E f texts /\ Forall2 (fun t l => tells_all (to_unicode E t) l) texts per /\ ds = concat per.

Lemma tells_of_exists : forall E fs, exists ds, Forall2 (tells_of E) fs ds.
Proof.
  intros E fs. induction fs as [| f fs [ds H]]; [exists []; constructor |].
  destruct (announces_exists_proof E f) as [texts A]. destruct (deeds_of_texts E texts) as [per T].
  exists (concat per :: ds). constructor; [exists texts, per; auto | exact H].
Qed.

Lemma tells_of_all : forall E fs ds, Forall2 (tells_of E) fs ds -> exists texts per,
  Forall2 (announces E) fs texts /\ Forall2 (fun t l => tells_all (to_unicode E t) l) (concat texts) per /\ concat per = concat ds.
Proof.
  intros E fs ds H. induction H as [| f d fs ds [t [p [A [T ->]]]] _ [texts [per [A' [T' Q]]]]].
  - exists [], []. repeat constructor.
  - exists (t :: texts), (p ++ per). split; [constructor; assumption |]. cbn [concat]. split.
    + apply Forall2_app; assumption.
    + rewrite concat_app, Q. reflexivity.
Qed.

Lemma flags_total : forall E fs ds, wf fs -> Forall2 (tells_of E) fs ds ->
  (checked E = false \/ (forall k name, times k name (concat ds) < 256) ->
     exists tbl, flag_events_per_player_name E (encode fs) = Ret tbl /\ counts tbl (concat ds)) /\
  (checked E = true -> (exists k name, 256 <= times k name (concat ds)) ->
     flag_events_per_player_name E (encode fs) = Panic POverflow).
Proof.
  intros E fs ds W H. apply tells_of_all in H. destruct H as [texts [per [A [T Q]]]]. rewrite <- Q.
  split; intros C.
  - pose proof (flags_counted_proof E fs [] texts per W I A T C) as F. rewrite <- whole_eq in F. exact F.
  - intros B. pose proof (flags_overflow_proof E fs [] texts per W I A T C B) as F. rewrite <- whole_eq in F. exact F.
Qed.

Lemma times_small : forall k n l, ~ In n (map snd l) -> times k n l = 0.
Proof.
  intros k n l N. unfold times. replace (filter _ l) with (@nil (deed * str)); [reflexivity |].
  symmetry. induction l as [| [d m] l IH]; [reflexivity |]. cbn [filter map In fst snd] in *.
  destruct (beq m n) eqn:X; [apply beq_eq in X; tauto |]. rewrite andb_false_r. apply IH. tauto.
Qed.

Lemma counts_value : forall tbl l n k v, counts tbl l -> looked_up tbl n no_deeds v -> counter k v = times k n l mod 256.
Proof.
  intros tbl l n k v [ND [K V]] [I | [N ->]]; [apply V; exact I |].
  rewrite K in N. rewrite times_small by exact N. destruct k; reflexivity.
Qed.

Lemma looked_up_exists : forall V (t : list (str * V)) n d, exists v, looked_up t n d v.
Proof.
  intros V t n d. destruct (in_dec (list_eq_dec Byte.byte_eq_dec) n (map fst t)) as [I | N].
  - apply in_rows in I. destruct I as [v I]. exists v. left. exact I.
  - exists d. right. auto.
Qed.

(** In a checked build the table exists only if all counts fit. *)
Lemma flags_checked : forall E fs ds tbl, wf fs -> Forall2 (tells_of E) fs ds -> checked E = true ->
  flag_events_per_player_name E (encode fs) = Ret tbl -> forall k n, times k n (concat ds) < 256.
Proof.
  intros E fs ds tbl W H C F k n. destruct (N.lt_ge_cases (times k n (concat ds)) 256) as [L | G]; [exact L |].
  destruct (flags_total E fs ds W H) as [_ P]. rewrite P in F; [discriminate | exact C | eauto].
Qed.

Lemma flags_table : forall E fs ds tbl, wf fs -> Forall2 (tells_of E) fs ds ->
  flag_events_per_player_name E (encode fs) = Ret tbl -> counts tbl (concat ds).
Proof.
  intros E fs ds tbl W H F. destruct (flags_total E fs ds W H) as [P _]. destruct P as [t [F' T]].
  - destruct (checked E) eqn:C; [right; eapply flags_checked; eassumption | left; reflexivity].
  - congruence.
Qed.

Lemma flags_join_proof : forall E fs gs a b, wf fs -> wf gs ->
  flag_events_per_player_name E (encode fs) = Ret a -> flag_events_per_player_name E (encode gs) = Ret b ->
  (checked E = false \/ flags_fit a b ->
     exists c, flag_events_per_player_name E (encode fs ++ encode gs) = Ret c /\ flags_added a b c) /\
  (checked E = true -> ~ flags_fit a b ->
     flag_events_per_player_name E (encode fs ++ encode gs) = Panic POverflow).
Proof.
  intros E fs gs a b W V Fa Fb.
  destruct (tells_of_exists E fs) as [da Da]. destruct (tells_of_exists E gs) as [db Db].
  pose proof (flags_table E fs da a W Da Fa) as Ta. pose proof (flags_table E gs db b V Db Fb) as Tb.
  assert (W2 : wf (fs ++ gs)) by (apply Forall_app; auto).
  pose proof (Forall2_app Da Db) as D. destruct (flags_total E (fs ++ gs) (da ++ db) W2 D) as [P1 P2].
  rewrite encode_app in P1, P2. rewrite concat_app in P1, P2.
  assert (Sum : checked E = true -> forall k n x y, looked_up a n no_deeds x -> looked_up b n no_deeds y ->
    times k n (concat da ++ concat db) = counter k x + counter k y).
  { intros C k n x y X Y. rewrite times_app, (counts_value a _ n k x Ta X), (counts_value b _ n k y Tb Y).
    rewrite !N.mod_small; [reflexivity | |];
      first [exact (flags_checked E fs da a W Da C Fa k n) | exact (flags_checked E gs db b V Db C Fb k n)]. }
  split; intros C.
  - destruct P1 as [c [Fc Tc]].
    { destruct (checked E) eqn:K; [right | left; reflexivity]. intros k n. destruct C as [C | C]; [discriminate |].
      destruct (looked_up_exists _ a n no_deeds) as [x X]. destruct (looked_up_exists _ b n no_deeds) as [y Y].
      rewrite (Sum eq_refl k n x y X Y). apply (C n); assumption. }
    exists c. split; [exact Fc |]. split.
    + destruct Ta as [_ [Ka _]], Tb as [_ [Kb _]], Tc as [Nc [Kc _]]. split; [exact Nc |]. intros n.
      rewrite Kc, Ka, Kb, map_app, in_app_iff. reflexivity.
    + intros n k x y z X Y Z. rewrite (counts_value c _ n k z Tc Z), (counts_value a _ n k x Ta X), (counts_value b _ n k y Tb Y).
      rewrite times_app, <- N.add_mod by lia. reflexivity.
  - intros F. apply P2; [exact C |].
    destruct (existsb (fun x => 256 <=? times (fst x) (snd x) (concat da ++ concat db)) (concat da ++ concat db)) eqn:X.
    + apply existsb_exists in X. destruct X as [[k n] [_ X]]. exists k, n. cbn [fst snd] in X. lia.
    + exfalso. apply F. intros n k x y Lx Ly. rewrite <- (Sum C k n x y Lx Ly).
      destruct (N.lt_ge_cases (times k n (concat da ++ concat db)) 256) as [L | G]; [exact L |]. exfalso.
      assert (In (k, n) (concat da ++ concat db)) as J.
      { unfold times in G. destruct (filter (fun x => deed_eqb (fst x) k && beq (snd x) n) (concat da ++ concat db)) as [| z zs] eqn:Fl;
          [rewrite len_nil in G; lia |].
        assert (In z (filter (fun x => deed_eqb (fst x) k && beq (snd x) n) (concat da ++ concat db))) as J by (rewrite Fl; left; reflexivity).
        apply filter_In in J. destruct J as [J1 J2]. apply andb_true_iff in J2. destruct J2 as [J2 J3].
        apply deed_eqb_true in J2. apply beq_eq in J3. destruct z as [k' n']. cbn [fst snd] in *. subst k' n'. exact J1. }
      assert (existsb (fun x => 256 <=? times (fst x) (snd x) (concat da ++ concat db)) (concat da ++ concat db) = true) as J';
        [| congruence]. apply existsb_exists. exists (k, n). split; [exact J | cbn [fst snd]; lia].
Qed.

Lemma times_perm : forall k n l l', Permutation l l' -> times k n l = times k n l'.
Proof.
  intros k n l l' P. induction P.
  - reflexivity.
  - change (x :: l) with ([x] ++ l). change (x :: l') with ([x] ++ l'). rewrite !times_app, IHP. reflexivity.
  - change (y :: x :: l) with ([y] ++ [x] ++ l). change (x :: y :: l) with ([x] ++ [y] ++ l). rewrite !times_app. lia.
  - congruence.
Qed.

Lemma Forall2_perm_l : forall A B (R : A -> B -> Prop) l l' m, Permutation l l' -> Forall2 R l m ->
  exists m', Forall2 R l' m' /\ Permutation m m'.
Proof.
  intros A B R l l' m P. revert m. induction P; intros m F.
  - inv F. exists []. split; constructor.
  - inv F. destruct (IHP _ H3) as [m' [F' P']]. exists (y :: m'). split; constructor; assumption.
  - inv F. inv H3. exists (y1 :: y0 :: l'0). split; [repeat constructor; assumption | apply perm_swap].
  - destruct (IHP1 _ F) as [m1 [F1 Q1]]. destruct (IHP2 _ F1) as [m2 [F2 Q2]]. exists m2. split; [exact F2 |].
    etransitivity; eassumption.
Qed.

Lemma counts_det : forall a b l l', counts a l -> counts b l' -> Permutation l l' -> same_rows a b.
Proof.
  intros a b l l' [Na [Ka Va]] [Nb [Kb Vb]] P. split; [exact Na |]. split; [exact Nb |].
  assert (K : forall n, In n (map fst a) <-> In n (map fst b)).
  { intros n. rewrite Ka, Kb. split; apply Permutation_in; [| symmetry]; apply Permutation_map; exact P. }
  assert (Ext : forall p q : PlayerFlagEvents, (forall k, counter k p = counter k q) -> p = q).
  { intros [] [] H. pose proof (H Captures). pose proof (H Defends). pose proof (H DefendsCarrierHard).
    pose proof (H DefendsCarrier). pose proof (H Takes). pose proof (H Returns). pose proof (H Assists).
    cbn in *. congruence. }
  intros n v. split; intros I.
  - assert (J : In n (map fst b)) by (apply K; apply in_rows; eauto). apply in_rows in J. destruct J as [w J].
    replace v with w; [exact J |]. apply Ext. intros k. rewrite (Va n v k I), (Vb n w k J), (times_perm k n _ _ P). reflexivity.
  - assert (J : In n (map fst a)) by (apply K; apply in_rows; eauto). apply in_rows in J. destruct J as [w J].
    replace v with w; [exact J |]. apply Ext. intros k. rewrite (Va n w k J), (Vb n v k I), (times_perm k n _ _ P). reflexivity.
Qed.

Lemma flags_perm_proof : forall E fs gs, wf fs -> Permutation fs gs ->
  (exists a b, flag_events_per_player_name E (encode fs) = Ret a /\
     flag_events_per_player_name E (encode gs) = Ret b /\ same_rows a b) \/
  (flag_events_per_player_name E (encode fs) = Panic POverflow /\
   flag_events_per_player_name E (encode gs) = Panic POverflow).
Proof.
  intros E fs gs W P. assert (V : wf gs) by (eapply Permutation_Forall; eassumption).
  destruct (tells_of_exists E fs) as [da Da]. destruct (Forall2_perm_l _ _ _ _ _ _ P Da) as [db [Db Q]].
  apply concat_perm in Q.
  destruct (flags_total E fs da W Da) as [A1 A2]. destruct (flags_total E gs db V Db) as [B1 B2].
  assert (Dec : (forall k n, times k n (concat da) < 256) \/ (exists k n, 256 <= times k n (concat da))).
  { destruct (existsb (fun x => 256 <=? times (fst x) (snd x) (concat da)) (concat da)) eqn:X.
    - right. apply existsb_exists in X. destruct X as [[k n] [_ X]]. exists k, n. cbn [fst snd] in X. lia.
    - left. intros k n. destruct (in_dec (list_eq_dec Byte.byte_eq_dec) n (map snd (concat da))) as [I | N];
        [| rewrite times_small by exact N; lia].
      destruct (N.lt_ge_cases (times k n (concat da)) 256) as [L | G]; [exact L |]. exfalso.
      assert (In (k, n) (concat da)) as J.
      { unfold times in G. destruct (filter (fun x => deed_eqb (fst x) k && beq (snd x) n) (concat da)) as [| z zs] eqn:Fl;
          [rewrite len_nil in G; lia |].
        assert (In z (filter (fun x => deed_eqb (fst x) k && beq (snd x) n) (concat da))) as J by (rewrite Fl; left; reflexivity).
        apply filter_In in J. destruct J as [J1 J2]. apply andb_true_iff in J2. destruct J2 as [J2 J3].
        apply deed_eqb_true in J2. apply beq_eq in J3. destruct z as [k' n']. cbn [fst snd] in *. subst k' n'. exact J1. }
      assert (existsb (fun x => 256 <=? times (fst x) (snd x) (concat da)) (concat da) = true) as J'; [| congruence].
      apply existsb_exists. exists (k, n). split; [exact J | cbn [fst snd]; lia]. }
  destruct Dec as [S | [k [n B]]].
  - left. destruct A1 as [a [Fa Ta]]; [right; exact S |].
    destruct B1 as [b [Fb Tb]]; [right; intros k n; rewrite <- (times_perm k n _ _ Q); apply S |].
    exists a, b. split; [exact Fa |]. split; [exact Fb |]. eapply counts_det; eassumption.
  - destruct (checked E) eqn:C.
    + right. split; [apply A2; eauto | apply B2; [reflexivity |]]. exists k, n. rewrite <- (times_perm k n _ _ Q). exact B.
    + left. destruct A1 as [a [Fa Ta]]; [left; reflexivity |]. destruct B1 as [b [Fb Tb]]; [left; reflexivity |].
      exists a, b. split; [exact Fa |]. split; [exact Fb |]. eapply counts_det; eassumption.
Qed.

Lemma pings_join_proof : forall E fs gs, wf fs -> wf gs ->
  (8 <= len (ping_frames fs) -> ping_per_player_number E (encode fs ++ encode gs) = ping_per_player_number E (encode fs)) /\
  (ping_frames fs = [] -> ping_per_player_number E (encode fs ++ encode gs) = ping_per_player_number E (encode gs)).
Proof.
  intros E fs gs W V. split; intros H.
  - apply pings_enough; assumption.
  - rewrite <- encode_app. rewrite (whole_eq (fs ++ gs)), (whole_eq gs). unfold ping_per_player_number.
    assert (W2 : wf (fs ++ gs)) by (apply Forall_app; auto).
    destruct (sample_quiet E (fs ++ gs) [] W2 I) as [n ->]. destruct (sample_quiet E gs [] V I) as [n' ->].
    cbn [bind snd]. replace (sampled (fs ++ gs)) with (sampled gs); [reflexivity |].
    unfold sampled. replace (ping_frames (fs ++ gs)) with (ping_frames fs ++ ping_frames gs); [rewrite H; reflexivity |].
    unfold ping_frames. rewrite map_app, filter_app. reflexivity.
Qed.

(** ** Sums and bounds *)
Lemma total_split : forall n (l : list (str * Z)),
  sum_all (map snd l) = (total n l + sum_all (map snd (filter (fun x => negb (beq (fst x) n)) l)))%Z.
Proof.
  intros n l. unfold total, sum_all. induction l as [| [k d] l IH]; [reflexivity |].
  cbn [map snd filter fst fold_right]. rewrite IH. destruct (beq k n); cbn [negb map snd fold_right filter]; lia.
Qed.

Lemma tabulates_sum_proof : forall tbl l, tabulates tbl l -> sum_all (map snd tbl) = sum_all (map snd l).
Proof.
  induction tbl as [| [n v] tbl IH]; intros l [ND [K V]].
  - cbn [map sum_all fold_right]. destruct l as [| [k d] l]; [reflexivity |]. exfalso. apply (K k). left. reflexivity.
  - rewrite (total_split n l). cbn [map snd sum_all fold_right]. inv ND. f_equal; [apply V; left; reflexivity |].
    apply IH. split; [assumption |]. split.
    + intros m. split.
      * intros I. assert (m <> n) by (intros ->; contradiction).
        assert (J : In m (map fst l)) by (apply K; right; exact I). apply in_map_iff in J. destruct J as [[k d] [X J]].
        cbn [fst] in X. subst k. apply in_map_iff. exists (m, d). split; [reflexivity |]. apply filter_In. split; [exact J |].
        cbn [fst]. destruct (beq m n) eqn:Q; [apply beq_eq in Q; contradiction | reflexivity].
      * intros I. apply in_map_iff in I. destruct I as [[k d] [X J]]. cbn [fst] in X. subst k. apply filter_In in J.
        destruct J as [J Q]. cbn [fst] in Q. assert (m <> n) by (intros ->; rewrite beq_refl in Q; discriminate).
        assert (R : In m (map fst ((n, v) :: tbl))) by (apply K; apply in_map_iff; exists (m, d); auto).
        cbn [map fst In] in R. destruct R as [R | R]; [congruence | exact R].
    + intros m w I. rewrite (V m w (or_intror I)). assert (m <> n).
      { intros ->. apply H1. apply in_rows. eauto. }
      unfold total. f_equal. f_equal. clear -H. induction l as [| [k d] l IH]; [reflexivity |].
      cbn [filter fst]. destruct (beq k m) eqn:Q.
      * apply beq_eq in Q. subst k. destruct (beq m n) eqn:Q; [apply beq_eq in Q; contradiction |].
        cbn [negb filter fst]. rewrite beq_refl, IH. reflexivity.
      * destruct (beq k n); cbn [negb filter fst]; [| rewrite Q]; exact IH.
Qed.

Lemma frags_sum_proof : forall E fs ws, wf fs -> len (encode fs) < 2147483648 -> all_named E fs ->
  Forall2 (worth_of E) (obituaries fs) ws ->
  exists tbl, frags_per_player_name E (encode fs) = Ret tbl /\ sum_all (map snd tbl) = sum_all ws.
Proof.
  intros E fs ws W L N F. destruct (named_table E fs W L N) as [tbl [T1 T2]]. exists tbl. split; [exact T1 |].
  rewrite (tabulates_sum_proof _ _ T2), <- all_entries_frames. unfold all_entries. pose proof (named_reports E fs N) as A.
  clear -F A. induction F as [| [m s] w obs ws [t [Tr H]] F IH]; [reflexivity |]. inv A. cbn [fst] in *.
  cbn [map concat]. rewrite map_app. unfold sum_all in *. rewrite sum_app, IH by assumption. cbn [fold_right]. f_equal.
  apply trimmed_iff in Tr. subst t. destruct H as [[e [R ->]] | [R ->]].
  - apply reads_iff in R. fold (event_of E m) in R. rewrite R in *. destruct e; try reflexivity. discriminate.
  - destruct (event_of E m) as [e | msg] eqn:Ev; [| reflexivity]. apply reads_iff in Ev. exfalso. exact (R e Ev).
Qed.

Lemma entries_count : forall E cs fs, (length (all_entries E cs fs) <= length (obituaries fs))%nat.
Proof.
  intros E cs fs. unfold all_entries. induction (obituaries fs) as [| [m s] l IH]; [apply le_n |].
  cbn [map concat]. rewrite app_length. cbn [length].
  assert (length (entries_of cs (nearby_updates m s) (event_of E m)) <= 1)%nat; [| lia].
  destruct (event_of E m) as [[| | | | | v] | msg]; cbn; try lia. destruct (killer_of cs v (nearby_updates m s)); cbn; lia.
Qed.

Lemma frags_bounds_proof : forall E fs rest r tbl n v, wf fs -> stops (len (encode fs ++ rest)) rest ->
  len (encode fs ++ rest) < 2147483648 -> clients E (encode fs ++ rest) = Ret r ->
  frags_per_player_name E (encode fs ++ rest) = Ret tbl -> In (n, v) tbl ->
  (- 2 * Z.of_N (len (obituaries fs)) <= v <= Z.of_N (len (obituaries fs)))%Z.
Proof.
  intros E fs rest r tbl n v W Q L C F I. destruct (frags_table E fs rest r W Q L C) as [t [F' [ND G]]].
  assert (t = tbl) by congruence. subst t. apply (in_aget beq beq_eq) in I; [| exact ND]. rewrite G in I.
  destruct (existsb _ _); [| discriminate]. injection I as <-.
  destruct (all_entries_small E (cs_of r) fs) as [S _]. pose proof (ScoreFacts.total_bound n _ S).
  pose proof (entries_count E (cs_of r) fs). unfold len. lia.
Qed.

Lemma teams_sum_proof : forall lower ps ts, teams_of lower ps ts ->
  sum_all (map t_frags ts) = sum_all (map p_frags ps).
Proof.
  intros lower ps ts T. pose proof (teams_partition lower ps ts T) as P.
  assert (S : forall l l' : list Z, Permutation l l' -> sum_all l = sum_all l').
  { unfold sum_all. intros l l' Q. induction Q; cbn [fold_right]; lia. }
  rewrite <- (S _ _ (Permutation_map p_frags P)). destruct T as [_ _ EA _]. clear -EA.
  induction EA as [| t ts [_ _ F _ _] _ IH]; [reflexivity |]. cbn [map concat]. rewrite map_app. unfold sum_all in *.
  rewrite sum_app, <- IH. cbn [fold_right]. rewrite F. reflexivity.
Qed.

Lemma sum_bounds : forall lo hi l, (forall x, In x l -> lo <= x <= hi) -> lo * len l <= sum l <= hi * len l.
Proof.
  intros lo hi l. induction l as [| x l IH]; intros H; [cbn [sum fold_right]; rewrite len_nil; lia |].
  rewrite len_cons. cbn [sum fold_right]. fold (sum l). specialize (IH (fun y I => H y (or_intror I))).
  specialize (H x (or_introl eq_refl)). nia.
Qed.

Lemma averages_between_proof : forall tbl l p a lo hi, averages tbl l -> In (p, a) tbl ->
  (forall x, In x (pings_of p l) -> lo <= x <= hi) -> lo <= a <= hi.
Proof.
  intros tbl l p a lo hi [_ [K V]] I H. rewrite (V p a I). pose proof (sum_bounds lo hi _ H) as [A B].
  assert (J : In p (map fst l)) by (apply K; apply in_rows; eauto). apply in_rows in J. destruct J as [x J].
  assert (X : In x (pings_of p l)).
  { unfold pings_of. apply in_map_iff. exists (p, x). split; [reflexivity |]. apply filter_In. split; [exact J | cbn; apply N.eqb_refl]. }
  assert (L : 0 < len (pings_of p l)) by (destruct (pings_of p l); [contradiction | rewrite len_cons; lia]).
  split; [apply N.div_le_lower_bound; lia | apply N.div_le_upper_bound; lia].
Qed.

Lemma team_ping_between_proof : forall ps t lo hi, team_of ps t ->
  total_ping (t_players t) + len (t_players t) <= 8388608 ->
  (forall p, In p (t_players t) -> lo <= p_ping p <= hi) -> lo <= t_ping t <= hi.
Proof.
  intros ps t lo hi [_ S _ P _] B H. specialize (P B). unfold rounds_half_up in P.
  assert (lo * len (t_players t) <= total_ping (t_players t) <= hi * len (t_players t)) as [X Y].
  { rewrite <- (len_map _ _ p_ping). apply sum_bounds. intros x I. apply in_map_iff in I. destruct I as [p [<- I]]. auto. }
  assert (L : 0 < len (t_players t)) by (destruct (t_players t); [contradiction | rewrite len_cons; lia]). nia.
Qed.
