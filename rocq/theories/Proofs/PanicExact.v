(** Exactly when functions panic *)
From Coq Require Import Lia ZifyN ZifyNat ZifyBool.
From Verif.Model Require Import Base Env Primitives Prot Frame Message Prints Bytesextra Serverinfo Clientinfo
  Clients FragEvent FlagEvent Frags Flags Float Ping Ktxstats Timezone Matchdate Duration Validate Players.
From Verif.Spec Require Import Occ Mvd Messages Times Texts Clock Userinfo Dates Utf8 Obituary Score Flags Pings Panics.
From Verif.Proofs Require Import BaseFacts FrameFacts PrintFacts PrintProps TextFacts PingFacts StatsFacts ClientFacts ObituaryFacts ScoreFacts FlagFacts
  DateFacts LiteralFacts TimeFacts WalkProps ServerFacts UserinfoFacts ClockFacts BuildFacts JoinFacts PanicFacts.
Open Scope N_scope.

Lemma overruns_no_frame : forall total rest, overruns total rest -> no_frame rest.
Proof. intros total rest [s [A [L _]]]. unfold no_frame. rewrite A. exact L. Qed.
Lemma cut_off_iff : forall fs rest, wf fs -> no_frame rest ->
  (cut_off (encode fs ++ rest) <-> overruns (len (encode fs ++ rest)) rest).
Proof.
  intros fs rest W NF. split; [| intros O; exists fs, rest; auto].
  intros [fs' [rest' [D [W' O]]]]. destruct (walk_split_proof (encode fs ++ rest)) as [gs [s [_ [_ [_ U]]]]].
  destruct (U fs rest eq_refl W NF) as [-> ->]. destruct (U fs' rest' D W' (overruns_no_frame _ _ O)) as [-> ->]. exact O.
Qed.
Lemma cut_off_cases : forall data, exists fs rest, data = encode fs ++ rest /\ wf fs /\ no_frame rest /\
  ((stops (len data) rest /\ ~ cut_off data) \/ (overruns (len data) rest /\ cut_off data)).
Proof.
  intros data. destruct (decompose data) as [fs [rest [-> [W N]]]]. exists fs, rest. split; [reflexivity |]. split; [exact W |]. split; [exact N |].
  pose proof (cut_off_iff fs rest W N) as C. destruct (rest_cases (len (encode fs ++ rest)) rest) as [S | O]; [rewrite len_app; lia | exact N | |].
  - left. split; [exact S |]. rewrite C. intros O. exact (stops_overruns _ _ S O).
  - right. split; [exact O |]. apply C. exact O.
Qed.

Lemma prints_panics_proof : forall E data p, prints E data = Panic p <-> p = PSlice /\ cut_off data.
Proof.
  intros E data p. destruct (cut_off_cases data) as [fs [rest [-> [W [N [[S C] | [O C]]]]]]].
  - rewrite (prints_quiet E fs rest W S). split; [discriminate | tauto].
  - rewrite (prints_crash E fs rest W O). split; [intros H; injection H as <-; auto | intros [-> _]; reflexivity].
Qed.

(** ** Clients *)
Lemma strings_panic : forall E data p, clientinfo_strings E data = Panic p <-> p = PSlice /\ clients_cut_off data.
Proof.
  intros E data p. destruct (find data spawn_mark) as [o |] eqn:F.
  - apply find_some in F. destruct (clientinfo_exact_proof E data o F) as [_ X]. rewrite X. split.
    + intros [-> S]. split; [reflexivity | exists o; auto].
    + intros [-> [s [A S]]]. split; [reflexivity |]. rewrite (first_at_unique _ _ _ _ F A). exact S.
  - split.
    + unfold clientinfo_strings. change CMD_SPAWN with spawn_mark. rewrite F. discriminate.
    + intros [_ [s [A _]]]. apply find_some in A. congruence.
Qed.
Lemma bind_panics : forall A B (m : M A) (k : A -> M B) p, (forall a q, k a <> Panic q) -> (bind m k = Panic p <-> m = Panic p).
Proof.
  intros A B [a | q |] k p H; cbn [bind]; split; intros Q; try discriminate; try congruence. exfalso. exact (H a p Q).
Qed.
Ltac plain := intros ? ?; repeat match goal with |- (match ?x with _ => _ end) <> _ => destruct x end; discriminate.
Lemma clientinfo_panic : forall E data p, clientinfo E data = Panic p <-> p = PSlice /\ clients_cut_off data.
Proof. intros. unfold clientinfo. rewrite bind_panics; [apply strings_panic | plain]. Qed.
Lemma clients_panic : forall E data p, clients E data = Panic p <-> p = PSlice /\ clients_cut_off data.
Proof. intros. unfold clients. rewrite bind_panics; [apply clientinfo_panic | plain]. Qed.
Lemma player_clients_panic : forall E data p, player_clients E data = Panic p <-> p = PSlice /\ clients_cut_off data.
Proof. intros. unfold player_clients. rewrite bind_panics; [apply clients_panic | plain]. Qed.
Lemma spectator_clients_panic : forall E data p, spectator_clients E data = Panic p <-> p = PSlice /\ clients_cut_off data.
Proof. intros. unfold spectator_clients. rewrite bind_panics; [apply clients_panic | plain]. Qed.
Lemma clients_panic_proof : forall E data p,
  Forall (fun panics => panics <-> p = PSlice /\ clients_cut_off data)
    [ clientinfo_strings E data = Panic p; clientinfo E data = Panic p; clients E data = Panic p;
      player_clients E data = Panic p; spectator_clients E data = Panic p;
      player_names E data = Panic p; spectator_names E data = Panic p; team_names E data = Panic p;
      has_bot_players E data = Panic p; has_human_players E data = Panic p; has_clients E data = Panic p ].
Proof.
  intros E data p. repeat (apply Forall_cons); [..| apply Forall_nil].
  - apply strings_panic.
  - apply clientinfo_panic.
  - apply clients_panic.
  - apply player_clients_panic.
  - apply spectator_clients_panic.
  - unfold player_names. rewrite bind_panics; [apply player_clients_panic | plain].
  - unfold spectator_names. rewrite bind_panics; [apply spectator_clients_panic | plain].
  - unfold team_names. rewrite bind_panics; [apply player_clients_panic | plain].
  - unfold has_bot_players. rewrite bind_panics; [apply player_clients_panic | plain].
  - unfold has_human_players. rewrite bind_panics; [apply player_clients_panic | plain].
  - unfold has_clients. rewrite bind_panics; [apply clientinfo_panic | plain].
Qed.

(** ** Server info *)
Lemma serverinfo_string_panic : forall E data p, serverinfo_string E data = Panic p <-> p = PSlice /\ len data < 1280.
Proof.
  intros E data p. destruct (N.lt_ge_cases (len data) 1280) as [L | L].
  - rewrite serverinfo_string_short by exact L. split; [intros H; injection H as <-; auto | intros [-> _]; reflexivity].
  - split; [| lia]. destruct (has_serverinfo_dec data) as [[info I] | NI].
    + rewrite (serverinfo_string_found E data info L I). discriminate.
    + rewrite (serverinfo_string_missing E data L NI). discriminate.
Qed.
Lemma serverinfo_panic : forall E data p, serverinfo E data = Panic p <-> p = PSlice /\ len data < 1280.
Proof. intros. unfold serverinfo. rewrite bind_panics; [apply serverinfo_string_panic | plain]. Qed.
Lemma serverinfo_panics_proof : forall E data p,
  Forall (fun panics => panics <-> p = PSlice /\ len data < 1280)
    [ serverinfo_string E data = Panic p; serverinfo E data = Panic p; filename E data = Panic p;
      timestamp_from_epoch E data = Panic p ].
Proof.
  intros E data p. repeat (apply Forall_cons); [..| apply Forall_nil].
  - apply serverinfo_string_panic.
  - apply serverinfo_panic.
  - unfold filename. rewrite bind_panics; [apply serverinfo_panic | plain].
  - unfold timestamp_from_epoch. rewrite bind_panics; [apply serverinfo_panic | plain].
Qed.

Lemma is_valid_panics_proof : forall E data p, is_valid E data = Panic p <->
  p = PSlice /\ finished data /\ 1024 <= len data /\
  (len data < 1280 \/ (exists info, has_serverinfo data info) /\ clients_cut_off data).
Proof.
  intros E data p. unfold is_valid. change MIN_SIZE with 1024. rewrite <- finished_proof.
  destruct (1024 <=? len data) eqn:L; cbn [negb]; [| split; [discriminate | lia]].
  destruct (has_end_of_demo_print data); cbn [negb]; [| split; [discriminate | intros [_ [H _]]; discriminate]].
  destruct (N.lt_ge_cases (len data) 1280) as [S | G].
  { rewrite serverinfo_short by exact S. cbn [bind]. split; [intros H; injection H as <- | intros [-> _]; reflexivity].
    repeat split; auto. lia. }
  destruct (has_serverinfo_dec data) as [[info I] | NI].
  - rewrite (serverinfo_found E data info G I). cbn [bind is_ok negb]. unfold has_clients. rewrite bind_panics by plain.
    rewrite clientinfo_panic. split; [intros [-> C]; repeat split; eauto; lia |]. intros [-> [_ [_ [B | [_ C]]]]]; [lia | auto].
  - rewrite (serverinfo_missing E data G NI). cbn [bind is_ok negb]. split; [discriminate |].
    intros [_ [_ [_ [B | [[info I] _]]]]]; [lia | exfalso; exact (NI info I)].
Qed.

Lemma timestamp_panics_proof : forall E data p, timestamp E data = Panic p <->
  (p = PSlice /\ len data < 1280) \/
  (1280 <= len data /\ (forall info, has_serverinfo data info -> st_epoch (settings_from E (to_utf8 E info)) = None) /\
   matchdate E data = Panic p).
Proof.
  intros E data p. destruct (N.lt_ge_cases (len data) 1280) as [L | L].
  - destruct (timestamp_short_proof E data L) as [_ [-> _]]. split; [intros H; injection H as <-; auto |].
    intros [[-> _] | [B _]]; [reflexivity | lia].
  - destruct (has_serverinfo_dec data) as [[info I] | NI].
    + destruct (st_epoch (settings_from E (to_utf8 E info))) as [t |] eqn:S.
      * destruct (timestamp_epoch_proof E data info t L I S) as [_ ->]. split; [discriminate |].
        intros [[_ B] | [_ [H _]]]; [lia |]. specialize (H info I). congruence.
      * assert (K : forall info, has_serverinfo data info -> st_epoch (settings_from E (to_utf8 E info)) = None).
        { intros i J. rewrite (has_serverinfo_unique _ _ _ J I). exact S. }
        destruct (timestamp_no_epoch_proof E data L K) as [_ ->]. split; [intros H; right; auto |].
        intros [[_ B] | [_ [_ H]]]; [lia | exact H].
    + assert (K : forall info, has_serverinfo data info -> st_epoch (settings_from E (to_utf8 E info)) = None).
      { intros i J. exfalso. exact (NI i J). }
      destruct (timestamp_no_epoch_proof E data L K) as [_ ->]. split; [intros H; right; auto |].
      intros [[_ B] | [_ [_ H]]]; [lia | exact H].
Qed.

(** ** Flags and pings *)
Lemma times_in : forall k name l, 0 < Spec.Flags.times k name l -> In (k, name) l.
Proof.
  intros k name l H. unfold Spec.Flags.times in H.
  destruct (filter (fun x => deed_eqb (fst x) k && beq (snd x) name) l) as [| [k' n'] r] eqn:F; [rewrite len_nil in H; lia |].
  assert (I : In (k', n') (filter (fun x => deed_eqb (fst x) k && beq (snd x) name) l)) by (rewrite F; left; reflexivity).
  apply filter_In in I. cbn [fst snd] in I. destruct I as [I Q]. apply andb_true_iff in Q. destruct Q as [Q1 Q2].
  apply deed_eqb_true in Q1. apply beq_eq in Q2. subst. exact I.
Qed.
Lemma some_many : forall l, (exists k name, 256 <= Spec.Flags.times k name l) \/ (forall k name, Spec.Flags.times k name l < 256).
Proof.
  intros l. destruct (Forall_Exists_dec (fun x => Spec.Flags.times (fst x) (snd x) l < 256)) with (l := l) as [F | X].
  - intros x. destruct (Spec.Flags.times (fst x) (snd x) l <? 256) eqn:Q; [left | right]; lia.
  - right. intros k name. destruct (N.eq_dec (Spec.Flags.times k name l) 0) as [Z | Z]; [lia |].
    rewrite Forall_forall in F. apply (F (k, name)). apply times_in. lia.
  - left. apply Exists_exists in X. destruct X as [[k name] [_ X]]. exists k, name. cbn [fst snd] in X. lia.
Qed.
Lemma flags_panics_proof : forall E data p, flag_events_per_player_name E data = Panic p <->
  (p = PSlice /\ cut_off data) \/
  (p = POverflow /\ checked E = true /\ ~ cut_off data /\
   exists fs rest texts deeds k name, data = encode fs ++ rest /\ wf fs /\ no_frame rest /\ Forall2 (announces E) fs texts /\
     Forall2 (fun t l => tells_all (to_unicode E t) l) (concat texts) deeds /\ 256 <= Spec.Flags.times k name (concat deeds)).
Proof.
  intros E data p. destruct (cut_off_cases data) as [fs [rest [-> [W [N [[S C] | [O C]]]]]]].
  2: { rewrite (flags_crash_proof E fs rest W O). split; [intros H; injection H as <-; auto |]. intros [[-> _] | [_ [_ [H _]]]]; [reflexivity | contradiction]. }
  split.
  - destruct (tells_of_exists E fs) as [ds TS]. destruct (tells_of_all E fs ds TS) as [texts [per [A [T Q]]]].
    intros H. right.
    assert (R : ~ (checked E = false \/ forall k name, Spec.Flags.times k name (concat per) < 256)).
    { intros B. destruct (flags_counted_proof E fs rest texts per W S A T B) as [tbl [R _]]. congruence. }
    assert (checked E = true) as CH by (destruct (checked E); [reflexivity | exfalso; apply R; auto]).
    destruct (some_many (concat per)) as [[k [n B]] | B]; [| exfalso; apply R; auto].
    rewrite (flags_overflow_proof E fs rest texts per W S A T CH (ex_intro _ k (ex_intro _ n B))) in H. injection H as <-.
    split; [reflexivity |]. split; [exact CH |]. split; [exact C |]. exists fs, rest, texts, per, k, n. auto 8.
  - intros [[_ H] | [-> [CH [_ [fs' [rest' [texts [per [k [n [E1 [W' [N' [A [T B]]]]]]]]]]]]]]]; [contradiction |].
    destruct (walk_split_proof (encode fs ++ rest)) as [gs [s [_ [_ [_ U]]]]].
    destruct (U fs rest eq_refl W N) as [-> ->]. destruct (U fs' rest' E1 W' N') as [-> ->].
    apply (flags_overflow_proof E gs s texts per W S A T CH). eauto.
Qed.

Lemma pings_panics_proof : forall E fs rest p, wf fs -> no_frame rest ->
  (ping_per_player_number E (encode fs ++ rest) = Panic p <->
   (p = PSlice /\ cut_off (encode fs ++ rest) /\ len (ping_frames fs) < 8) \/
   (p = POverflow /\ checked E = true /\ (cut_off (encode fs ++ rest) -> 8 <= len (ping_frames fs)) /\
    exists player, 65536 <= sum (pings_of player (sampled fs)))).
Proof.
  intros E fs rest p W N. rewrite (cut_off_iff fs rest W N).
  assert (D : (overruns (len (encode fs ++ rest)) rest /\ len (ping_frames fs) < 8) \/
    (sampling_ends fs rest /\ (overruns (len (encode fs ++ rest)) rest -> 8 <= len (ping_frames fs)))).
  { unfold sampling_ends. destruct (N.lt_ge_cases (len (ping_frames fs)) 8) as [L | L]; [| right; auto].
    destruct (rest_cases (len (encode fs ++ rest)) rest) as [S | O]; [rewrite len_app; lia | exact N | |]; [right | left; auto].
    split; [auto |]. intros O. exfalso. exact (stops_overruns _ _ S O). }
  destruct D as [[O L] | [SE X]].
  - rewrite (pings_crash_proof E fs rest W O L). split; [intros H; injection H as <-; auto |].
    intros [[-> _] | [_ [_ [H _]]]]; [reflexivity | specialize (H O); lia].
  - destruct (sample_reached E fs rest W SE) as [n R]. rewrite (pings_result E _ fs n W R). split.
    + destruct (is_empty (sampled fs)); [discriminate |]. destruct (checked E); cbn [andb]; [| discriminate].
      destruct (existsb _ _) eqn:B; [| discriminate]. intros H. injection H as <-. right. apply existsb_big in B.
      destruct B as [q [_ B]]. eauto 6.
    + intros [[_ [O L]] | [-> [CH [_ [q B]]]]]; [specialize (X O); lia |].
      assert (I : In q (map fst (sampled fs))).
      { destruct (in_dec N.eq_dec q (map fst (sampled fs))) as [I | NI]; [exact I | exfalso].
        assert (pings_of q (sampled fs) = []) as Z; [| rewrite Z in B; cbn in B; lia].
        unfold pings_of. clear -NI. induction (sampled fs) as [| [a b] l IH]; [reflexivity |]. cbn [map filter fst In] in *.
        destruct (a =? q) eqn:Q; [exfalso; apply NI; left; lia |]. apply IH. tauto. }
      assert (is_empty (sampled fs) = false) as -> by (apply is_empty_false; intros Z; rewrite Z in I; exact I).
      rewrite CH. cbn [andb]. replace (existsb _ _) with true; [reflexivity |]. symmetry. apply existsb_big. eauto.
Qed.

(** ** Scores *)
Definition asks (E : env) (x : message * list N) : bool := anonymous (event_of E (fst x)) && negb (is_empty (snd x)).

Lemma asks_spec : forall E fs, asks_for_clients E fs <-> exists x, In x (reports fs) /\ asks E x = true.
Proof.
  intros E fs. unfold asks_for_clients, reports. split.
  - intros [m [s [t [v [I [T [R N]]]]]]]. exists (m, nearby_updates m s). split; [apply in_map_iff; exists (m, s); auto |].
    unfold asks. cbn [fst snd]. apply trimmed_iff in T. subst t. apply reads_iff in R. unfold event_of. rewrite R. apply is_empty_false in N.
    rewrite N. reflexivity.
  - intros [x [I A]]. apply in_map_iff in I. destruct I as [[m s] [<- I]]. unfold asks in A. cbn [fst snd] in A.
    apply andb_true_iff in A. destruct A as [A B]. unfold event_of in A.
    destruct (frag_event_from (trim_end (to_unicode E (m_text m)))) as [[| | | | | v] | msg] eqn:F; try discriminate A.
    exists m, s, (trim_end (to_unicode E (m_text m))), v. split; [exact I |]. split; [apply trimmed_iff; reflexivity |].
    split; [apply reads_iff; exact F |]. intros Z. rewrite Z in B. discriminate.
Qed.

Definition entries_for (E : env) (x : message * list N) : list (str * Z) := entries_of [] (snd x) (event_of E (fst x)).
Lemma score_text_quiet : forall E C tbl x, asks E x = false -> score_text E C tbl x = foldM (add_entry E) (entries_for E x) tbl.
Proof.
  intros E C tbl [m nums] H. unfold score_text, entries_for, asks in *. cbn [fst snd] in *.
  destruct (event_of E m) as [[| | | | | v] | msg]; try reflexivity. cbn [anonymous andb] in H. apply negb_false_iff in H. rewrite H.
  reflexivity.
Qed.
Lemma score_text_asks : forall E p tbl x, asks E x = true -> score_text E (Panic p) tbl x = Panic p.
Proof.
  intros E p tbl [m nums] H. unfold score_text, asks in *. cbn [fst snd] in *. apply andb_true_iff in H. destruct H as [A B].
  destruct (event_of E m) as [[| | | | | v] | msg]; try discriminate A. apply negb_true_iff in B. rewrite B. reflexivity.
Qed.
Lemma add_total : forall E l, checked E = false -> forall m, exists m', foldM (add_entry E) l m = Ret m'.
Proof.
  intros E l CH. induction l as [| x l IH]; intros m; [eexists; reflexivity |]. cbn [foldM]. unfold add_entry at 1, frag_add, iadd.
  rewrite CH. destruct (_ && _)%bool; cbn [bind]; apply IH.
Qed.
Lemma entries_bound : forall E l, Forall (fun x => -2 <= snd x <= 1)%Z (concat (map (entries_for E) l)) /\
  (length (concat (map (entries_for E) l)) <= length l)%nat.
Proof.
  intros E l. induction l as [| x l [F L]]; [split; [constructor | cbn; lia] |]. cbn [map concat]. rewrite app_length. cbn [length].
  assert (Forall (fun x => -2 <= snd x <= 1)%Z (entries_for E x) /\ (length (entries_for E x) <= 1)%nat) as [F' L'].
  { unfold entries_for. destruct (event_of E (fst x)) as [[| | | | | v] | msg]; cbn; split; try lia; repeat constructor; cbn; lia. }
  split; [apply Forall_app; auto | lia].
Qed.
Lemma quiet_total : forall E C l, Forall (fun x => asks E x = false) l -> checked E = false \/ (Z.of_nat (length l) <= 1073741824)%Z ->
  exists m, foldM (score_text E C) l [] = Ret m.
Proof.
  intros E C l F B. assert (foldM (score_text E C) l [] = foldM (add_entry E) (concat (map (entries_for E) l)) []) as ->.
  { rewrite <- foldM_concat. apply foldM_ext. intros tbl x I. apply score_text_quiet. rewrite Forall_forall in F. apply F. exact I. }
  destruct B as [CH | B]; [apply add_total; exact CH |]. destruct (entries_bound E l) as [E1 E2].
  destruct (foldM_add_spec E (concat (map (entries_for E) l)) [] [] E1) as [m [M _]]; [cbn [app]; apply Z.le_trans with (Z.of_nat (length l)); [apply inj_le; exact E2 | exact B] | constructor | reflexivity | eauto].
Qed.
Lemma reports_length : forall fs, wf fs -> 2 * N.of_nat (length (reports fs)) <= len (encode fs).
Proof.
  intros fs W. unfold reports. rewrite map_length. induction W as [| f fs Wf W IH]; [reflexivity |]. cbn [obituaries].
  rewrite encode_cons, len_app, app_length. pose proof (announced_pos _ _ (announced_encode f [] Wf)).
  assert (length (match messages (f_body f) with m :: _ => if has_text m && (n_of (m_level m) =? 1)%N then [(m, f :: fs)] else [] | [] => [] end) <= 1)%nat.
  { destruct (messages (f_body f)) as [| m ms]; [cbn; lia |]. destruct (_ && _); cbn; lia. }
  lia.
Qed.
Lemma first_true : forall A (f : A -> bool) l, Forall (fun x => f x = false) l \/
  exists a x b, l = a ++ x :: b /\ f x = true /\ Forall (fun x => f x = false) a.
Proof.
  intros A f l. induction l as [| y l IH]; [left; constructor |]. destruct (f y) eqn:Y; [right; exists [], y, l; auto |].
  destruct IH as [F | [a [x [b [-> [X F]]]]]]; [left; auto | right]. exists (y :: a), x, b. auto.
Qed.

Lemma frags_panics_proof : forall E fs rest p, wf fs -> no_frame rest ->
  checked E = false \/ len (encode fs ++ rest) < 2147483648 ->
  (frags_per_player_name E (encode fs ++ rest) = Panic p <->
   p = PSlice /\ (cut_off (encode fs ++ rest) \/ (asks_for_clients E fs /\ clients_cut_off (encode fs ++ rest)))).
Proof.
  intros E fs rest p W N B. rewrite (cut_off_iff fs rest W N).
  destruct (rest_cases (len (encode fs ++ rest)) rest) as [S | O]; [rewrite len_app; lia | exact N | |].
  2: { rewrite (frags_crash E fs rest W O). split; [intros H; injection H as <-; auto | intros [-> _]; reflexivity]. }
  assert (NO : ~ overruns (len (encode fs ++ rest)) rest) by (intros O; exact (stops_overruns _ _ S O)).
  assert (B' : checked E = false \/ (Z.of_nat (length (reports fs)) <= 1073741824)%Z).
  { destruct B as [B | B]; [auto | right]. pose proof (reports_length fs W). rewrite len_app in B. lia. }
  rewrite (asks_spec E fs). pose proof (clients_panic E (encode fs ++ rest)) as CP.
  destruct (clients E (encode fs ++ rest)) as [r | q |] eqn:C.
  - assert (exists m, frags_per_player_name E (encode fs ++ rest) = Ret m) as [m ->].
    { destruct B as [CH | B].
      - rewrite (frags_quiet E fs rest r W S C). apply add_total. exact CH.
      - destruct (frags_table E fs rest r W S B C) as [m [M _]]. eauto. }
    split; [discriminate |]. intros [-> [H | [_ H]]]; [contradiction |]. specialize (proj2 (CP PSlice) (conj eq_refl H)). discriminate.
  - destruct (proj1 (CP q) eq_refl) as [-> CC]. rewrite frags_texts by assumption. rewrite C.
    destruct (first_true _ (asks E) (reports fs)) as [F | [a [x [b [R [X F]]]]]].
    + destruct (quiet_total E (Panic PSlice) (reports fs) F B') as [m ->]. split; [discriminate |].
      intros [_ [H | [[x [I X]] _]]]; [contradiction |]. rewrite Forall_forall in F. rewrite (F x I) in X. discriminate.
    + rewrite R in *. rewrite foldM_app. destruct (quiet_total E (Panic PSlice) a F) as [m ->].
      { destruct B' as [CH | L]; [auto | right]. rewrite app_length in L. lia. }
      cbn [bind foldM]. rewrite score_text_asks by exact X. cbn [bind]. split; [| intros [-> _]; reflexivity].
      intros H. injection H as <-. split; [reflexivity | right]. split; [| exact CC]. exists x. split; [| exact X].
      apply in_or_app. right. left. reflexivity.
  - exfalso. exact (clients_terminates E _ C).
Qed.

(** ** No panics *)
Lemma sound_proof : forall E data, checked E = false -> 1280 <= len data -> ~ cut_off data -> ~ clients_cut_off data ->
  forall p,
  Forall (fun panics => ~ panics)
    [ is_valid E data = Panic p; has_clients E data = Panic p; serverinfo_string E data = Panic p; serverinfo E data = Panic p;
      filename E data = Panic p; timestamp_from_epoch E data = Panic p;
      clientinfo_strings E data = Panic p; clientinfo E data = Panic p; clients E data = Panic p;
      player_clients E data = Panic p; spectator_clients E data = Panic p;
      player_names E data = Panic p; spectator_names E data = Panic p; team_names E data = Panic p;
      has_bot_players E data = Panic p; has_human_players E data = Panic p;
      prints E data = Panic p; frags_per_player_name E data = Panic p; flag_events_per_player_name E data = Panic p;
      ping_per_player_number E data = Panic p; players_from_parsing E data = Panic p;
      demo_duration E data = Panic p; countdown_duration E data = Panic p ].
Proof.
  intros E data CH L C K p.
  assert (NC : ~ (p = PSlice /\ clients_cut_off data)) by tauto.
  assert (NS : ~ (p = PSlice /\ len data < 1280)) by lia.
  pose proof (clients_panic_proof E data p) as CP. pose proof (serverinfo_panics_proof E data p) as SP.
  assert (FR : frags_per_player_name E data <> Panic p).
  { destruct (decompose data) as [fs [rest [-> [W N]]]]. rewrite (frags_panics_proof E fs rest p W N (or_introl CH)). tauto. }
  assert (PI : ping_per_player_number E data <> Panic p).
  { destruct (decompose data) as [fs [rest [-> [W N]]]]. rewrite (pings_panics_proof E fs rest p W N). rewrite CH.
    intros [[_ [H _]] | [_ [H _]]]; [contradiction | discriminate]. }
  assert (FL : flag_events_per_player_name E data <> Panic p).
  { rewrite (flags_panics_proof E data p), CH. intros [[_ H] | [_ [H _]]]; [contradiction | discriminate]. }
  assert (UN : forall t, (let! d := duration_until_offset E data t in Ret (Ok d)) <> Panic p).
  { intros t. destruct (decompose data) as [fs [rest [-> [W N]]]]. destruct (until_clock E fs rest t W N) as [r [R ->]].
    rewrite (cut_off_iff fs rest W N) in C. rewrite CH in R.
    inversion R; subst; cbn [in_ns]; try discriminate; contradiction. }
  assert (CL : clients E data <> Panic p) by (rewrite clients_panic; exact NC).
  repeat match goal with H : Forall _ (_ :: _) |- _ => apply Forall_cons_iff in H; let X := fresh "X" in destruct H as [X H] end.
  repeat (apply Forall_cons); [..| apply Forall_nil]; try tauto.
  - rewrite is_valid_panics_proof. intros [-> [_ [_ [H | [_ H]]]]]; [lia | contradiction].
  - rewrite prints_panics_proof. tauto.
  - unfold players_from_parsing. intros H. destruct (clients E data) as [[cs | e] | |]; cbn [bind] in H; try congruence.
    destruct (ping_per_player_number E data) as [[ps | e] | |]; cbn [bind] in H; try congruence.
    destruct (frags_per_player_name E data) as [m | |]; cbn [bind] in H; congruence.
  - apply UN.
  - unfold countdown_duration. destruct (serverinfo E data) as [r | |]; cbn [bind]; [| intros H; injection H as ->; tauto | discriminate].
    destruct (is_hoonymode _); [discriminate |]. destruct (find _ _); [apply UN | discriminate].
Qed.
