(** The statements of [Properties/Walk.v], assembled from the lemmas about the walks. *)
From Coq Require Import Lia ZifyN ZifyNat ZifyBool.
From Verif.Model Require Import Base Env Prot Frame Message Prints Clients FragEvent Frags.
From Verif.Spec Require Import Occ Mvd Messages Score.
From Verif.Proofs Require Import BaseFacts FrameFacts PrintFacts PrintProps ScoreFacts.

Lemma opens_with_total : forall body, exists ms, opens_with body ms /\ forall ms', opens_with body ms' -> ms' = ms.
Proof.
  intros body. exists (messages body). split; [apply messages_opens |].
  intros ms' H. apply opens_with_messages. exact H.
Qed.

Lemma openings_messages : forall fs openings,
  Forall2 (fun f ms => opens_with (f_body f) ms) fs openings ->
  openings = map (fun f => messages (f_body f)) fs.
Proof.
  intros fs openings H. induction H as [| f ms fs o H F IH]; [reflexivity |].
  cbn [map]. rewrite IH. f_equal. apply opens_with_messages. exact H.
Qed.

Lemma prints_well_formed_proof : forall E fs rest openings,
  wf fs -> announced rest = None ->
  Forall2 (fun f ms => opens_with (f_body f) ms) fs openings ->
  prints E (encode fs ++ rest) =
  Ret (collapse print_dec (map as_print (filter has_text (concat openings)))).
Proof.
  intros E fs rest openings W A O. apply openings_messages in O. subst openings.
  rewrite prints_quiet; [reflexivity | exact W |]. unfold stops. rewrite A. exact I.
Qed.

Lemma walk_split_proof : forall data, exists fs rest,
  data = encode fs ++ rest /\ wf fs /\ no_frame rest /\
  forall fs' rest', data = encode fs' ++ rest' -> wf fs' -> no_frame rest' -> fs' = fs /\ rest' = rest.
Proof.
  intros data. destruct (decompose data) as [fs [rest [D [W N]]]]. exists fs, rest.
  split; [exact D |]. split; [exact W |]. split; [exact N |]. intros fs' rest' D' W' N'.
  apply decompose_unique; auto. congruence.
Qed.

Lemma prints_exact_proof : forall E fs rest, wf fs -> no_frame rest ->
  (stops (len (encode fs ++ rest)) rest ->
     prints E (encode fs ++ rest) = Ret (collapse print_dec (map as_print (demo_messages fs)))) /\
  (overruns (len (encode fs ++ rest)) rest -> prints E (encode fs ++ rest) = Panic PSlice) /\
  (stops (len (encode fs ++ rest)) rest \/ overruns (len (encode fs ++ rest)) rest).
Proof.
  intros E fs rest W N. split; [apply prints_quiet; exact W |]. split; [apply prints_crash; exact W |].
  apply rest_cases; [rewrite len_app; lia | exact N].
Qed.

Lemma frags_score_table_proof : forall E fs rest r per,
  wf fs -> stops (len (encode fs ++ rest)) rest -> len (encode fs ++ rest) < 2147483648 ->
  clients E (encode fs ++ rest) = Ret r ->
  Forall2 (fun '(m, s) l =>
             entries (match r with Ok cs => cs | Err _ => [] end) (nearby_updates m s)
                     (frag_event_from (trim_end (to_unicode E (m_text m)))) l)
          (obituaries fs) per ->
  exists tbl, frags_per_player_name E (encode fs ++ rest) = Ret tbl /\ tabulates tbl (concat per).
Proof.
  intros E fs rest r per W Q L C P.
  destruct (frags_table E fs rest r W Q L C) as [tbl [H [ND G]]]. exists tbl. split; [exact H |].
  rewrite (all_entries_spec E (cs_of r) fs per); [apply tabulates_of; assumption |].
  exact P.
Qed.

Lemma frags_score_table_named_proof : forall E fs rest per,
  wf fs -> stops (len (encode fs ++ rest)) rest -> len (encode fs ++ rest) < 2147483648 ->
  (forall m s v, In (m, s) (obituaries fs) ->
     frag_event_from (trim_end (to_unicode E (m_text m))) <> Ok (TeamkillByUnknown v)) ->
  Forall2 (fun '(m, s) l =>
             entries [] [] (frag_event_from (trim_end (to_unicode E (m_text m)))) l)
          (obituaries fs) per ->
  exists tbl, frags_per_player_name E (encode fs ++ rest) = Ret tbl /\ tabulates tbl (concat per).
Proof.
  intros E fs rest per W Q L A P.
  destruct (frags_table_of E [] fs (frags_per_player_name E (encode fs ++ rest))) as [tbl [H [ND G]]].
  - rewrite len_app in L. lia.
  - exact W.
  - apply frags_named; [exact W | exact Q |]. apply Forall_forall. intros [m s] I.
    unfold anonymous, event_of. specialize (A m s).
    destruct (frag_event_from (trim_end (to_unicode E (m_text m)))) as [[| | | | | v] | e]; try reflexivity.
    exfalso. apply (A v I). reflexivity.
  - exists tbl. split; [exact H |].
    rewrite (all_entries_spec E [] fs per); [apply tabulates_of; assumption |].
    clear -P A. induction P as [| [m s] l obs per H P IH]; constructor.
    + specialize (A m s). unfold event_of.
      destruct (frag_event_from (trim_end (to_unicode E (m_text m)))) as [[| | | | | v] | e]; try exact H.
      exfalso. apply (A v (or_introl eq_refl)). reflexivity.
    + apply IH. intros m' s' v I. apply A with s'. right. exact I.
Qed.

Lemma anonymous_teamkill_proof : forall E fs rest r m s victim,
  wf fs -> stops (len (encode fs ++ rest)) rest ->
  clients E (encode fs ++ rest) = Ret r ->
  obituaries fs = [(m, s)] ->
  frag_event_from (trim_end (to_unicode E (m_text m))) = Ok (TeamkillByUnknown victim) ->
  let cs := match r with Ok cs => cs | Err _ => [] end in
  (forall k, charged cs victim (nearby_updates m s) k ->
     frags_per_player_name E (encode fs ++ rest) = Ret [(k, (-1)%Z)]) /\
  ((forall k, ~ charged cs victim (nearby_updates m s) k) ->
     frags_per_player_name E (encode fs ++ rest) = Ret []).
Proof.
  intros E fs rest r m s victim W Q C O V cs. rewrite (frags_quiet E fs rest r W Q C).
  unfold all_entries. rewrite O. cbn [map concat]. unfold event_of. rewrite V. cbn [entries_of].
  fold (cs_of r) in cs. unfold cs.
  pose proof (killer_of_charged (cs_of r) victim (nearby_updates m s)) as K.
  destruct (killer_of (cs_of r) victim (nearby_updates m s)) as [k |].
  - split.
    + intros k' H. rewrite (charged_unique _ _ _ _ _ H K). reflexivity.
    + intros H. exfalso. apply (H k K).
  - split.
    + intros k' H. exfalso. apply (K k' H).
    + reflexivity.
Qed.

Lemma obituaries_in : forall fs m s, In (m, s) (obituaries fs) ->
  In m (demo_messages fs) /\ level_of (m_level m) = PiMedium.
Proof.
  induction fs as [| f fs IH]; intros m s H; [contradiction |]. cbn [obituaries] in H.
  unfold demo_messages. cbn [map concat]. rewrite filter_app.
  apply in_app_or in H. destruct H as [H | H].
  - destruct (messages (f_body f)) as [| m0 ms]; [contradiction |].
    destruct (has_text m0 && (n_of (m_level m0) =? 1)) eqn:T; [| contradiction].
    destruct H as [H | []]. inv H. apply andb_true_iff in T. destruct T as [T1 T2]. split.
    + apply in_or_app. left. cbn [filter]. rewrite T1. left. reflexivity.
    + unfold level_of. replace (n_of (m_level m) =? 0) with false by lia. rewrite T2. reflexivity.
  - apply IH in H. destruct H as [H1 H2]. split; [| exact H2]. apply in_or_app. right. exact H1.
Qed.

Lemma obituaries_printed_proof : forall E fs rest ps m s,
  wf fs -> no_frame rest -> prints E (encode fs ++ rest) = Ret ps ->
  In (m, s) (obituaries fs) -> In (mkPrint PiMedium (m_text m)) ps.
Proof.
  intros E fs rest ps m s W N P H.
  destruct (rest_cases (len (encode fs ++ rest)) rest) as [S | O]; [rewrite len_app; lia | exact N | |].
  - rewrite prints_quiet in P by assumption. inv P. apply obituaries_in in H. destruct H as [H L].
    apply collapse_in. apply in_map_iff. exists m. split; [| exact H]. unfold as_print. rewrite L. reflexivity.
  - rewrite prints_crash in P by assumption. discriminate.
Qed.
