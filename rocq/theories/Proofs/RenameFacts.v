(** Proofs for Properties/Rename.v *)
From Coq Require Import Lia ZifyN ZifyNat ZifyBool.
From Verif.Model Require Import Base Env Clients FragEvent Frags Flags Ping.
From Verif.Spec Require Import Occ Mvd Messages Obituary Times Wrap Score Flags Pings Join Rename.
From Verif.Proofs Require Import BaseFacts ObituaryFacts ScoreFacts ScoreProps FlagFacts PingFacts JoinFacts WrapFacts ShuffleFacts.
From Verif.Proofs Require NameFacts.
Open Scope N_scope.

Lemma rows_renamed : forall K V (f : K -> K) (t t' : list (K * V)), injective f -> NoDup (map fst t) -> NoDup (map fst t') ->
  (forall n, In n (map fst t') <-> exists m, In m (map fst t) /\ n = f m) ->
  (forall m v v', In (m, v) t -> In (f m, v') t' -> v = v') -> same_rows (rename_rows f t) t'.
Proof.
  intros K V f t t' INJ N N' KK Q. split; [| split; [exact N' |]].
  - assert (map fst (rename_rows f t) = map f (map fst t)) as -> by (unfold rename_rows; rewrite !map_map; reflexivity).
    clear -N INJ. induction (map fst t) as [| x l IH]; [constructor |]. inv N. cbn [map]. constructor; [| apply IH; assumption].
    intros X. apply in_map_iff in X. destruct X as [y [Y X]]. apply INJ in Y. subst y. contradiction.
  - intros k v. unfold rename_rows. rewrite in_map_iff. split.
    + intros [[m w] [X X']]. cbn [fst snd] in X. injection X as <- <-.
      assert (In (f m) (map fst t')) as J by (apply KK; exists m; split; [apply in_rows; eauto | reflexivity]).
      apply in_rows in J. destruct J as [v' J]. rewrite (Q m w v' X' J). exact J.
    + intros X. assert (In k (map fst t')) as J by (apply in_rows; eauto). apply KK in J. destruct J as [m [J ->]].
      apply in_rows in J. destruct J as [w J]. exists (m, w). cbn [fst snd]. pose proof (Q m w v J X). subst w. split; [reflexivity | exact J].
Qed.

Lemma keys_rename : forall K V (f : K -> K) (l : list (K * V)) n, In n (map fst (rename_rows f l)) <-> exists m, In m (map fst l) /\ n = f m.
Proof.
  intros K V f l n. unfold rename_rows. rewrite map_map. cbn [fst]. rewrite in_map_iff. split.
  - intros [[m v] [<- I]]. exists m. split; [apply in_rows; eauto | reflexivity].
  - intros [m [I ->]]. apply in_rows in I. destruct I as [v I]. exists (m, v). auto.
Qed.

Section Rename.
  Context (f : str -> str).
  Hypothesis INJ : injective f.

  Lemma beq_f : forall a b, beq (f a) (f b) = beq a b.
  Proof.
    intros a b. destruct (beq a b) eqn:Q.
    - apply beq_eq in Q. subst. apply beq_refl.
    - apply beq_neq. apply beq_neq in Q. intros X. apply Q. apply INJ. exact X.
  Qed.

  Lemma total_rename : forall n l, Score.total (f n) (rename_rows f l) = Score.total n l.
  Proof.
    intros n l. unfold Score.total. f_equal. induction l as [| [k v] l IH]; [reflexivity |].
    cbn [rename_rows map filter fst snd]. rewrite beq_f. destruct (beq k n); cbn [map snd]; [f_equal |]; exact IH.
  Qed.

  Lemma first_with_map : forall A B (g : A -> B) (P : A -> Prop) (Q : B -> Prop) l b,
    (forall a, Q (g a) <-> P a) -> first_with Q (map g l) b <-> exists a, first_with P l a /\ b = g a.
  Proof.
    intros A B g P Q l b H. split.
    - intros [l1 [l2 [X [Qb F]]]]. apply map_eq_app in X. destruct X as [k1 [k2 [-> [<- X]]]].
      apply map_eq_cons in X. destruct X as [a [k3 [-> [<- <-]]]]. exists a. split; [| reflexivity].
      exists k1, k3. split; [reflexivity |]. split; [apply H; exact Qb |]. rewrite Forall_map in F.
      eapply Forall_impl; [| exact F]. cbn beta. intros x NX PX. apply NX. apply H. exact PX.
    - intros [a [[l1 [l2 [-> [Pa F]]]] ->]]. exists (map g l1), (map g l2). rewrite map_app. split; [reflexivity |].
      split; [apply H; exact Pa |]. rewrite Forall_map. eapply Forall_impl; [| exact F]. cbn beta.
      intros x NX QX. apply NX. apply H. exact QX.
  Qed.

  Lemma first_with_iff : forall A (P Q : A -> Prop) l a, (forall x, P x <-> Q x) -> first_with P l a <-> first_with Q l a.
  Proof.
    intros A P Q l a H. unfold first_with. split; intros [l1 [l2 [-> [Pa F]]]]; exists l1, l2; (split; [reflexivity |]);
      (split; [apply H; exact Pa |]); (eapply Forall_impl; [| exact F]); cbn beta; intros x NX QX; apply NX, H, QX.
  Qed.

  Lemma charged_rename : forall cs v nums k,
    charged (map (rename_client f) cs) (f v) nums k <-> exists k0, charged cs v nums k0 /\ k = f k0.
  Proof.
    intros cs v nums k. unfold charged.
    assert (NAME : forall x, c_name (rename_client f x) = f v <-> c_name x = v).
    { intros x. cbn. split; [apply INJ | congruence]. }
    assert (NUM : forall n x, c_number (rename_client f x) = n <-> c_number x = n) by reflexivity.
    assert (GOOD : forall w n, (exists c, first_with (fun c => c_number c = n) (map (rename_client f) cs) c
                /\ c_team c = c_team (rename_client f w) /\ c_name c <> f v) <->
              exists c, first_with (fun c => c_number c = n) cs c /\ c_team c = c_team w /\ c_name c <> v).
    { intros w n. split.
      - intros [c [C [T D]]]. apply (first_with_map _ _ _ _ _ _ _ (NUM n)) in C. destruct C as [c0 [C ->]].
        exists c0. split; [exact C |]. split; [exact T |]. intros X. apply D. apply NAME. exact X.
      - intros [c [C [T D]]]. exists (rename_client f c). split; [apply (first_with_map _ _ _ _ _ _ _ (NUM n)); eauto |].
        split; [exact T |]. intros X. apply D. apply NAME. exact X. }
    split.
    - intros [w [W [n [c [G [C K]]]]]]. apply (first_with_map _ _ _ _ _ _ _ NAME) in W. destruct W as [w0 [W ->]].
      apply (first_with_map _ _ _ _ _ _ _ (NUM n)) in C. destruct C as [c0 [C ->]].
      exists (c_name c0). split; [| symmetry; exact K]. exists w0. split; [exact W |]. exists n, c0.
      split; [| split; [exact C | reflexivity]]. eapply first_with_iff; [| exact G]. intros x. symmetry. apply GOOD.
    - intros [k0 [[w [W [n [c [G [C <-]]]]]] ->]]. exists (rename_client f w).
      split; [apply (first_with_map _ _ _ _ _ _ _ NAME); eauto |]. exists n, (rename_client f c).
      split; [| split; [apply (first_with_map _ _ _ _ _ _ _ (NUM n)); eauto | reflexivity]].
      eapply first_with_iff; [| exact G]. intros x. apply GOOD.
  Qed.

  Lemma entries_rename : forall cs nums p x y l,
    entries cs nums (Ok (event (ph_kind p) x y)) l ->
    entries (map (rename_client f) cs) nums (Ok (event (ph_kind p) (f x) (if has_two_names (ph_kind p) then f y else []))) (rename_rows f l).
  Proof.
    intros cs nums p x y l H. destruct (ph_kind p); cbn [event has_two_names entries] in *; try (subst l; reflexivity).
    destruct H as [[k [C ->]] | [N ->]].
    - left. exists (f k). split; [| reflexivity]. apply charged_rename. eauto.
    - right. split; [| reflexivity]. intros k C. apply charged_rename in C. destruct C as [k0 [C _]]. exact (N k0 C).
  Qed.

  Lemma says_scored : forall E text p x y cs nums l, says E text p x y ->
    scored cs nums (to_unicode E text) l <-> entries cs nums (Ok (event (ph_kind p) x y)) l.
  Proof.
    intros E text p x y cs nums l [P [NX [ONE T]]]. pose proof (NameFacts.readable_reads p x y P NX ONE) as R. split.
    - intros [t [T' [[e [R' H]] | [N _]]]]; assert (t = obituary p x y) by (apply trimmed_iff in T; apply trimmed_iff in T'; congruence); subst t.
      + apply reads_iff in R. apply reads_iff in R'. rewrite R in R'. injection R' as <-. exact H.
      + contradiction (N _ R).
    - intros H. exists (obituary p x y). split; [exact T |]. left. eauto.
  Qed.

  Lemma nothing_scored : forall E text cs nums l, says_nothing E text -> scored cs nums (to_unicode E text) l <-> l = [].
  Proof.
    intros E text cs nums l H. split.
    - intros [t [T [[e [R _]] | [_ ->]]]]; [contradiction (H t e T R) | reflexivity].
    - intros ->. exists (trim_end (to_unicode E text)). assert (T : trimmed (to_unicode E text) (trim_end (to_unicode E text))) by (apply trimmed_iff; reflexivity).
      split; [exact T |]. right. split; [| reflexivity]. intros e. apply H. exact T.
  Qed.

  Lemma leaves_rename : forall l, score_leaves (rename_rows f l) <-> score_leaves l.
  Proof.
    intros l. split.
    - intros [a [b [n [Q H]]]]. unfold rename_rows in Q. apply map_eq_app in Q. destruct Q as [a0 [b0 [-> [<- <-]]]].
      fold (rename_rows f a0) in H.
      destruct (in_dec bytes_eq_dec n (map fst (rename_rows f a0))) as [I | I].
      + apply keys_rename in I. destruct I as [m [_ ->]]. rewrite total_rename in H. exists a0, b0, m. auto.
      + exfalso. apply H. unfold Score.total. replace (filter _ _) with (@nil (str * Z)); [unfold fits32; cbn; lia |].
        symmetry. clear H. revert I. induction (rename_rows f a0) as [| [k v] r IH]; [reflexivity |]. cbn [map fst In filter]. intros I.
        replace (beq k n) with false; [apply IH; intros X; apply I; right; exact X |]. symmetry. apply beq_neq. intros ->. apply I. left. reflexivity.
    - intros [a [b [n [-> H]]]]. exists (rename_rows f a), (rename_rows f b), (f n). unfold rename_rows. rewrite map_app.
      split; [reflexivity |]. fold (rename_rows f a). rewrite total_rename. exact H.
  Qed.

  Lemma tabulates32_rename : forall t t' l, tabulates32 t l -> tabulates32 t' (rename_rows f l) -> same_rows (rename_rows f t) t'.
  Proof.
    intros t t' l [N [K V]] [N' [K' V']]. apply rows_renamed; auto.
    - intros n. rewrite K', keys_rename. split; intros [m [I ->]]; exists m; (split; [apply K; exact I | reflexivity]).
    - intros m v v' I I'. apply V in I. apply V' in I'. rewrite total_rename in I'. eapply signed32_unique; eassumption.
  Qed.

  Lemma frags_renamed_proof : forall E fs fs' rest rest' cs, wf fs -> wf fs' ->
    stops (len (encode fs ++ rest)) rest -> stops (len (encode fs' ++ rest')) rest' ->
    clients E (encode fs ++ rest) = Ret (Ok cs) -> clients E (encode fs' ++ rest') = Ret (Ok (map (rename_client f) cs)) ->
    Forall2 (same_death E f) (obituaries fs) (obituaries fs') ->
    renamed f (frags_per_player_name E (encode fs ++ rest)) (frags_per_player_name E (encode fs' ++ rest')).
  Proof.
    intros E fs fs' rest rest' cs W W' S S' C C' D.
    assert (exists per, Forall2 (fun '(m, s) l => scored cs (nearby_updates m s) (to_unicode E (m_text m)) l) (obituaries fs) per /\
      Forall2 (fun '(m, s) l => scored (map (rename_client f) cs) (nearby_updates m s) (to_unicode E (m_text m)) l) (obituaries fs') (map (rename_rows f) per))
      as [per [F F']].
    { clear -D INJ. induction D as [| [m s] [m' s'] l l' H D [per [F F']]]; [exists []; split; constructor |].
      destruct H as [[p [x [y [X [Y NB]]]]] | [X Y]]; cbn [fst snd] in *.
      - destruct (scored_exists_proof cs (nearby_updates m s) (to_unicode E (m_text m))) as [e G].
        exists (e :: per). split; [constructor; assumption |]. cbn [map]. constructor; [| exact F'].
        apply (says_scored E (m_text m') p _ _ _ _ _ Y). rewrite NB. apply entries_rename. apply (says_scored E (m_text m) p x y); assumption.
      - exists ([] :: per). split; [constructor; [| assumption] | cbn [map]; constructor; [| assumption]]; apply nothing_scored; auto. }
    assert (concat (map (rename_rows f) per) = rename_rows f (concat per)) as Q.
    { unfold rename_rows. rewrite concat_map. reflexivity. }
    destruct (scores_any_proof E fs rest (Ok cs) per W S C F) as [[CK [L ->]] | [NL [t [-> T]]]];
      destruct (scores_any_proof E fs' rest' (Ok (map (rename_client f) cs)) _ W' S' C' F') as [[CK' [L' ->]] | [NL' [t' [-> T']]]]; rewrite Q in *.
    - reflexivity.
    - exfalso. apply (NL' CK). apply leaves_rename. exact L.
    - exfalso. apply (NL CK'). apply leaves_rename. exact L'.
    - cbn [renamed]. eapply tabulates32_rename; eassumption.
  Qed.

  (** *** Flags *)
  Definition rename_deeds (l : list (deed * str)) : list (deed * str) := map (fun x => (fst x, f (snd x))) l.

  Lemma times_rename : forall k n l, times k (f n) (rename_deeds l) = times k n l.
  Proof.
    intros k n l. unfold times. induction l as [| [d m] l IH]; [reflexivity |]. cbn [rename_deeds map filter fst snd].
    rewrite beq_f. destruct (deed_eqb d k && beq m n); [rewrite !len_cons; f_equal |]; exact IH.
  Qed.

  Lemma deeds_keys : forall l n, In n (map snd (rename_deeds l)) <-> exists m, In m (map snd l) /\ n = f m.
  Proof.
    intros l n. unfold rename_deeds. rewrite map_map. cbn [snd]. rewrite in_map_iff. split.
    - intros [[d m] [<- I]]. exists m. split; [apply in_map_iff; exists (d, m); auto | reflexivity].
    - intros [m [I ->]]. apply in_map_iff in I. destruct I as [[d m'] [<- I]]. exists (d, m'). auto.
  Qed.

  Lemma counts_rename : forall t t' l, counts t l -> counts t' (rename_deeds l) -> same_rows (rename_rows f t) t'.
  Proof.
    intros t t' l [N [K V]] [N' [K' V']]. apply rows_renamed; auto.
    - intros n. rewrite K', deeds_keys. split; intros [m [I ->]]; exists m; (split; [apply K; exact I | reflexivity]).
    - intros m v v' I I'.
      assert (H : forall k, counter k v = counter k v').
      { intros k. rewrite (V _ _ k I), (V' _ _ k I'), times_rename. reflexivity. }
      pose proof (H Captures). pose proof (H Defends). pose proof (H DefendsCarrierHard).
      pose proof (H DefendsCarrier). pose proof (H Takes). pose proof (H Returns). pose proof (H Assists).
      destruct v, v'. cbn in *. congruence.
  Qed.
End Rename.

Lemma carry_texts : forall E fs l, carry_all E fs l -> exists texts ds, Forall2 (announces E) fs texts /\
  Forall2 (fun t l => tells_all (to_unicode E t) l) (concat texts) ds /\ concat ds = l.
Proof.
  intros E fs l [ls [-> F]]. induction F as [| f l fs deeds C F IH].
  - exists [], []. repeat constructor.
  - destruct IH as [texts [ds [A [T Q]]]]. destruct C as [[N ->] | [k [name [C ->]]]].
    + exists ([] :: texts), ds. split; [constructor; [left; auto | exact A] |]. split; [exact T | exact Q].
    + destruct (carries_announces E f k name C) as [t [A' T']].
      exists ([t] :: texts), ([(k, name)] :: ds). split; [constructor; assumption |].
      split; [constructor; assumption |]. cbn [concat]. rewrite Q. reflexivity.
Qed.

Definition all_kinds : list deed := [Captures; Defends; DefendsCarrierHard; DefendsCarrier; Takes; Returns; Assists].

Lemma times_dec : forall l, (forall k name, times k name l < 256) \/ exists k name, 256 <= times k name l.
Proof.
  intros l.
  destruct (forallb (fun n => forallb (fun k => times k n l <? 256) all_kinds) (map snd l)) eqn:Q.
  - left. intros k name. destruct (in_dec bytes_eq_dec name (map snd l)) as [I | I]; [| rewrite times_small by exact I; lia].
    rewrite forallb_forall in Q. specialize (Q name I). rewrite forallb_forall in Q. specialize (Q k). apply N.ltb_lt. apply Q.
    destruct k; cbn; tauto.
  - right. assert (exists n, In n (map snd l) /\ forallb (fun k => times k n l <? 256) all_kinds = false) as [n [_ H]].
    { clear -Q. revert Q. generalize (map snd l) as r. induction r as [| x r IH]; intros Q; [discriminate |]. cbn [forallb] in Q.
      destruct (forallb _ all_kinds) eqn:X; [| exists x; split; [left; reflexivity | exact X]].
      cbn [andb] in Q. destruct (IH Q) as [n [I H]]. exists n. split; [right; exact I | exact H]. }
    assert (exists k, (times k n l <? 256) = false) as [k K].
    { clear -H. revert H. generalize all_kinds as r. induction r as [| x r IH]; intros H; [discriminate |]. cbn [forallb] in H.
      destruct (times x n l <? 256) eqn:X; [| exists x; exact X]. apply IH. exact H. }
    exists k, n. apply N.ltb_ge. exact K.
Qed.

Lemma flags_renamed_proof : forall f, injective f -> forall E fs fs' rest rest' l, wf fs -> wf fs' ->
  stops (len (encode fs ++ rest)) rest -> stops (len (encode fs' ++ rest')) rest' ->
  carry_all E fs l -> carry_all E fs' (map (fun x => (fst x, f (snd x))) l) ->
  renamed f (flag_events_per_player_name E (encode fs ++ rest)) (flag_events_per_player_name E (encode fs' ++ rest')).
Proof.
  intros f INJ E fs fs' rest rest' l W W' S S' C C'. fold (rename_deeds f l) in C'.
  destruct (carry_texts E fs l C) as [x [d [A [T <-]]]]. destruct (carry_texts E fs' _ C') as [x' [d' [A' [T' Q]]]].
  destruct (checked E) eqn:CK; [destruct (times_dec (concat d)) as [B | [k [n B]]] |].
  - destruct (flags_counted_proof E fs rest x d W S A T (or_intror B)) as [t [-> H]].
    destruct (flags_counted_proof E fs' rest' x' d' W' S' A' T') as [t' [-> H']].
    { right. rewrite Q. intros k n. destruct (in_dec bytes_eq_dec n (map snd (rename_deeds f (concat d)))) as [I | I].
      - apply (deeds_keys f INJ) in I. destruct I as [m [_ ->]]. rewrite (times_rename f INJ). apply B.
      - rewrite times_small by exact I. lia. }
    rewrite Q in H'. cbn [renamed]. eapply counts_rename; eassumption.
  - rewrite (flags_overflow_proof E fs rest x d), (flags_overflow_proof E fs' rest' x' d'); auto; [reflexivity | |eauto].
    exists k, (f n). rewrite Q, (times_rename f INJ). exact B.
  - destruct (flags_counted_proof E fs rest x d W S A T (or_introl CK)) as [t [-> H]].
    destruct (flags_counted_proof E fs' rest' x' d' W' S' A' T' (or_introl CK)) as [t' [-> H']].
    rewrite Q in H'. cbn [renamed]. eapply counts_rename; eassumption.
Qed.

(** *** Pings *)
Section Numbers.
  Context (f : N -> N).
  Hypothesis INJ : injective f.

  Lemma records_renamed : forall a b, same_pings f a b -> ping_records (f_body b) = rename_rows f (ping_records (f_body a)).
  Proof.
    intros a b [us [us' [tail [tail' [W [-> [T [-> [T' F]]]]]]]]].
    assert (Forall wf_ping us') as W'.
    { clear -F W. induction F as [| u u' us us' [_ H] F IH]; [constructor |]. inv W. constructor; [| apply IH; assumption].
      unfold wf_ping in *. rewrite H. assumption. }
    rewrite !ping_records_encode by assumption. clear -F. induction F as [| u u' us us' [H H'] F IH]; [reflexivity |].
    cbn [map rename_rows fst snd]. rewrite H, H'. f_equal. exact IH.
  Qed.

  Lemma sampled_renamed : forall fs fs', Forall2 (same_pings f) fs fs' -> sampled fs' = rename_rows f (sampled fs) /\
    len (ping_frames fs') = len (ping_frames fs).
  Proof.
    intros fs fs' F.
    assert (ping_frames fs' = map (rename_rows f) (ping_frames fs)) as Q.
    { unfold ping_frames. induction F as [| a b fs fs' H F IH]; [reflexivity |]. cbn [map filter].
      rewrite (records_renamed a b H). destruct (ping_records (f_body a)) as [| x r]; cbn [rename_rows map is_empty negb]; [exact IH |].
      f_equal. exact IH. }
    unfold sampled. rewrite Q. split; [| apply len_map]. unfold rename_rows. rewrite concat_map, firstn_map. reflexivity.
  Qed.

  Lemma pings_of_renamed : forall p l, pings_of (f p) (rename_rows f l) = pings_of p l.
  Proof.
    intros p l. unfold pings_of. induction l as [| [q v] l IH]; [reflexivity |]. cbn [rename_rows map filter fst snd].
    destruct (N.eqb_spec q p) as [-> | D].
    - rewrite N.eqb_refl. cbn [map snd]. f_equal. exact IH.
    - destruct (N.eqb_spec (f q) (f p)) as [X | _]; [contradiction (D (INJ _ _ X)) | exact IH].
  Qed.

  Lemma pings_of_none : forall p l, ~ In p (map fst l) -> pings_of p l = [].
  Proof.
    intros p l H. unfold pings_of. induction l as [| [q v] l IH]; [reflexivity |]. cbn [map fst In filter] in *.
    destruct (N.eqb_spec q p) as [-> | D]; [exfalso; apply H; left; reflexivity |]. apply IH. intros X. apply H. right. exact X.
  Qed.

  Lemma big_renamed : forall l, (exists p, 65536 <= sum (pings_of p (rename_rows f l))) <-> exists p, 65536 <= sum (pings_of p l).
  Proof.
    intros l. split; intros [p H].
    - destruct (in_dec N.eq_dec p (map fst (rename_rows f l))) as [I | I].
      + apply keys_rename in I. destruct I as [m [_ ->]]. rewrite pings_of_renamed in H. eauto.
      + rewrite pings_of_none in H by exact I. cbn in H. lia.
    - exists (f p). rewrite pings_of_renamed. exact H.
  Qed.

  Lemma averages_renamed : forall t t' l, averages16 t l -> averages16 t' (rename_rows f l) -> same_rows (rename_rows f t) t'.
  Proof.
    intros t t' l [N1 [K V]] [N2 [K' V']]. apply rows_renamed; auto.
    - intros n. rewrite K', keys_rename. split; intros [m [I ->]]; exists m; (split; [apply K; exact I | reflexivity]).
    - intros m v v' I I'. apply V in I. apply V' in I'. rewrite pings_of_renamed in I'.
      destruct I as [s [S ->]], I' as [s' [S' ->]]. apply low_part_unique in S; [| lia]. apply low_part_unique in S'; [| lia]. congruence.
  Qed.

  Lemma pings_renamed_proof : forall E fs fs' rest rest', wf fs -> wf fs' -> sampling_ends fs rest -> sampling_ends fs' rest' ->
    Forall2 (same_pings f) fs fs' ->
    renamed_result f (ping_per_player_number E (encode fs ++ rest)) (ping_per_player_number E (encode fs' ++ rest')).
  Proof.
    intros E fs fs' rest rest' W W' S S' F. destruct (sampled_renamed fs fs' F) as [Q _].
    destruct (sampled fs) as [| x r] eqn:D.
    - rewrite (pings_none_proof E fs rest W S D), (pings_none_proof E fs' rest' W' S' Q). reflexivity.
    - rewrite <- D in Q. assert (NE : sampled fs <> []) by (rewrite D; discriminate).
      assert (NE' : sampled fs' <> []) by (rewrite Q, D; discriminate).
      destruct (pings_any_proof E fs rest W S NE) as [[CK [B ->]] | [B [t [-> T]]]];
        destruct (pings_any_proof E fs' rest' W' S' NE') as [[CK' [B' ->]] | [B' [t' [-> T']]]]; rewrite Q in *.
      + reflexivity.
      + exfalso. destruct B as [p B]. specialize (B' CK (f p)). rewrite pings_of_renamed in B'. lia.
      + exfalso. apply (proj1 (big_renamed (sampled fs))) in B'. destruct B' as [p B']. specialize (B CK' p). lia.
      + cbn [renamed_result]. eapply averages_renamed; eassumption.
  Qed.
End Numbers.
