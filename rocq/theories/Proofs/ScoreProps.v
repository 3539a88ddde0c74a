(** The score table in terms of what the messages say. *)
From Coq Require Import Lia.
From Verif.Model Require Import Base Env Frame Clients FragEvent Frags.
From Verif.Spec Require Import Occ Mvd Messages Obituary Score.
From Verif.Proofs Require Import BaseFacts ScoreFacts WalkProps ObituaryFacts.

Lemma scored_iff : forall cs nums text l,
  scored cs nums text l <-> entries cs nums (frag_event_from (trim_end text)) l.
Proof.
  intros cs nums text l. unfold scored. split.
  - intros [t [T R]]. apply trimmed_iff in T. subst t. destruct R as [[e [R H]] | [N ->]].
    + apply reads_iff in R. rewrite R. exact H.
    + destruct (frag_event_from (trim_end text)) as [e | m] eqn:F; [| reflexivity].
      apply reads_iff in F. exfalso. exact (N e F).
  - intros H. exists (trim_end text). split; [apply trimmed_iff; reflexivity |].
    destruct (frag_event_from (trim_end text)) as [e | m] eqn:F.
    + left. exists e. split; [apply reads_iff; exact F | exact H].
    + right. split; [| exact H]. intros e R. apply reads_iff in R. congruence.
Qed.

Lemma Forall2_weaken : forall A B (P Q : A -> B -> Prop) l l', (forall a b, P a b -> Q a b) ->
  Forall2 P l l' -> Forall2 Q l l'.
Proof. intros A B P Q l l' H F. induction F; constructor; auto. Qed.

Lemma score_table_proof : forall E fs rest r per,
  wf fs -> stops (len (encode fs ++ rest)) rest -> len (encode fs ++ rest) < 2147483648 ->
  clients E (encode fs ++ rest) = Ret r ->
  Forall2 (fun '(m, s) l =>
             scored (match r with Ok cs => cs | Err _ => [] end) (nearby_updates m s)
                    (to_unicode E (m_text m)) l)
          (obituaries fs) per ->
  exists tbl, frags_per_player_name E (encode fs ++ rest) = Ret tbl /\ tabulates tbl (concat per).
Proof.
  intros E fs rest r per W S L C F. eapply frags_score_table_proof; eauto.
  eapply Forall2_weaken; [| exact F]. intros [m s] l H. apply scored_iff. exact H.
Qed.

Lemma score_table_named_proof : forall E fs rest per,
  wf fs -> stops (len (encode fs ++ rest)) rest -> len (encode fs ++ rest) < 2147483648 ->
  (forall m s t v, In (m, s) (obituaries fs) -> trimmed (to_unicode E (m_text m)) t ->
     ~ reads t (TeamkillByUnknown v)) ->
  Forall2 (fun '(m, s) l => scored [] [] (to_unicode E (m_text m)) l) (obituaries fs) per ->
  exists tbl, frags_per_player_name E (encode fs ++ rest) = Ret tbl /\ tabulates tbl (concat per).
Proof.
  intros E fs rest per W S L N F. eapply frags_score_table_named_proof; eauto.
  - intros m s v I X. apply reads_iff in X. refine (N m s _ v I _ X). apply trimmed_iff. reflexivity.
  - eapply Forall2_weaken; [| exact F]. intros [m s] l H. apply scored_iff. exact H.
Qed.

Lemma teamkill_proof : forall E fs rest r m s t victim,
  wf fs -> stops (len (encode fs ++ rest)) rest ->
  clients E (encode fs ++ rest) = Ret r ->
  obituaries fs = [(m, s)] ->
  trimmed (to_unicode E (m_text m)) t -> reads t (TeamkillByUnknown victim) ->
  let cs := match r with Ok cs => cs | Err _ => [] end in
  (forall k, charged cs victim (nearby_updates m s) k ->
     frags_per_player_name E (encode fs ++ rest) = Ret [(k, (-1)%Z)]) /\
  ((forall k, ~ charged cs victim (nearby_updates m s) k) ->
     frags_per_player_name E (encode fs ++ rest) = Ret []).
Proof.
  intros E fs rest r m s t victim W S C O T R. apply trimmed_iff in T. subst t. apply reads_iff in R.
  eapply anonymous_teamkill_proof; eauto.
Qed.

Lemma scored_exists_proof : forall cs nums text, exists l, scored cs nums text l.
Proof. intros cs nums text. eexists. apply scored_iff. apply entries_of_spec. Qed.

(** ** the exclusions in [plain] are needed *)
Lemma find_prefix : forall d p r, find (d ++ p ++ r) p <> None.
Proof. intros d p r H. apply find_none in H. apply H. exists d, r. reflexivity. Qed.

Lemma find_any_in : forall v T p, In p T -> occurs v p -> find_any v T <> None.
Proof.
  intros v T p P O H. unfold find_any in H. apply find_map_none in H. rewrite Forall_forall in H.
  specialize (H p P). apply find_none in H. contradiction.
Qed.

Lemma obituary_misread : forall y,
  (exists r, y = lit "cratered" ++ r) \/ (exists r, y = lit "died" ++ r) \/
  y = lit "suicides" \/ y = lit "stomps" \/ y = lit "squishes" ->
  exists p x, In p phrases /\ ~ In x20 x /\ has_two_names (ph_kind p) = true /\
    frag_event_from (obituary p x y) <> Ok (event (ph_kind p) x y).
Proof.
  assert (forall y q, In q X_DEATH -> (forall x, exists a b, x ++ lit " was nailed by " ++ y = a ++ q ++ b) ->
    exists p x, In p phrases /\ ~ In x20 x /\ has_two_names (ph_kind p) = true /\
    frag_event_from (obituary p x y) <> Ok (event (ph_kind p) x y)) as D.
  { intros y q Q O. exists (two KKilledBy " was nailed by " ""), (lit "bob").
    split; [vm_compute; tauto |]. split; [vm_compute; intros I; repeat (destruct I as [I | I]; [discriminate I |]); exact I |].
    split; [reflexivity |]. unfold frag_event_from.
    destruct (find_any _ X_DEATH) as [pos |] eqn:F; [discriminate |].
    exfalso. apply (find_any_in _ _ q Q) in F; [exact F |].
    destruct (O (lit "bob")) as [a [b E]]. exists a, b. unfold obituary, two. cbn [ph_before ph_after].
    change (lit "") with (@nil byte). rewrite app_nil_r. exact E. }
  intros y [[r ->] | [[r ->] | [-> | [-> | ->]]]].
  - apply (D _ (lit " cratered")); [vm_compute; tauto |]. intros x. exists (x ++ lit " was nailed by"), r.
    rewrite <- app_assoc. reflexivity.
  - apply (D _ (lit " died")); [vm_compute; tauto |]. intros x. exists (x ++ lit " was nailed by"), r.
    rewrite <- app_assoc. reflexivity.
  - exists (two KKilledBy " was nailed by " ""), (lit "bob"). split; [vm_compute; tauto |].
    split; [vm_compute; intros I; repeat (destruct I as [I | I]; [discriminate I |]); exact I |].
    split; [reflexivity |]. intros X. vm_compute in X. discriminate X.
  - exists (two KKills " rips " " a new one"), (lit "bob"). split; [vm_compute; tauto |].
    split; [vm_compute; intros I; repeat (destruct I as [I | I]; [discriminate I |]); exact I |].
    split; [reflexivity |]. intros X. vm_compute in X. discriminate X.
  - exists (two KKills " rips " " a new one"), (lit "bob"). split; [vm_compute; tauto |].
    split; [vm_compute; intros I; repeat (destruct I as [I | I]; [discriminate I |]); exact I |].
    split; [reflexivity |]. intros X. vm_compute in X. discriminate X.
Qed.
