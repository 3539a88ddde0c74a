(** Proofs for Properties/Thin.v *)
From Coq Require Import Lia.
From Verif.Model Require Import Base Env Prot Message Prints Clients FragEvent Frags Flags Ping.
From Verif.Spec Require Import Occ Mvd Messages Obituary Score Flags Pings Join Thin.
From Verif.Proofs Require Import BaseFacts FrameFacts PrintFacts PrintProps ObituaryFacts ScoreFacts FlagFacts PingFacts TailFacts JoinFacts.
Open Scope N_scope.

Lemma thinned_wf : forall P fs gs, thinned P fs gs -> wf fs -> wf gs.
Proof.
  intros P fs gs T. induction T as [| f fs gs T IH | f fs gs NP T IH]; intros W; [constructor | |].
  - inversion W as [| x l F V]; subst. constructor; [exact F | exact (IH V)].
  - inversion W as [| x l F V]; subst. exact (IH V).
Qed.

Lemma thin_prints : forall E fs gs, wf fs -> thinned mute fs gs -> prints E (encode fs) = prints E (encode gs).
Proof.
  intros E fs gs W T. rewrite !prints_encode by (first [exact W | exact (thinned_wf _ _ _ T W)]). do 3 f_equal.
  unfold demo_messages. clear W. induction T as [| f fs gs T IH | f fs gs [ms [O F]] T IH]; [reflexivity | |]; cbn [map concat].
  - rewrite !filter_app, IH. reflexivity.
  - rewrite filter_app, IH. apply opens_with_messages in O. rewrite <- O.
    replace (filter has_text ms) with (@nil message); [reflexivity |]. clear O.
    induction F as [| m l H F I]; [reflexivity |]. cbn [filter]. unfold has_text at 1. rewrite H. exact I.
Qed.

Lemma thin_flags : forall E fs gs, wf fs -> thinned no_flag fs gs ->
  flag_events_per_player_name E (encode fs) = flag_events_per_player_name E (encode gs).
Proof.
  intros E fs gs W T. pose proof (thinned_wf _ _ _ T W) as V. unfold flag_events_per_player_name.
  destruct (announces_all E fs) as [a A]. destruct (announces_all E gs) as [a' A'].
  rewrite (whole_eq fs), (whole_eq gs), (flag_prints_quiet E fs [] a), (flag_prints_quiet E gs [] a'); auto; try exact I.
  cbn [bind]. replace (concat a') with (concat a); [reflexivity |].
  clear W V. revert a A a' A'. induction T as [| f fs gs T IH | f fs gs NP T IH]; intros a A a' A'.
  - inv A. inv A'. reflexivity.
  - inv A. inv A'. cbn [concat]. f_equal; [eapply announces_unique; eassumption | apply IH; assumption].
  - inv A. cbn [concat]. match goal with H : announces E f _ |- _ => destruct H as [[_ ->] | [O _]]; [| contradiction (NP O)] end.
    apply IH; assumption.
Qed.

Lemma thin_pings : forall E fs gs, wf fs -> thinned no_ping fs gs ->
  ping_per_player_number E (encode fs) = ping_per_player_number E (encode gs).
Proof.
  intros E fs gs W T. unfold ping_per_player_number. rewrite (whole_eq fs), (whole_eq gs).
  destruct (sample_quiet E fs [] W I) as [n ->]. destruct (sample_quiet E gs [] (thinned_wf _ _ _ T W) I) as [n' ->]. cbn [bind snd].
  replace (sampled gs) with (sampled fs); [reflexivity |]. unfold sampled. do 2 f_equal. clear W.
  induction T as [| f fs gs T IH | f fs gs NP T IH]; [reflexivity | |]; unfold ping_frames in *; cbn [map filter].
  - rewrite IH. reflexivity.
  - replace (ping_records (f_body f)) with (@nil (N * N)); [exact IH |]. symmetry. unfold ping_records.
    destruct (f_body f) as [| b r] eqn:B; [reflexivity |]. cbn [length ping_records_n].
    destruct r as [| p [| lo [| hi [| x r]]]]; try reflexivity. destruct (N.eqb_spec (n_of b) 36) as [Q | Q]; [| reflexivity].
    exfalso. apply (NP (p :: lo :: hi :: x :: r)). rewrite B. f_equal. apply n_of_inj. rewrite Q. reflexivity.
Qed.

Lemma no_obituary_none : forall f, no_obituary f -> obit_of f = [].
Proof.
  intros f H. unfold obit_of. pose proof (messages_opens (f_body f)) as O. destruct (messages (f_body f)) as [| m ms]; [reflexivity |].
  destruct O as [W [tail [B _]]]. inv W. destruct m as [l t]. cbn [m_level]. unfold has_text. cbn [m_text].
  destruct (N.eqb_spec (n_of l) 1) as [L | L]; [| rewrite Bool.andb_false_r; reflexivity].
  assert (l = x01) as -> by (apply n_of_inj; rewrite L; reflexivity).
  cbn [map concat] in B. rewrite <- app_assoc in B. rewrite (H t _ H2 B). reflexivity.
Qed.

Lemma thin_obituaries : forall fs gs, thinned no_obituary fs gs -> map fst (obituaries fs) = map fst (obituaries gs).
Proof.
  intros fs gs T. induction T as [| f fs gs T IH | f fs gs NP T IH]; [reflexivity | |]; rewrite !obituaries_cons, !map_app, ?map_map.
  - cbn [fst]. rewrite IH. reflexivity.
  - rewrite (no_obituary_none f NP). exact IH.
Qed.

Lemma thin_frags : forall E fs gs, wf fs -> all_named E fs -> thinned no_obituary fs gs ->
  frags_per_player_name E (encode fs) = frags_per_player_name E (encode gs).
Proof.
  intros E fs gs W A T. pose proof (thin_obituaries fs gs T) as O.
  assert (B : forall hs, map fst (obituaries hs) = map fst (obituaries fs) -> forall C,
    foldM (score_text E C) (reports hs) [] =
    foldM (fun tbl m => score_text E (Ret (Err EmptyString)) tbl (m, [])) (map fst (obituaries fs)) []).
  { intros hs H C. rewrite <- H. unfold reports. rewrite !foldM_map. apply foldM_ext. intros tbl [m s] I1. unfold score_text. cbn [fst snd].
    destruct (event_of E m) as [[| | | | | v] | msg] eqn:Ev; try reflexivity. exfalso.
    apply (in_map fst) in I1. rewrite H in I1. apply in_map_iff in I1. destruct I1 as [[m' s'] [Q I1]]. cbn [fst] in Q. subst m'.
    apply reads_iff in Ev. refine (A m s' _ v I1 _ Ev). apply trimmed_iff. reflexivity. }
  rewrite (whole_eq fs), (whole_eq gs). rewrite !frags_texts by (first [exact W | exact (thinned_wf _ _ _ T W) | exact I]).
  rewrite !B by auto. reflexivity.
Qed.

(** tests for the examples *)
Lemma mute_test : forall f, filter has_text (messages (f_body f)) = [] -> mute f.
Proof.
  intros f H. exists (messages (f_body f)). split; [apply messages_opens |]. induction (messages (f_body f)) as [| m l IH]; [constructor |].
  cbn [filter] in H. destruct (has_text m) eqn:T; [discriminate H |]. constructor; [| exact (IH H)].
  unfold has_text in T. destruct (m_text m); [reflexivity | discriminate T].
Qed.

Lemma no_obituary_test : forall f, obit_of f = [] -> no_obituary f.
Proof.
  intros f H text tail Z B. unfold obit_of in H. rewrite B, messages_cons in H by exact Z. cbn in H.
  destruct text; [reflexivity | discriminate H].
Qed.

Lemma no_flag_test : forall f, find (f_body f) (lit "flag") = None -> no_flag f.
Proof. intros f H. apply find_none. exact H. Qed.
