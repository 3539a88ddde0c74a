(** Keeping the score from the list of prints *)
From Coq Require Import Lia ZifyN ZifyNat ZifyBool.
From Verif.Model Require Import Base Env Prot Message Prints FragEvent Frags.
From Verif.Spec Require Import Occ Mvd Messages Obituary Score Retell.
From Verif.Proofs Require Import BaseFacts PrintFacts PrintProps ScoreProps.
Open Scope N_scope.

Lemma medium_iff : forall p, medium p = true <-> pr_id p = PiMedium.
Proof. intros p. unfold medium. destruct (print_id_dec (pr_id p) PiMedium); split; intros H; congruence. Qed.

Lemma level_medium : forall b, level_of b = PiMedium <-> n_of b = 1.
Proof. intros b. destruct b; vm_compute; split; intros H; try reflexivity; discriminate H. Qed.

Lemma filter_collapse : forall l,
  (forall a p q b, l = a ++ p :: q :: b -> pr_id p = PiMedium -> p <> q) ->
  filter medium (collapse print_dec l) = filter medium l.
Proof.
  induction l as [| x l IH]; intros H; [reflexivity |].
  assert (IH' : filter medium (collapse print_dec l) = filter medium l).
  { apply IH. intros a p q b E. apply (H (x :: a) p q b). rewrite E. reflexivity. }
  destruct l as [| y l]; [reflexivity |]. rewrite collapse_cons2. destruct (print_dec x y) as [-> | NE].
  - rewrite IH'. cbn [filter]. destruct (medium y) eqn:M; [| reflexivity]. exfalso.
    apply medium_iff in M. exact (H [] y y l eq_refl M eq_refl).
  - cbn [filter] in *. rewrite IH'. reflexivity.
Qed.

Lemma medium_rest : forall l, Forall (fun m' => has_text m' = true -> level_of (m_level m') <> PiMedium) l ->
  filter medium (map as_print (filter has_text l)) = [].
Proof.
  induction l as [| m l IH]; intros F; [reflexivity |]. inversion F as [| ? ? A B]; subst. cbn [filter].
  destruct (has_text m) eqn:T; [| exact (IH B)]. cbn [map filter].
  destruct (medium (as_print m)) eqn:M; [| exact (IH B)]. apply medium_iff in M. destruct (A eq_refl M).
Qed.

Lemma medium_obituaries : forall fs, one_each fs ->
  filter medium (map as_print (demo_messages fs)) = map (fun '(m, _) => as_print m) (obituaries fs).
Proof.
  unfold demo_messages. induction fs as [| f fs IH]; intros O; [reflexivity |].
  assert (O' : one_each fs) by (intros g m l I; apply O; right; exact I).
  cbn [map concat obituaries]. rewrite filter_app, map_app, filter_app, (IH O'), map_app. f_equal.
  destruct (messages (f_body f)) as [| m l] eqn:E; [reflexivity |].
  pose proof (medium_rest l (O f m l (or_introl eq_refl) E)) as R.
  cbn [filter]. destruct (has_text m); cbn [andb]; [| exact R]. cbn [map filter]. rewrite R.
  destruct (n_of (m_level m) =? 1) eqn:L.
  - replace (medium (as_print m)) with true; [reflexivity |]. symmetry. apply medium_iff, level_medium. lia.
  - replace (medium (as_print m)) with false; [reflexivity |]. symmetry. apply Bool.not_true_iff_false.
    intros M. apply medium_iff in M. apply level_medium in M. lia.
Qed.

Lemma retold : forall E fs rest ps, wf fs -> stops (len (encode fs ++ rest)) rest -> one_each fs -> no_echo fs ->
  prints E (encode fs ++ rest) = Ret ps ->
  filter medium ps = map (fun '(m, _) => as_print m) (obituaries fs).
Proof.
  intros E fs rest ps W S O R P. rewrite (prints_quiet E fs rest W S) in P. injection P as <-.
  rewrite filter_collapse by exact R. apply medium_obituaries. exact O.
Qed.

Lemma retell_proof : forall E fs rest ps per, wf fs -> stops (len (encode fs ++ rest)) rest ->
  len (encode fs ++ rest) < 2147483648 -> one_each fs -> no_echo fs ->
  prints E (encode fs ++ rest) = Ret ps ->
  (forall p t v, In p ps -> pr_id p = PiMedium -> trimmed (to_unicode E (pr_content p)) t -> ~ reads t (TeamkillByUnknown v)) ->
  Forall2 (fun p l => scored [] [] (to_unicode E (pr_content p)) l) (filter medium ps) per ->
  exists tbl, frags_per_player_name E (encode fs ++ rest) = Ret tbl /\ tabulates tbl (concat per).
Proof.
  intros E fs rest ps per W S L O R P A F. pose proof (retold E fs rest ps W S O R P) as RT.
  apply score_table_named_proof; try assumption.
  - intros m s t v I T. apply (A (as_print m)); [| | exact T].
    + assert (J : In (as_print m) (filter medium ps)).
      { rewrite RT. apply in_map_iff. exists (m, s). split; [reflexivity | exact I]. }
      apply filter_In in J. exact (proj1 J).
    + assert (J : In (as_print m) (filter medium ps)).
      { rewrite RT. apply in_map_iff. exists (m, s). split; [reflexivity | exact I]. }
      apply filter_In in J. apply medium_iff. exact (proj2 J).
  - rewrite RT in F. clear - F. remember (obituaries fs) as l. clear Heql fs. revert per F.
    induction l as [| [m s] l IH]; intros per F; inversion F; subst; constructor; auto.
Qed.

Lemma tables_equal : forall a b l, tabulates a l -> tabulates b l -> forall x, In x a <-> In x b.
Proof.
  assert (H : forall a b l, tabulates a l -> tabulates b l -> forall x, In x a -> In x b).
  { intros a b l [_ [KA VA]] [_ [KB VB]] [n v] I.
    assert (K : In n (map fst b)) by (apply KB, KA; apply (in_map fst) in I; exact I).
    apply in_map_iff in K. destruct K as [[n' v'] [E J]]. cbn [fst] in E. subst n'.
    rewrite (VA n v I), <- (VB n v' J). exact J. }
  intros a b l A B x. split; [exact (H a b l A B x) | exact (H b a l B A x)].
Qed.

Lemma same_prints_proof : forall E fs gs rest rest' ps,
  wf fs -> stops (len (encode fs ++ rest)) rest -> len (encode fs ++ rest) < 2147483648 -> one_each fs -> no_echo fs ->
  wf gs -> stops (len (encode gs ++ rest')) rest' -> len (encode gs ++ rest') < 2147483648 -> one_each gs -> no_echo gs ->
  prints E (encode fs ++ rest) = Ret ps -> prints E (encode gs ++ rest') = Ret ps ->
  (forall p t v, In p ps -> pr_id p = PiMedium -> trimmed (to_unicode E (pr_content p)) t -> ~ reads t (TeamkillByUnknown v)) ->
  exists a b, frags_per_player_name E (encode fs ++ rest) = Ret a /\ frags_per_player_name E (encode gs ++ rest') = Ret b /\
    forall x, In x a <-> In x b.
Proof.
  intros E fs gs rest rest' ps W S L O R W' S' L' O' R' P P' A.
  assert (X : exists per, Forall2 (fun p l => scored [] [] (to_unicode E (pr_content p)) l) (filter medium ps) per).
  { induction (filter medium ps) as [| p l [per IH]]; [exists []; constructor |].
    destruct (scored_exists_proof [] [] (to_unicode E (pr_content p))) as [x X]. exists (x :: per). constructor; assumption. }
  destruct X as [per F].
  destruct (retell_proof E fs rest ps per) as [a [HA TA]]; try assumption.
  destruct (retell_proof E gs rest' ps per) as [b [HB TB]]; try assumption.
  exists a, b. split; [exact HA |]. split; [exact HB |]. exact (tables_equal a b _ TA TB).
Qed.
