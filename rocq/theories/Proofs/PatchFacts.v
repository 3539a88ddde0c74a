(** Proofs for Properties/Patches.v *)
From Coq Require Import Lia ZifyN ZifyNat ZifyBool Permutation.
From Verif.Model Require Import Base Env Message Prints Flags Frags Ping.
From Verif.Spec Require Import Occ Mvd Messages Obituary Score Flags Pings Join Wrap Damage.
From Verif.Proofs Require Import BaseFacts FrameFacts PrintFacts PrintProps WalkProps ScoreFacts FlagFacts PingFacts JoinFacts WrapFacts TailFacts.
From Verif.Proofs Require SpliceFacts.

Lemma patched_frames : forall old new fs gs, patched old new fs gs -> exists c, Permutation fs (c ++ old) /\ Permutation gs (c ++ new).
Proof.
  intros old new fs gs P. induction P as [| old new f fs gs _ [c [A B]] | old new f fs gs _ [c [A B]] | old new g fs gs _ [c [A B]]].
  - exists []. split; constructor.
  - exists (f :: c). split; cbn [app]; constructor; assumption.
  - exists c. split; [| exact B]. rewrite A. apply Permutation_middle.
  - exists c. split; [exact A |]. rewrite B. apply Permutation_middle.
Qed.

(** ** Prints *)
Section Collapse.
  Context {A : Type} (dec : forall x y : A, {x = y} + {x <> y}) (keep : A -> bool).
  Lemma collapse_filter : forall l, collapse dec (filter keep (collapse dec l)) = collapse dec (filter keep l).
  Proof.
    intros l. induction l as [| x l IH]; [reflexivity |]. destruct l as [| y l]; [reflexivity |].
    rewrite collapse_cons2. destruct (dec x y) as [<- | N].
    - rewrite IH. cbn [filter]. destruct (keep x); [| reflexivity]. rewrite collapse_cons2. destruct (dec x x); [reflexivity | contradiction].
    - change (filter keep (x :: collapse dec (y :: l))) with (if keep x then x :: filter keep (collapse dec (y :: l)) else filter keep (collapse dec (y :: l))).
      change (filter keep (x :: y :: l)) with (if keep x then x :: filter keep (y :: l) else filter keep (y :: l)).
      destruct (keep x); [| exact IH].
      remember (filter keep (collapse dec (y :: l))) as u. remember (filter keep (y :: l)) as v. clear -IH.
      destruct u as [| a u], v as [| b v].
      + reflexivity.
      + destruct (collapse_head dec v b) as [w H]. rewrite H in IH. discriminate.
      + destruct (collapse_head dec u a) as [w H]. rewrite H in IH. discriminate.
      + rewrite !collapse_cons2, IH. destruct (collapse_head dec u a) as [w H]. destruct (collapse_head dec v b) as [w' H'].
        rewrite IH, H' in H. inversion H. subst b. reflexivity.
  Qed.
End Collapse.

Lemma demo_messages_app : forall a b, demo_messages (a ++ b) = demo_messages a ++ demo_messages b.
Proof. intros a b. unfold demo_messages. rewrite map_app, concat_app, filter_app. reflexivity. Qed.

Lemma patched_prints_proof : forall E old new fs gs keep p q po pn, patched old new fs gs -> wf fs -> wf gs ->
  prints E (encode fs) = Ret p -> prints E (encode gs) = Ret q -> prints E (encode old) = Ret po -> prints E (encode new) = Ret pn ->
  (forall x, In x po \/ In x pn -> keep x = false) ->
  collapse print_dec (filter keep p) = collapse print_dec (filter keep q).
Proof.
  intros E old new fs gs keep p q po pn P W V Hp Hq Ho Hn K.
  assert (G : forall l r, wf l -> prints E (encode l) = Ret r -> r = collapse print_dec (map as_print (demo_messages l))).
  { intros l r L H. rewrite (whole_eq l) in H. rewrite prints_quiet in H by (try assumption; exact Logic.I). congruence. }
  assert (WO : wf old /\ wf new).
  { destruct (patched_frames _ _ _ _ P) as [c [A B]]. apply (Permutation_Forall A) in W. apply (Permutation_Forall B) in V.
    apply Forall_app in W, V. split; [apply W | apply V]. }
  destruct WO as [WO WN]. apply G in Hp, Hq, Ho, Hn; try assumption. subst p q po pn. rewrite !collapse_filter. f_equal.
  assert (K' : forall m, In m (demo_messages old) \/ In m (demo_messages new) -> keep (as_print m) = false).
  { intros m I. apply K. rewrite !collapse_in, !in_map_iff. destruct I as [I | I]; [left | right]; exists m; auto. }
  clear -P K'. induction P as [| old new f fs gs _ IH | old new f fs gs _ IH | old new g fs gs _ IH].
  - reflexivity.
  - change (f :: fs) with ([f] ++ fs). change (f :: gs) with ([f] ++ gs). rewrite !demo_messages_app, !map_app, !filter_app, IH by exact K'. reflexivity.
  - change (f :: fs) with ([f] ++ fs). change (f :: old) with ([f] ++ old) in K'. rewrite demo_messages_app in *. rewrite map_app, filter_app.
    rewrite IH. 2: { intros m I. apply K'. rewrite in_app_iff. tauto. }
    replace (filter keep (map as_print (demo_messages [f]))) with (@nil Print); [reflexivity |].
    symmetry. apply SpliceFacts.filter_none. intros x I. apply in_map_iff in I. destruct I as [m [<- I]]. apply K'. rewrite in_app_iff. tauto.
  - change (g :: gs) with ([g] ++ gs). change (g :: new) with ([g] ++ new) in K'. rewrite demo_messages_app in *. rewrite map_app, filter_app.
    rewrite IH. 2: { intros m I. apply K'. rewrite in_app_iff. tauto. }
    replace (filter keep (map as_print (demo_messages [g]))) with (@nil Print); [reflexivity |].
    symmetry. apply SpliceFacts.filter_none. intros x I. apply in_map_iff in I. destruct I as [m [<- I]]. apply K'. rewrite in_app_iff. tauto.
Qed.

(** ** Tables *)
Lemma patched_wf : forall old new fs gs, patched old new fs gs -> wf fs -> wf gs -> wf old /\ wf new.
Proof.
  intros old new fs gs P W V. destruct (patched_frames _ _ _ _ P) as [c [A B]].
  apply (Permutation_Forall A) in W. apply (Permutation_Forall B) in V. apply Forall_app in W, V. split; [apply W | apply V].
Qed.

Lemma total_absent : forall n l, ~ In n (map fst l) -> total n l = 0%Z.
Proof.
  intros n l N. unfold total. replace (filter (fun x => beq (fst x) n) l) with (@nil (str * Z)); [reflexivity |].
  symmetry. apply SpliceFacts.filter_none. intros [k v] I. cbn [fst]. destruct (beq k n) eqn:B; [| reflexivity].
  apply beq_eq in B. subst. exfalso. apply N. apply in_map_iff. exists (n, v). auto.
Qed.

Lemma patched_frags_proof : forall E old new fs gs a b ao bn, patched old new fs gs -> wf fs -> wf gs ->
  len (encode fs) < 2147483648 -> len (encode gs) < 2147483648 -> all_named E fs -> all_named E gs ->
  frags_per_player_name E (encode fs) = Ret a -> frags_per_player_name E (encode gs) = Ret b ->
  frags_per_player_name E (encode old) = Ret ao -> frags_per_player_name E (encode new) = Ret bn ->
  agree_except (map fst ao ++ map fst bn) a b.
Proof.
  intros E old new fs gs a b ao bn P W V Lf Lg Nf Ng Ha Hb Ho Hn. destruct (patched_wf _ _ _ _ P W V) as [WO WN].
  destruct (patched_frames _ _ _ _ P) as [c [Pf Pg]].
  assert (S : forall l l', Permutation l l' -> len (encode l') = len (encode l)).
  { intros l l' Q. unfold len. f_equal. apply Permutation_length, concat_perm, Permutation_map. symmetry. exact Q. }
  pose proof (S _ _ Pf) as Sf. pose proof (S _ _ Pg) as Sg. rewrite encode_app, len_app in Sf, Sg.
  assert (No : all_named E old).
  { apply (all_named_perm _ _ _ Pf) in Nf. rewrite all_named_frames in *. intros f m t v I. apply Nf. apply in_or_app. right. exact I. }
  assert (Nn : all_named E new).
  { apply (all_named_perm _ _ _ Pg) in Ng. rewrite all_named_frames in *. intros f m t v I. apply Ng. apply in_or_app. right. exact I. }
  assert (T : forall l r, wf l -> len (encode l) < 2147483648 -> all_named E l -> frags_per_player_name E (encode l) = Ret r ->
    tabulates r (concat (map (frame_entries E) l))).
  { intros l r L1 L2 L3 H. destruct (named_table E l L1 L2 L3) as [r' [H' R]]. congruence. }
  apply T in Ha, Hb, Ho, Hn; try assumption; try lia.
  assert (Qf := concat_perm _ _ _ (Permutation_map (frame_entries E) Pf)). assert (Qg := concat_perm _ _ _ (Permutation_map (frame_entries E) Pg)).
  rewrite map_app, concat_app in Qf, Qg. destruct Ha as [Na [Ka Va]], Hb as [Nb [Kb Vb]], Ho as [_ [Ko _]], Hn as [_ [Kn _]].
  intros n v N. rewrite in_app_iff, Ko, Kn in N.
  assert (To : total n (concat (map (frame_entries E) old)) = 0%Z) by (apply total_absent; tauto).
  assert (Tn : total n (concat (map (frame_entries E) new)) = 0%Z) by (apply total_absent; tauto).
  assert (TT : total n (concat (map (frame_entries E) fs)) = total n (concat (map (frame_entries E) gs))).
  { rewrite (total_perm n _ _ Qf), (total_perm n _ _ Qg), !ScoreFacts.total_app, To, Tn. reflexivity. }
  assert (K : In n (map fst a) <-> In n (map fst b)).
  { rewrite Ka, Kb. pose proof (Permutation_map fst Qf) as Mf. pose proof (Permutation_map fst Qg) as Mg.
    assert (F : In n (map fst (concat (map (frame_entries E) fs))) <-> In n (map fst (concat (map (frame_entries E) c)))).
    { split; intros I.
      - apply (Permutation_in _ Mf) in I. rewrite map_app, in_app_iff in I. tauto.
      - apply (Permutation_in _ (Permutation_sym Mf)). rewrite map_app, in_app_iff. tauto. }
    assert (G : In n (map fst (concat (map (frame_entries E) gs))) <-> In n (map fst (concat (map (frame_entries E) c)))).
    { split; intros I.
      - apply (Permutation_in _ Mg) in I. rewrite map_app, in_app_iff in I. tauto.
      - apply (Permutation_in _ (Permutation_sym Mg)). rewrite map_app, in_app_iff. tauto. }
    tauto. }
  split; intros I.
  - assert (J : In n (map fst b)) by (apply K; apply in_rows; eauto). apply in_rows in J. destruct J as [w J].
    rewrite (Va n v I), TT, <- (Vb n w J). exact J.
  - assert (J : In n (map fst a)) by (apply K; apply in_rows; eauto). apply in_rows in J. destruct J as [w J].
    rewrite (Vb n v I), <- TT, <- (Va n w J). exact J.
Qed.

Lemma counters_eq : forall p q, (forall k, counter k p = counter k q) -> p = q.
Proof.
  intros [] [] H. pose proof (H Captures). pose proof (H Defends). pose proof (H DefendsCarrierHard). pose proof (H DefendsCarrier).
  pose proof (H Takes). pose proof (H Returns). pose proof (H Assists). cbn in *. subst. reflexivity.
Qed.

Lemma patched_flags_proof : forall E old new fs gs a b ao bn, patched old new fs gs -> wf fs -> wf gs ->
  flag_events_per_player_name E (encode fs) = Ret a -> flag_events_per_player_name E (encode gs) = Ret b ->
  flag_events_per_player_name E (encode old) = Ret ao -> flag_events_per_player_name E (encode new) = Ret bn ->
  agree_except (map fst ao ++ map fst bn) a b.
Proof.
  intros E old new fs gs a b ao bn P W V Ha Hb Ho Hn. destruct (patched_wf _ _ _ _ P W V) as [WO WN].
  assert (D : exists df dg dd dn, Forall2 (tells_of E) fs df /\ Forall2 (tells_of E) gs dg /\ Forall2 (tells_of E) old dd /\ Forall2 (tells_of E) new dn /\
    forall n, ~ In n (map snd (concat dd)) -> ~ In n (map snd (concat dn)) ->
      (In n (map snd (concat df)) <-> In n (map snd (concat dg))) /\ forall k, times k n (concat df) = times k n (concat dg)).
  { clear -P. induction P as [| old new f fs gs _ IH | old new f fs gs _ IH | old new g fs gs _ IH].
    - exists [], [], [], []. repeat split; try constructor; intros; auto.
    - destruct IH as [df [dg [dd [dn [F [G [O [N H]]]]]]]]. destruct (tells_of_exists E [f]) as [dl L]. inv L. inv H4.
      exists (y :: df), (y :: dg), dd, dn. repeat (split; [constructor; assumption || assumption |]). split; [assumption |]. split; [assumption |].
      intros n A B. destruct (H n A B) as [I T]. cbn [concat]. rewrite !map_app, !in_app_iff. split; [tauto |]. intros k. rewrite !times_app, T. reflexivity.
    - destruct IH as [df [dg [dd [dn [F [G [O [N H]]]]]]]]. destruct (tells_of_exists E [f]) as [dl L]. inv L. inv H4.
      exists (y :: df), dg, (y :: dd), dn. split; [constructor; assumption |]. split; [assumption |]. split; [constructor; assumption |]. split; [assumption |].
      intros n A B. cbn [concat] in *. rewrite map_app, in_app_iff in A. destruct (H n) as [I T]; [tauto | tauto |].
      rewrite map_app, in_app_iff. split; [tauto |]. intros k. rewrite times_app, T, (times_small k n y) by tauto. reflexivity.
    - destruct IH as [df [dg [dd [dn [F [G [O [N H]]]]]]]]. destruct (tells_of_exists E [g]) as [dl L]. inv L. inv H4.
      exists df, (y :: dg), dd, (y :: dn). split; [assumption |]. split; [constructor; assumption |]. split; [assumption |]. split; [constructor; assumption |].
      intros n A B. cbn [concat] in *. rewrite map_app, in_app_iff in B. destruct (H n) as [I T]; [tauto | tauto |].
      rewrite map_app, in_app_iff. split; [tauto |]. intros k. rewrite times_app, T, (times_small k n y) by tauto. reflexivity. }
  destruct D as [df [dg [dd [dn [F [G [O [N H]]]]]]]].
  pose proof (flags_table _ _ _ _ W F Ha) as [_ [Ka Va]]. pose proof (flags_table _ _ _ _ V G Hb) as [_ [Kb Vb]].
  pose proof (flags_table _ _ _ _ WO O Ho) as [_ [Ko _]]. pose proof (flags_table _ _ _ _ WN N Hn) as [_ [Kn _]].
  intros n v X. rewrite in_app_iff, Ko, Kn in X. destruct (H n) as [I T]; [tauto | tauto |]. rewrite <- Ka, <- Kb in I.
  split; intros J.
  - assert (Q : In n (map fst b)) by (apply I; apply in_rows; eauto). apply in_rows in Q. destruct Q as [w Q].
    replace v with w; [exact Q |]. apply counters_eq. intros k. rewrite (Va n v k J), (Vb n w k Q), T. reflexivity.
  - assert (Q : In n (map fst a)) by (apply I; apply in_rows; eauto). apply in_rows in Q. destruct Q as [w Q].
    replace v with w; [exact Q |]. apply counters_eq. intros k. rewrite (Vb n v k J), (Va n w k Q), T. reflexivity.
Qed.

(** ** Pings *)
Lemma ping_frames_app : forall a b, ping_frames (a ++ b) = ping_frames a ++ ping_frames b.
Proof. intros a b. unfold ping_frames. rewrite map_app, filter_app. reflexivity. Qed.
Lemma pings_of_app : forall p a b, pings_of p (a ++ b) = pings_of p a ++ pings_of p b.
Proof. intros p a b. unfold pings_of. rewrite filter_app, map_app. reflexivity. Qed.
Lemma pings_of_absent : forall p l, ~ In p (map fst l) -> pings_of p l = [].
Proof.
  intros p l Q. unfold pings_of. replace (filter (fun x => fst x =? p) l) with (@nil (N * N)); [reflexivity |]. symmetry. apply SpliceFacts.filter_none.
  intros [k v] I. cbn [fst]. destruct (k =? p) eqn:B; [| reflexivity]. apply N.eqb_eq in B. subst. exfalso. apply Q. apply in_map_iff. exists (p, v). auto.
Qed.
Lemma pings_of_present : forall p l, In p (map fst l) <-> pings_of p l <> [].
Proof.
  intros p l. destruct (in_dec N.eq_dec p (map fst l)) as [I | N].
  - split; [intros _ | intros _; exact I]. apply in_map_iff in I. destruct I as [[k v] [X I]]. cbn [fst] in X. subst k. intros Z.
    assert (J : In v (pings_of p l)); [| rewrite Z in J; destruct J].
    unfold pings_of. apply in_map_iff. exists (p, v). split; [reflexivity |]. apply filter_In. split; [exact I |]. cbn [fst]. apply N.eqb_refl.
  - split; [contradiction |]. intros Z. destruct (Z (pings_of_absent p l N)).
Qed.
Lemma sampled_eight : forall fs, len (ping_frames fs) <= 8 -> sampled fs = concat (ping_frames fs).
Proof. intros fs L. unfold sampled. rewrite firstn_all2; [reflexivity |]. unfold len in L. lia. Qed.

Lemma low_one : forall x s s', low_part 65536 x s -> low_part 65536 x s' -> s = s'.
Proof. intros x s s' L L'. apply low_part_unique in L, L'; [congruence | lia | lia]. Qed.

Lemma patched_pings_proof : forall E old new fs gs a b p v, patched old new fs gs -> wf fs -> wf gs ->
  len (ping_frames fs) <= 8 -> len (ping_frames gs) <= 8 ->
  ~ In p (map fst (concat (ping_frames (old ++ new)))) ->
  ping_per_player_number E (encode fs) = Ret (Ok a) -> ping_per_player_number E (encode gs) = Ret (Ok b) ->
  In (p, v) a <-> In (p, v) b.
Proof.
  intros E old new fs gs a b p v P W V Lf Lg N Ha Hb. rewrite ping_frames_app, concat_app, map_app, in_app_iff in N.
  assert (Q : pings_of p (concat (ping_frames fs)) = pings_of p (concat (ping_frames gs))).
  { clear -P N. induction P as [| old new f fs gs _ IH | old new f fs gs _ IH | old new g fs gs _ IH].
    - reflexivity.
    - change (f :: fs) with ([f] ++ fs). change (f :: gs) with ([f] ++ gs). rewrite !ping_frames_app, !concat_app, !pings_of_app, IH by exact N. reflexivity.
    - change (f :: fs) with ([f] ++ fs). change (f :: old) with ([f] ++ old) in N. rewrite ping_frames_app, concat_app in *. rewrite map_app, in_app_iff in N.
      rewrite pings_of_app, (pings_of_absent p (concat (ping_frames [f]))), IH by tauto. reflexivity.
    - change (g :: gs) with ([g] ++ gs). change (g :: new) with ([g] ++ new) in N. rewrite ping_frames_app, concat_app in *. rewrite map_app, in_app_iff in N.
      rewrite pings_of_app, (pings_of_absent p (concat (ping_frames [g]))), IH by tauto. reflexivity. }
  assert (T : forall l t, wf l -> len (ping_frames l) <= 8 -> ping_per_player_number E (encode l) = Ret (Ok t) -> averages16 t (concat (ping_frames l))).
  { intros l t Wl Ll H. rewrite <- sampled_eight by exact Ll. rewrite (whole_eq l) in H. destruct (sampled l) as [| x s] eqn:S.
    - rewrite (pings_none_proof E l [] Wl (or_introl Logic.I) S) in H. discriminate.
    - destruct (pings_any_proof E l [] Wl (or_introl Logic.I)) as [[_ [_ X]] | [_ [t' [X Y]]]]; [congruence | congruence |]. rewrite S in Y. congruence. }
  apply T in Ha, Hb; try assumption. destruct Ha as [_ [Ka Va]], Hb as [_ [Kb Vb]].
  assert (K : In p (map fst a) <-> In p (map fst b)) by (rewrite Ka, Kb, !pings_of_present, Q; reflexivity).
  split; intros J.
  - assert (X : In p (map fst b)) by (apply K; apply in_rows; eauto). apply in_rows in X. destruct X as [w X].
    destruct (Va p v J) as [s [L ->]]. destruct (Vb p w X) as [s' [L' ->]]. rewrite Q in *. rewrite (low_one _ _ _ L L'). exact X.
  - assert (X : In p (map fst a)) by (apply K; apply in_rows; eauto). apply in_rows in X. destruct X as [w X].
    destruct (Vb p v J) as [s [L ->]]. destruct (Va p w X) as [s' [L' ->]]. rewrite Q in *. rewrite (low_one _ _ _ L L'). exact X.
Qed.
