(** Proofs for Properties/Shuffles.v *)
From Coq Require Import Lia Permutation Sorted ZifyN ZifyNat ZifyBool.
From Verif.Model Require Import Base Env Players.
From Verif.Spec Require Import Order Clientlist Teams Wrap Shuffles.
From Verif.Proofs Require Import BaseFacts OrderFacts TeamFacts WrapFacts AgreeFacts.

(** ** Players *)
Lemma stats_shuffled_proof : forall s s', Permutation (ks_players s) (ks_players s') ->
  same_up_to_ties (Ret (players_from_ktxstats s)) (Ret (players_from_ktxstats s')).
Proof.
  intros s s' P. unfold players_from_ktxstats. cbn [same_up_to_ties].
  assert (PP : Permutation (sort_by player_cmp (map player_from (ks_players s))) (sort_by player_cmp (map player_from (ks_players s')))).
  { rewrite !sort_by_perm. apply Permutation_map. exact P. }
  assert (S : forall l, in_order_of better (sort_by player_cmp l)).
  { intros l. eapply stable_order_sorted; [apply better_key_order | apply sort_players]. }
  split; [exact PP |]. split; [apply ranks_sorted; auto |].
  intros U. apply (in_order_unique _ better); auto. intros a b IA IB NA NB. apply U; auto.
  destruct (better_total a b) as [B | [[F N] | B]]; [contradiction | unfold rank; congruence | contradiction].
Qed.

(** ** Teams, players of each team in the same order *)
Definition members (n : str) (ps : list Player) : list Player := filter (fun p => beq (p_team p) n) ps.

Lemma members_in : forall n ps p, In p (members n ps) <-> In p ps /\ p_team p = n.
Proof. intros. unfold members. rewrite filter_In, beq_eq. reflexivity. Qed.

Lemma group_in : forall ps n, (exists p, In p ps /\ p_team p = n) -> In (n, members n ps) (group_by_team ps).
Proof.
  intros ps n H. apply group_keys in H. apply in_map_iff in H. destruct H as [[n' ms] [Q I]]. cbn [fst] in Q. subst n'.
  destruct (group_entry ps n ms I) as [-> _]. exact I.
Qed.

Lemma group_perm : forall ps ps', (forall n, members n ps = members n ps') -> Permutation (group_by_team ps) (group_by_team ps').
Proof.
  assert (S : forall ps ps', (forall n, members n ps = members n ps') -> forall x, In x (group_by_team ps) -> In x (group_by_team ps')).
  { intros ps ps' M [n ms] I. destruct (group_entry ps n ms I) as [-> NE]. fold (members n ps) in *. rewrite M.
    apply group_in. destruct (members n ps) as [| p r] eqn:Q; [contradiction |]. exists p.
    apply members_in. rewrite <- M, Q. left. reflexivity. }
  intros ps ps' M. apply NoDup_Permutation; try (eapply NoDup_map_inv; apply group_nodup).
  intros x. split; apply S; [exact M | intros n; symmetry; apply M].
Qed.

Lemma mapM_ret : forall A B (f : A -> M B) l bs, mapM f l = Ret bs -> Forall2 (fun a b => f a = Ret b) l bs.
Proof.
  intros A B f l. induction l as [| a l IH]; intros bs H; cbn [mapM] in H; [injection H as <-; constructor |].
  destruct (f a) as [b | |] eqn:F; cbn [bind] in H; try discriminate. destruct (mapM f l) as [bs' | |]; cbn [bind] in H; try discriminate.
  injection H as <-. constructor; auto.
Qed.

Lemma in_unique : forall A B (f : A -> B) l a b, NoDup (map f l) -> In a l -> In b l -> f a = f b -> a = b.
Proof.
  intros A B f l. induction l as [| x l IH]; intros a b ND IA IB Q; [destruct IA |]. cbn [map] in ND. inversion ND as [| ? ? NI ND']. subst.
  destruct IA as [-> | IA], IB as [-> | IB]; auto.
  - exfalso. apply NI. rewrite Q. apply in_map. exact IB.
  - exfalso. apply NI. rewrite <- Q. apply in_map. exact IA.
Qed.

Lemma regrouped_proof : forall E ps ps' ts, iterates (teams_order E) -> (forall n, members n ps = members n ps') ->
  teams_from_players E ps = Ret ts ->
  exists ts', teams_from_players E ps' = Ret ts' /\ Permutation ts ts' /\ (apart (to_lowercase E) ps -> ts' = ts).
Proof.
  intros E ps ps' ts IT M T. unfold teams_from_players in *.
  destruct (mapM (team_from E) (map snd (teams_order E (group_by_team ps)))) as [us | |] eqn:U; cbn [bind] in T; try discriminate.
  injection T as <-.
  assert (P : Permutation (map snd (teams_order E (group_by_team ps))) (map snd (teams_order E (group_by_team ps')))).
  { apply Permutation_map. rewrite !(IT _). apply group_perm. exact M. }
  destruct (Forall2_perm _ _ _ _ _ P _ (mapM_ret _ _ _ _ _ U)) as [us' [F PU]].
  rewrite (mapM_Forall2 _ _ _ _ us' F). cbn [bind]. eexists. split; [reflexivity |].
  assert (PS : Permutation (sort_by (team_cmp E) us) (sort_by (team_cmp E) us')) by (rewrite !sort_by_perm; exact PU).
  split; [exact PS |]. intros AP. symmetry.
  destruct (teams_divide_proof E ps (sort_by (team_cmp E) us) IT) as [ND [NA _]].
  { unfold teams_from_players. rewrite U. reflexivity. }
  apply (in_order_unique _ (fun a b => text_lt (to_lowercase E (t_name a)) (to_lowercase E (t_name b)))); try apply sort_teams; [| exact PS].
  intros a b IA IB X Y.
  assert (LE : to_lowercase E (t_name a) = to_lowercase E (t_name b)).
  { destruct (text_trichotomy (to_lowercase E (t_name a)) (to_lowercase E (t_name b))) as [L | [L | L]]; [contradiction | exact L | contradiction]. }
  apply (in_unique _ _ t_name _ _ _ ND IA IB).
  destruct (proj1 (NA _) (in_map t_name _ _ IA)) as [p [IP PA]]. destruct (proj1 (NA _) (in_map t_name _ _ IB)) as [q [IQ QB]].
  rewrite <- PA, <- QB in *. apply AP; assumption.
Qed.

Lemma members_app : forall n a b, members n (a ++ b) = members n a ++ members n b.
Proof. intros. unfold members. apply filter_app. Qed.

Lemma members_same : forall n ps, Forall (fun p => p_team p = n) ps -> members n ps = ps.
Proof.
  intros n ps F. unfold members. induction F as [| p ps Q F IH]; [reflexivity |]. cbn [filter].
  rewrite (proj2 (beq_eq _ _) Q). rewrite IH. reflexivity.
Qed.
Lemma members_none : forall n ps, Forall (fun p => p_team p <> n) ps -> members n ps = [].
Proof.
  intros n ps F. unfold members. induction F as [| p ps Q F IH]; [reflexivity |]. cbn [filter].
  destruct (beq (p_team p) n) eqn:B; [apply beq_eq in B; contradiction | exact IH].
Qed.

Lemma concat_members : forall ts ps n, NoDup (map t_name ts) -> Forall (fun t => t_players t = members (t_name t) ps) ts ->
  members n (concat (map t_players ts)) = if in_dec (list_eq_dec Byte.byte_eq_dec) n (map t_name ts) then members n ps else [].
Proof.
  intros ts ps n. induction ts as [| t ts IH]; intros ND F; [reflexivity |]. inversion ND as [| ? ? NI ND']. subst. inversion F as [| ? ? Q F']. subst.
  cbn [map concat]. rewrite members_app, (IH ND' F'), Q.
  assert (T : Forall (fun p => p_team p = t_name t) (members (t_name t) ps)).
  { apply Forall_forall. intros p I. apply members_in in I. tauto. }
  destruct (in_dec (list_eq_dec Byte.byte_eq_dec) n (t_name t :: map t_name ts)) as [[<- | I] | N].
  - destruct (in_dec _ _ _) as [I | _]; [contradiction |]. rewrite members_same by exact T. apply app_nil_r.
  - destruct (in_dec _ _ _) as [_ | N]; [| contradiction]. rewrite members_none; [reflexivity |].
    eapply Forall_impl; [| exact T]. cbn beta. intros p Q' X. apply NI. rewrite <- Q', X. exact I.
  - destruct (in_dec _ _ _) as [I | _]; [exfalso; apply N; right; exact I |]. rewrite members_none; [reflexivity |].
    eapply Forall_impl; [| exact T]. cbn beta. intros p Q' X. apply N. left. rewrite <- Q', X. reflexivity.
Qed.

Lemma fixpoint_proof : forall E ps ts, iterates (teams_order E) -> teams_from_players E ps = Ret ts ->
  exists ts', teams_from_players E (concat (map t_players ts)) = Ret ts' /\ Permutation ts ts' /\ (apart (to_lowercase E) ps -> ts' = ts).
Proof.
  intros E ps ts IT T. apply (regrouped_proof E ps); [exact IT | | exact T]. intros n.
  destruct (teams_divide_proof E ps ts IT T) as [ND [NA [FA _]]]. rewrite (concat_members ts ps n ND).
  - destruct (in_dec _ _ _) as [I | N]; [reflexivity |]. apply members_none. apply Forall_forall. intros p I Q. apply N, NA. eauto.
  - eapply Forall_impl; [| exact FA]. cbn beta. intros t [_ [o S]]. exact (proj1 (splits_unique _ _ _ _ _ S _ _ (group_splits ps (t_name t)))).
Qed.

(** ** Teams, players in any order *)
Lemma signed32_unique : forall z r r', signed32 z r -> signed32 z r' -> r = r'.
Proof. unfold signed32, fits32. intros z r r' [F [k K]] [F' [k' K']]. lia. Qed.
Lemma total_perm : forall l l', Permutation l l' -> Teams.total l = Teams.total l'.
Proof. unfold Teams.total. intros l l' P. induction P; cbn [fold_right]; lia. Qed.
Lemma total_ping_perm : forall l l', Permutation l l' -> total_ping l = total_ping l'.
Proof. unfold total_ping. intros l l' P. induction P; cbn [map fold_right]; lia. Qed.
Lemma worn_perm : forall c l l', Permutation l l' -> worn c l = worn c l'.
Proof. intros c l l' P. induction P; cbn [worn]; lia. Qed.
Lemma members_perm : forall n l l', Permutation l l' -> Permutation (members n l) (members n l').
Proof.
  unfold members. intros n l l' P. induction P; cbn [filter].
  - constructor.
  - destruct (beq _ _); [constructor |]; assumption.
  - destruct (beq (p_team y) n), (beq (p_team x) n); try reflexivity. apply perm_swap.
  - etransitivity; eassumption.
Qed.

Lemma wear_perm : forall c l l' n, Permutation l l' -> wear c l n -> wear c l' n.
Proof. intros c l l' n P W. apply wear_fun in W. subst n. rewrite (worn_perm c l l' P). apply wear_worn. Qed.

Lemma most_counted_perm : forall c l l', Permutation l l' -> most_counted c l -> most_counted c l'.
Proof.
  intros c l l' P [n [r [W [LP [R M]]]]]. exists n, r. split; [exact (wear_perm _ _ _ _ P W) |]. split; [exact LP |].
  split; [exact R |]. intros d m s W'. apply (M d). exact (wear_perm _ _ _ _ (Permutation_sym P) W').
Qed.

Lemma shuffled_proof : forall E E' ps ps' ts ts', iterates (teams_order E) -> each_iterates (colors_order E) ->
  iterates (teams_order E') -> each_iterates (colors_order E') -> to_lowercase E = to_lowercase E' ->
  len ps < 9223372036854775808 -> Permutation ps ps' ->
  teams_from_players E ps = Ret ts -> teams_from_players E' ps' = Ret ts' ->
  map (fun t => to_lowercase E (t_name t)) ts = map (fun t => to_lowercase E (t_name t)) ts' /\
  Permutation (map t_name ts) (map t_name ts') /\
  forall t t', In t ts -> In t' ts' -> t_name t = t_name t' ->
    t_frags t = t_frags t' /\ t_ping t = t_ping t' /\ Permutation (t_players t) (t_players t') /\
    ((3 <= length (t_players t))%nat -> (exists c, most_counted c (t_players t)) ->
     (forall c d, most_counted c (t_players t) -> most_counted d (t_players t) -> c = d) -> t_color t = t_color t').
Proof.
  intros E E' ps ps' ts ts' IT IC IT' IC' LC L P T T'.
  assert (L' : len ps' < 9223372036854775808) by (unfold len in *; rewrite <- (Permutation_length P); exact L).
  destruct (teams_any_proof E ps IT IC L) as [[_ [_ X]] | [_ [us [U [ON NA EA OR]]]]]; [congruence |].
  destruct (teams_any_proof E' ps' IT' IC' L') as [[_ [_ X]] | [_ [us' [U' [ON' NA' EA' OR']]]]]; [congruence |].
  assert (us = ts) as -> by congruence. assert (us' = ts') as -> by congruence. rewrite <- LC in *.
  assert (PN : Permutation (map t_name ts) (map t_name ts')).
  { apply NoDup_Permutation; [exact ON | exact ON' |]. intros n. rewrite NA, NA'. split; intros [p [I Q]]; exists p; split; auto;
      [eapply Permutation_in; eassumption | eapply Permutation_in; [apply Permutation_sym; exact P | exact I]]. }
  split; [| split; [exact PN |]].
  - apply (in_order_unique _ text_lt).
    + intros a b _ _ X Y. destruct (text_trichotomy a b) as [Q | [Q | Q]]; [contradiction | exact Q | contradiction].
    + apply StronglySorted_map. exact OR.
    + apply StronglySorted_map. exact OR'.
    + apply (Permutation_map (to_lowercase E)) in PN. rewrite !map_map in PN. exact PN.
  - intros t t' IN IN' NM. rewrite Forall_forall in EA, EA'. destruct (EA t IN) as [[o S] NE FR [s [LS MP]] CO].
    destruct (EA' t' IN') as [[o' S'] NE' FR' [s' [LS' MP']] CO'].
    assert (PP : Permutation (t_players t) (t_players t')).
    { rewrite (proj1 (splits_unique _ _ _ _ _ S _ _ (group_splits ps (t_name t)))).
      rewrite (proj1 (splits_unique _ _ _ _ _ S' _ _ (group_splits ps' (t_name t')))). rewrite NM. apply (members_perm (t_name t') ps ps' P). }
    split; [| split; [| split; [exact PP |]]].
    + rewrite (total_perm _ _ (Permutation_map p_frags PP)) in FR. exact (signed32_unique _ _ _ FR FR').
    + rewrite (total_ping_perm _ _ PP) in LS. apply low_part_unique in LS; [| lia]. apply low_part_unique in LS'; [| lia].
      unfold mean_ping in *. replace (len (t_players t')) with (len (t_players t)) in MP' by (unfold len; rewrite (Permutation_length PP); reflexivity).
      rewrite LS in MP. rewrite LS' in MP'. rewrite <- MP' in MP. lia.
    + intros G3 [c C] U3. pose proof (Permutation_length PP) as PL.
      assert (MC : forall l d, counted_color l d -> (3 <= length l)%nat -> most_counted c l -> most_counted d l).
      { intros [| a [| b [| e l]]] d K G W; cbn [length] in G; try lia. destruct K as [K | [K _]]; [exact K | exfalso].
        destruct W as [n [r [W [LP [R _]]]]]. specialize (K c n W). apply low_part_unique in LP; [| lia]. apply low_part_unique in K; [| lia]. lia. }
      apply U3; [exact (MC _ _ CO G3 C) |].
      apply (most_counted_perm _ _ _ (Permutation_sym PP)). apply (MC _ _ CO'); [lia |]. exact (most_counted_perm _ _ _ PP C).
Qed.
