(** The lists of players, names and teams agree: C67 *)
From Coq Require Import Lia ZifyN ZifyNat ZifyBool Permutation.
From Verif.Model Require Import Base Env Clientinfo Clients Frags Ping Players.
From Verif.Spec Require Import Clientlist Teams.
From Verif.Proofs Require Import BaseFacts ClientFacts OrderFacts TeamFacts.

Lemma team_from_members : forall E ps t, ps <> [] -> team_from E ps = Ret t ->
  t_players t = ps /\ exists p, In p ps /\ t_name t = p_team p.
Proof.
  intros E [| p0 ps] t NE H; [contradiction |]. unfold team_from in H.
  apply bind_ret_inv in H. destruct H as [[f g] [_ H]]. apply bind_ret_inv in H. destruct H as [mc [_ H]]. inv H.
  split; [reflexivity |]. exists p0. split; [left; reflexivity | reflexivity].
Qed.

Lemma mapM_inv : forall A B (f : A -> M B) l r, mapM f l = Ret r -> Forall2 (fun a b => f a = Ret b) l r.
Proof.
  intros A B f. induction l as [| a l IH]; intros r H; cbn [mapM] in H; [inv H; constructor |].
  apply bind_ret_inv in H. destruct H as [b [H1 H]]. apply bind_ret_inv in H. destruct H as [bs [H2 H]]. inv H.
  constructor; [exact H1 | apply IH; exact H2].
Qed.

Lemma by_team_perm : forall ps ns, NoDup ns -> (forall p, In p ps -> In (p_team p) ns) ->
  Permutation (concat (map (fun n => filter (fun p => beq (p_team p) n) ps) ns)) ps.
Proof.
  intros ps ns ON C. induction ps as [| p ps IH].
  - clear. induction ns as [| n ns IH]; [constructor | exact IH].
  - specialize (IH (fun q I => C q (or_intror I))). specialize (C p (or_introl eq_refl)).
    apply in_split in C. destruct C as [a [b ->]].
    assert (D : forall l : list str, ~ In (p_team p) l -> @map str _ (fun n : bytes => filter (fun p => beq (p_team p) n) (p :: ps)) l = @map str _ (fun n : bytes => filter (fun p => beq (p_team p) n) ps) l).
    { intros l NI. apply map_ext_in. intros n I. cbn [filter]. destruct (beq (p_team p) n) eqn:Q; [| reflexivity].
      apply beq_eq in Q. subst n. contradiction. }
    apply NoDup_remove_2 in ON. rewrite in_app_iff in ON.
    rewrite map_app in *. cbn [map] in IH |- *. rewrite (D a), (D b) by tauto. cbn [filter].
    assert (beq (p_team p) (p_team p) = true) as -> by (apply beq_eq; reflexivity).
    rewrite concat_app in *. cbn [concat] in *. cbn [app]. rewrite <- Permutation_middle. constructor. exact IH.
Qed.

(** Whatever overflows, the teams divide the players. *)
Lemma teams_divide_proof : forall E ps ts, iterates (teams_order E) -> teams_from_players E ps = Ret ts ->
  NoDup (map t_name ts) /\ (forall n, In n (map t_name ts) <-> exists p, In p ps /\ p_team p = n) /\
  Forall (fun t => t_players t <> [] /\ exists others, splits (fun p => p_team p = t_name t) ps (t_players t) others) ts /\
  Permutation (concat (map t_players ts)) ps.
Proof.
  intros E ps ts IT H. unfold teams_from_players in H. apply bind_ret_inv in H. destruct H as [us [M H]]. inv H.
  apply mapM_inv in M.
  assert (Forall2 (fun g t => fst g = t_name t /\ t_players t = filter (fun p => beq (p_team p) (t_name t)) ps /\ t_players t <> [])
    (teams_order E (group_by_team ps)) us) as F.
  { assert (forall g, In g (teams_order E (group_by_team ps)) -> In g (group_by_team ps)) as IN by (intros g; apply Permutation_in, IT).
    revert us M IN. generalize (teams_order E (group_by_team ps)) as gs. induction gs as [| g gs IH]; intros us M IN; cbn [map] in M; inversion M as [| ? t ? us' T M']; subst; [constructor |].
    constructor; [| apply IH; [exact M' | intros g' I; apply IN; right; exact I]].
    destruct g as [n ms]. cbn [snd fst] in *. destruct (group_entry ps n ms (IN _ (or_introl eq_refl))) as [-> NE].
    destruct (team_from_members E _ t NE T) as [PL [p [I TN]]]. apply filter_In in I. destruct I as [_ Q]. apply beq_eq in Q.
    assert (n = t_name t) as -> by congruence. rewrite PL. auto. }
  assert (NM : map t_name us = map fst (teams_order E (group_by_team ps))).
  { symmetry. apply Forall2_map_eq. eapply Forall2_impl; [| exact F]. intros a b [H _]. exact H. }
  assert (P : Permutation (map t_name (sort_by (team_cmp E) us)) (map fst (group_by_team ps))).
  { transitivity (map t_name us); [apply Permutation_map, sort_by_perm |]. rewrite NM. apply Permutation_map. apply IT. }
  assert (Forall (fun t => t_players t = filter (fun p => beq (p_team p) (t_name t)) ps /\ t_players t <> []) (sort_by (team_cmp E) us)) as A.
  { apply Forall_forall. intros t I. apply (Permutation_in _ (sort_by_perm _ _ _)) in I.
    destruct (Forall2_in _ _ _ _ _ _ F I) as [g [_ [_ H]]]. exact H. }
  assert (NoDup (map t_name (sort_by (team_cmp E) us))) as ND by (eapply Permutation_NoDup; [apply Permutation_sym, P | apply group_nodup]).
  assert (forall n, In n (map t_name (sort_by (team_cmp E) us)) <-> exists p, In p ps /\ p_team p = n) as K.
  { intros n. rewrite <- group_keys. split; apply Permutation_in; [exact P | apply Permutation_sym, P]. }
  split; [exact ND |]. split; [exact K |]. split.
  - eapply Forall_impl; [| exact A]. intros t [PL NE]. split; [exact NE |]. eexists. rewrite PL. apply group_splits.
  - assert (concat (map t_players (sort_by (team_cmp E) us)) =
      concat (map (fun n => filter (fun p => beq (p_team p) n) ps) (map t_name (sort_by (team_cmp E) us)))) as ->.
    { rewrite map_map. f_equal. apply map_ext_in. intros t I. rewrite Forall_forall in A. apply A. exact I. }
    apply by_team_perm; [exact ND |]. intros p I. apply K. eauto.
Qed.

Lemma parsed_parts : forall E data ps, players_from_parsing E data = Ret (Ok ps) ->
  exists cs pings scores, player_clients E data = Ret (Ok cs) /\ ping_per_player_number E data = Ret (Ok pings) /\
    frags_per_player_name E data = Ret scores.
Proof.
  intros E data ps H. unfold players_from_parsing in H. apply bind_ret_inv in H. destruct H as [c [C H]]. destruct c as [cs |]; [| discriminate].
  apply bind_ret_inv in H. destruct H as [p [P H]]. destruct p as [pings |]; [| discriminate].
  apply bind_ret_inv in H. destruct H as [frags [F H]].
  unfold player_clients. rewrite C. cbn [bind]. do 3 eexists. split; [reflexivity |]. split; [exact P | exact F].
Qed.

Lemma lists_agree_proof : forall E data l ps, (forall l, Permutation (unicode_sort E l) l) ->
  iterates (players_order E) -> clientinfo_strings E data = Ret (Ok l) -> len l <= 256 ->
  players_from_parsing E data = Ret (Ok ps) ->
  (exists names, player_names E data = Ret (Ok names) /\ Permutation names (map p_name ps)) /\
  (exists ts, team_names E data = Ret (Ok ts) /\ forall t, In t ts <-> In t (map p_team ps)) /\
  (exists b, has_human_players E data = Ret (Ok b) /\ (b = true <-> exists p, In p ps /\ p_is_bot p = false)) /\
  ((exists p, In p ps /\ p_is_bot p = true) -> has_bot_players E data = Ret (Ok true)).
Proof.
  intros E data l ps SO IT CI L H. destruct (parsed_parts E data ps H) as [cs [pings [scores [PC [PI SC]]]]].
  destruct (players_parsed_all E data l cs pings scores IT CI L PC PI SC) as [es [ps' [H' [F [P _]]]]].
  rewrite H in H'. injection H' as <-.
  assert (map c_name cs = map p_name es) as NM.
  { apply Forall2_map_eq. eapply Forall2_impl; [| exact F]. intros c p X. symmetry. apply X. }
  assert (map c_team cs = map p_team es) as TM.
  { apply Forall2_map_eq. eapply Forall2_impl; [| exact F]. intros c p X. symmetry. apply X. }
  assert (map c_is_bot cs = map p_is_bot es) as BM.
  { apply Forall2_map_eq. eapply Forall2_impl; [| exact F]. intros c p X. symmetry. apply X. }
  assert (forall b, (exists c, In c cs /\ c_is_bot c = b) <-> exists p, In p ps /\ p_is_bot p = b) as BB.
  { intros b. split.
    - intros [c [I <-]]. assert (In (c_is_bot c) (map p_is_bot es)) as J by (rewrite <- BM; apply in_map; exact I).
      apply in_map_iff in J. destruct J as [p [Q J]]. exists p. split; [eapply Permutation_in; eauto | exact Q].
    - intros [p [I <-]]. apply (Permutation_in _ (Permutation_sym P)) in I. assert (In (p_is_bot p) (map c_is_bot cs)) as J by (rewrite BM; apply in_map; exact I).
      apply in_map_iff in J. destruct J as [c [Q J]]. exists c. auto. }
  split; [| split; [| split]].
  - unfold player_names. rewrite PC. cbn [bind]. eexists. split; [reflexivity |]. rewrite SO, NM. apply Permutation_map. exact P.
  - destruct (team_names_proof E data cs SO PC) as [ts [T [K _]]]. exists ts. split; [exact T |]. intros t. rewrite K. split.
    + intros [c [I <-]]. eapply Permutation_in; [apply Permutation_map; exact P |]. rewrite <- TM. apply in_map. exact I.
    + intros I. apply (Permutation_in _ (Permutation_map p_team (Permutation_sym P))) in I. rewrite <- TM in I. apply in_map_iff in I.
      destruct I as [c [Q I]]. eauto.
  - destruct (humans_proof E data cs PC) as [b [HH K]]. exists b. split; [exact HH |]. rewrite K. apply BB.
  - intros X. destruct (bots_proof E data cs PC) as [b [HH K]]. rewrite HH. rewrite (proj2 K); [reflexivity |]. left. apply BB. exact X.
Qed.
