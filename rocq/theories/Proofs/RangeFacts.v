(** Every number in a result fits its type: C66 *)
From Coq Require Import Lia ZifyN ZifyNat ZifyBool.
From Verif.Model Require Import Base Env Clientinfo Clients FlagEvent Flags FragEvent Frags Ping Ktxstats Float Players.
From Verif.Spec Require Import Mvd Messages Pings Teams Ranges.
From Verif.Proofs Require Import BaseFacts FrameFacts PrintFacts PrintProps PingFacts OrderFacts TeamFacts ClientFacts PanicFacts.

Lemma foldM_inv : forall A B (P : A -> Prop) (f : A -> B -> M A) l a r,
  (forall a b a', P a -> In b l -> f a b = Ret a' -> P a') -> P a -> foldM f l a = Ret r -> P r.
Proof.
  intros A B P f l. induction l as [| x l IH]; intros a r F PA H; cbn [foldM] in H; [inv H; exact PA |].
  apply bind_ret_inv in H. destruct H as [a' [H1 H2]]. apply (IH a' r); [| | exact H2].
  - intros a0 b a1 P0 I. apply F; [exact P0 | right; exact I].
  - apply (F a x a' PA); [left; reflexivity | exact H1].
Qed.

Lemma aset_values : forall K V (eqb : K -> K -> bool) (P : V -> Prop) k v m,
  Forall P (map snd m) -> P v -> Forall P (map snd (aset eqb k v m)).
Proof.
  intros K V eqb P k v m. induction m as [| [k0 v0] m IH]; intros F PV; cbn [aset map snd]; [constructor; auto |].
  inversion F; subst. destruct (eqb k k0); cbn [map snd]; constructor; auto.
Qed.

Lemma aget_or_values : forall K V (eqb : K -> K -> bool) (P : V -> Prop) k d m,
  Forall P (map snd m) -> P d -> P (aget_or eqb k d m).
Proof.
  intros K V eqb P k d m F PD. unfold aget_or. induction m as [| [k0 v0] m IH]; cbn [aget]; [exact PD |].
  inversion F; subst. destruct (eqb k k0); [assumption | auto].
Qed.

Lemma uadd_range : forall E bound a b r, 0 < bound -> uadd E bound a b = Ret r -> r < bound.
Proof.
  intros E bound a b r B H. unfold uadd in H. destruct (a + b <? bound) eqn:C; [inv H; lia |].
  destruct (checked E); inv H. apply N.mod_lt. lia.
Qed.

Lemma iadd_range : forall E a b r, iadd E a b = Ret r -> in_i32 r.
Proof.
  intros E a b r H. unfold iadd, i32_min, i32_max, wrap_i32 in H. destruct (_ && _)%bool eqn:C; [inv H; unfold in_i32; lia |].
  destruct (checked E); inv H. unfold in_i32. pose proof (Z.mod_pos_bound (a + b + 2147483648) 4294967296 ltac:(reflexivity)). lia.
Qed.

Lemma as_u8_range : forall z, in_u8 (as_u8 z).
Proof. intros z. unfold in_u8, as_u8. pose proof (Z.mod_pos_bound z 256 ltac:(reflexivity)). lia. Qed.
Lemma as_u32_range : forall z, in_u32 (as_u32 z).
Proof. intros z. unfold in_u32, as_u32. pose proof (Z.mod_pos_bound z 4294967296 ltac:(reflexivity)). lia. Qed.

(** Scores *)
Lemma frags_fit_proof : forall E data t, frags_per_player_name E data = Ret t -> Forall in_i32 (map snd t).
Proof.
  intros E data t H. unfold frags_per_player_name in H. apply bind_ret_inv in H. destruct H as [pfs [_ H]].
  revert H. apply (foldM_inv _ _ (fun t => Forall in_i32 (map snd t))); [| constructor]. intros m pf m' F _ H.
  assert (forall name d, frag_add E name d m = Ret m' -> Forall in_i32 (map snd m')) as ADD.
  { intros name d A. unfold frag_add in A. apply bind_ret_inv in A. destruct A as [v [IA R]]. inv R.
    apply aset_values; [exact F | exact (iadd_range _ _ _ _ IA)]. }
  unfold score_print in H. destruct (frag_event_from _) as [[] |]; eauto; try (inv H; assumption).
  apply bind_ret_inv in H. destruct H as [r [_ H]]. destruct r; [eauto | inv H; assumption].
Qed.

(** Flag events *)
Lemma flags_fit_proof : forall E data t, flag_events_per_player_name E data = Ret t -> Forall fit_flags (map snd t).
Proof.
  intros E data t H. unfold flag_events_per_player_name in H. apply bind_ret_inv in H. destruct H as [ps [_ H]].
  revert H. apply (foldM_inv _ _ (fun t => Forall fit_flags (map snd t))); [| constructor]. intros m p m' F _ H. unfold count_flag_print in H.
  destruct (flag_event_from _) as [e |]; [| inv H; exact F]. apply bind_ret_inv in H. destruct H as [q [A R]]. inv R.
  apply aset_values; [exact F |].
  assert (fit_flags (aget_or beq (flag_player e) pfe_default m)) as G.
  { apply aget_or_values; [exact F |]. repeat split. }
  revert G A. generalize (aget_or beq (flag_player e) pfe_default m) as z. intros [a b c d f g h] G A.
  destruct G as (G1 & G2 & G3 & G4 & G5 & G6 & G7). cbn in G1, G2, G3, G4, G5, G6, G7.
  destruct e; cbn [flag_apply] in A; apply bind_ret_inv in A; destruct A as [n [U A]]; inv A;
    apply uadd_range in U; try reflexivity; repeat split; assumption.
Qed.

(** Pings *)
Lemma ping_records_fit : forall n d, Forall (fun x => fst x < 256 /\ snd x < 65536) (ping_records_n n d).
Proof.
  induction n as [| n IH]; intros d; [constructor |]. cbn [ping_records_n].
  destruct d as [| t [| p [| lo [| hi [| x r]]]]]; try constructor. destruct (n_of t =? 36); [| constructor].
  constructor; [| apply IH]. cbn [fst snd]. unfold n_of. pose proof (Byte.to_N_bounded p). pose proof (Byte.to_N_bounded lo). pose proof (Byte.to_N_bounded hi). lia.
Qed.

Lemma sampled_fit : forall fs p, In p (map fst (sampled fs)) -> p < 256.
Proof.
  intros fs p IP. apply in_map_iff in IP. destruct IP as [[p' v] [EQ IP]]. cbn [fst] in EQ. subst p'.
  unfold sampled in IP. apply in_concat in IP. destruct IP as [l [IL IP]].
  assert (In l (ping_frames fs)) as IF by (rewrite <- (firstn_skipn 8 (ping_frames fs)); apply in_or_app; left; exact IL).
  unfold ping_frames in IF. apply filter_In in IF. destruct IF as [IF _]. apply in_map_iff in IF. destruct IF as [f [<- _]].
  pose proof (ping_records_fit (length (f_body f)) (f_body f)) as FA. rewrite Forall_forall in FA. exact (proj1 (FA _ IP)).
Qed.

Lemma quotient_le : forall a n, a / n <= a.
Proof. intros a n. destruct (N.eq_dec n 0) as [-> | N]; [destruct a; discriminate |]. apply N.div_le_upper_bound; [exact N | nia]. Qed.

Lemma pings_fit_proof : forall E data t, ping_per_player_number E data = Ret (Ok t) ->
  NoDup (map fst t) /\ Forall (fun x => fst x < 256 /\ snd x < 65536) t.
Proof.
  intros E data t H. destruct (decompose data) as [fs [rest [-> [W N]]]].
  assert (exists n, sample_pings E (encode fs ++ rest) = Ret (n, add_pings (sampled fs) [])) as [n SA].
  { destruct (rest_cases (len (encode fs ++ rest)) rest) as [S | O]; [rewrite len_app; lia | exact N | |].
    - apply sample_reached; [exact W | left; exact S].
    - destruct (N.lt_ge_cases (len (ping_frames fs)) 8) as [L | L].
      + rewrite (pings_crash_proof E fs rest W O L) in H. discriminate.
      + apply sample_reached; [exact W | right; exact L]. }
  rewrite (pings_result E _ fs n W SA) in H. destruct (is_empty (sampled fs)); [discriminate |].
  destruct (checked E && existsb _ _)%bool eqn:B; [discriminate |]. inv H.
  destruct (averages_mod_spec E (sampled fs)) as [ND [K V]]. split; [exact ND |]. apply Forall_forall. intros [p a] I. cbn [fst snd].
  assert (In p (map fst (sampled fs))) as IP by (apply K; apply in_map_iff; eexists; split; [| exact I]; reflexivity).
  split; [exact (sampled_fit _ _ IP) |]. rewrite (V p a I). unfold averaged.
  eapply N.le_lt_trans; [apply quotient_le |]. destruct (checked E).
  - cbn [andb] in B. destruct (N.lt_ge_cases (sum (pings_of p (sampled fs))) 65536) as [| G]; [assumption |].
    rewrite (proj2 (existsb_big (sampled fs))) in B; [discriminate | exists p; auto].
  - apply N.mod_lt. discriminate.
Qed.

(** Clients, players, teams *)
Lemma number_clients_fit : forall l i, Forall fit_client (number_clients i l).
Proof.
  induction l as [| x l IH]; intros i; cbn [number_clients]; constructor; [| apply IH].
  split; [| split; apply as_u8_range]. cbn. unfold in_u8. apply N.mod_lt. discriminate.
Qed.

Lemma clients_fit_proof : forall E data cs, clients E data = Ret (Ok cs) -> Forall fit_client cs.
Proof. intros E data cs H. destruct (clients_inv E data cs H) as [l [_ ->]]. apply number_clients_fit. Qed.

Lemma in_aset : forall K V (eqb : K -> K -> bool) (P : K * V -> Prop) k v m,
  Forall P m -> P (k, v) -> (forall k0 v0, eqb k k0 = true -> P (k0, v0) -> P (k0, v)) -> Forall P (aset eqb k v m).
Proof.
  intros K V eqb P k v m. induction m as [| [k0 v0] m IH]; intros F PV C; cbn [aset]; [constructor; auto |].
  inversion F; subst. destruct (eqb k k0) eqn:Q; constructor; eauto.
Qed.

Lemma player_from_fit : forall p, in_i32 (kp_frags p) -> fit_player (player_from p).
Proof. intros p F. split; [split; apply as_u8_range |]. split; [exact F | apply as_u32_range]. Qed.

Lemma sorted_fit : forall A (P : A -> Prop) cmp l, Forall P l -> Forall P (sort_by cmp l).
Proof. intros A P cmp l F. rewrite Forall_forall in *. intros x I. apply F. eapply Permutation.Permutation_in; [apply sort_by_perm | exact I]. Qed.

Lemma parsed_fit_proof : forall E data ps, iterates (players_order E) -> players_from_parsing E data = Ret (Ok ps) -> Forall fit_player ps.
Proof.
  intros E data ps IT H. unfold players_from_parsing in H. apply bind_ret_inv in H. destruct H as [c [C H]]. destruct c as [cs |]; [| discriminate].
  apply bind_ret_inv in H. destruct H as [p [P H]]. destruct p as [pings |]; [| discriminate].
  apply bind_ret_inv in H. destruct H as [frags [F H]]. inv H.
  apply sorted_fit. apply clients_fit_proof in C. apply pings_fit_proof in P. destruct P as [_ P]. apply frags_fit_proof in F.
  assert (Forall fit_player (map snd (fold_left (fun m c => aset N.eqb (c_number c) (player_of_client frags pings c) m)
    (filter (fun c => negb (c_is_spectator c)) cs) []))) as G.
  { assert (Forall fit_client (filter (fun c => negb (c_is_spectator c)) cs)) as C'.
    { rewrite Forall_forall in *. intros x I. apply filter_In in I. apply C. apply I. }
    revert C'. generalize (filter (fun c => negb (c_is_spectator c)) cs) as l. clear C cs.
    assert (Forall fit_player (map snd (@nil (N * Player)))) as N by constructor. revert N. generalize (@nil (N * Player)) as m.
    intros m N l. revert m N. induction l as [| c l IH]; intros m N C; cbn [fold_left]; [exact N |]. inversion C as [| ? ? FC ?]; subst.
    apply IH; [| assumption]. apply aset_values; [exact N |]. split; [exact (proj2 FC) |]. cbn [player_of_client p_frags p_ping].
    split.
    - apply aget_or_values; [exact F |]. unfold in_i32. lia.
    - apply aget_or_values; [| reflexivity]. apply Forall_map. eapply Forall_impl; [| exact P]. intros [a b] [_ L]. cbn [snd] in *. unfold in_u32. lia. }
  rewrite Forall_forall in *. intros x I. apply in_map_iff in I. destruct I as [y [<- I]]. apply G. apply in_map.
  eapply Permutation.Permutation_in; [apply IT | exact I].
Qed.

Lemma players_fit_proof : forall E data ps, iterates (players_order E) -> fit_stats E -> players E data = Ret (Ok ps) -> Forall fit_player ps.
Proof.
  intros E data ps IT FS H. unfold players in H. apply bind_ret_inv in H. destruct H as [s [K H]]. destruct s as [stats | e].
  - inv H. apply sorted_fit. apply Forall_map. unfold ktxstats_v3 in K. apply bind_ret_inv in K. destruct K as [t [_ K]].
    destruct t as [text |]; [| discriminate]. injection K as K. apply FS in K. eapply Forall_impl; [| exact K]. intros p. apply player_from_fit.
  - exact (parsed_fit_proof E data ps IT H).
Qed.

Lemma majority_fit : forall E team colors c, each_iterates (colors_order E) -> Forall in_color colors -> majority_color E team colors = Ret (Some c) -> in_color c.
Proof.
  intros E team colors c IT F H.
  assert (forall counts, color_counts E colors = Ret counts -> Forall (fun x => in_color (fst x)) counts) as CC.
  { intros counts. unfold color_counts. apply (foldM_inv _ _ (fun m => Forall (fun x => in_color (fst x)) m)); [| constructor].
    intros m col m' FM I R. apply bind_ret_inv in R. destruct R as [n [_ R]]. inv R. apply in_aset; [exact FM | | auto].
    cbn [fst]. rewrite Forall_forall in F. exact (F _ I). }
  assert (forall l a, Forall (fun x : N * N * N => in_color (fst x)) l -> (forall c, fst a = Some c -> in_color c) ->
    forall c, fst (fold_left (fun '(mc, mn) '(color, count) => if mn <? count then (Some color, count) else (mc, mn)) l a) = Some c -> in_color c) as MX.
  { clear. induction l as [| [color count] l IH]; intros [mc mn] F A c H; cbn [fold_left] in H; [exact (A c H) |].
    inversion F; subst. refine (IH _ _ _ c H); [assumption |]. intros c' Q. destruct (mn <? count); [inv Q; assumption | exact (A c' Q)]. }
  destruct colors as [| a [| b [| d colors]]]; [discriminate | inv H; inversion F; assumption | inv H; inversion F; assumption |].
  cbn [majority_color] in H. apply bind_ret_inv in H. destruct H as [counts [K H]]. injection H as H.
  apply CC in K. refine (MX _ (None, 0) _ _ c H); [| discriminate].
  rewrite Forall_forall in *. intros x I. apply K. eapply Permutation.Permutation_in; [apply IT | exact I].
Qed.

Lemma round_to_u32_fit : forall x, in_u32 (f32_round_to_u32 x).
Proof. intros x. unfold f32_round_to_u32, in_u32, u32_max. destruct x as [| [] | | []]; try lia. Qed.

Lemma team_from_fit : forall E ps t, each_iterates (colors_order E) -> Forall fit_player ps -> team_from E ps = Ret t -> fit_team t.
Proof.
  intros E ps t IT F H. destruct ps as [| p0 ps]; [inv H; repeat split; try constructor; cbn; unfold in_i32; lia |].
  unfold team_from in H. apply bind_ret_inv in H. destruct H as [[frags ping] [A H]].
  apply bind_ret_inv in H. destruct H as [mc [MC H]]. inv H.
  split; [| split; [| split; [apply round_to_u32_fit | exact F]]]; cbn [t_color t_frags].
  - destruct mc as [c |]; [| inversion F as [| ? ? [Q _] ?]; exact Q]. apply (majority_fit E _ _ c IT) in MC; [exact MC |].
    apply Forall_map. eapply Forall_impl; [| exact F]. intros p [Q _]. exact Q.
  - revert A. apply (foldM_inv _ _ (fun s => in_i32 (fst s))); [| cbn; unfold in_i32; lia].
    intros [f g] p [f' g'] _ _ R. apply bind_ret_inv in R. destruct R as [f1 [I R]]. apply bind_ret_inv in R. destruct R as [g1 [_ R]]. inv R.
    exact (iadd_range _ _ _ _ I).
Qed.

Lemma mapM_fit : forall A B (P : B -> Prop) (f : A -> M B) l r, (forall a b, In a l -> f a = Ret b -> P b) -> mapM f l = Ret r -> Forall P r.
Proof.
  intros A B P f. induction l as [| a l IH]; intros r F H; cbn [mapM] in H; [inv H; constructor |].
  apply bind_ret_inv in H. destruct H as [b [H1 H]]. apply bind_ret_inv in H. destruct H as [bs [H2 H]]. inv H.
  constructor; [apply (F a b); [left; reflexivity | exact H1] | apply IH; [| exact H2]]. intros x y I. apply F. right. exact I.
Qed.

Lemma teams_fit_proof : forall E data ts, iterates (players_order E) -> iterates (teams_order E) -> each_iterates (colors_order E) -> fit_stats E ->
  teams E data = Ret (Ok ts) -> Forall fit_team ts.
Proof.
  intros E data ts IP IT IC FS H. unfold teams in H. apply bind_ret_inv in H. destruct H as [r [P H]]. destruct r as [ps |]; [| discriminate].
  apply bind_ret_inv in H. destruct H as [ts' [T H]]. inv H. apply (players_fit_proof E data ps IP FS) in P.
  unfold teams_from_players in T. apply bind_ret_inv in T. destruct T as [l [M T]]. inv T. apply sorted_fit.
  revert M. apply mapM_fit. intros g t I. apply team_from_fit; [exact IC |].
  assert (Forall (fun x => Forall fit_player (snd x)) (group_by_team ps)) as G.
  { assert (forall ps m, Forall fit_player ps -> Forall (fun x => Forall fit_player (snd x)) m ->
      Forall (fun x => Forall fit_player (snd x))
        (fold_left (fun m p => aset beq (p_team p) (aget_or beq (p_team p) [] m ++ [p]) m) ps m)) as G; [| apply G; [exact P | constructor]].
    clear. induction ps as [| p ps IH]; intros m P N; cbn [fold_left]; [exact N |]. inversion P as [| ? ? FP ?]; subst.
    apply IH; [assumption |]. apply Forall_map with (f := snd). apply aset_values; [apply Forall_map; exact N |].
    apply Forall_app. split; [| constructor; [exact FP | constructor]].
    apply aget_or_values; [apply Forall_map; exact N | constructor]. }
  apply in_map_iff in I. destruct I as [x [<- I]]. rewrite Forall_forall in G. apply G.
  eapply Permutation.Permutation_in; [apply IT | exact I].
Qed.

Lemma few_keys : forall l : list N, NoDup l -> Forall (fun n => n < 256) l -> len l <= 256.
Proof.
  intros l ND F. assert (incl l (map N.of_nat (seq 0 256))) as I.
  { intros n I. rewrite Forall_forall in F. specialize (F n I). apply in_map_iff. exists (N.to_nat n). split; [lia |]. apply in_seq. lia. }
  pose proof (NoDup_incl_length ND I) as L. rewrite map_length, seq_length in L. unfold len. lia.
Qed.

Lemma pings_few_proof : forall E data t, ping_per_player_number E data = Ret (Ok t) -> len t <= 256.
Proof.
  intros E data t H. destruct (pings_fit_proof E data t H) as [ND F].
  replace (len t) with (len (map fst t)) by (unfold len; rewrite map_length; reflexivity). apply few_keys; [exact ND |].
  apply Forall_map. eapply Forall_impl; [| exact F]. intros x [L _]. exact L.
Qed.

Lemma parsed_few_proof : forall E data ps, iterates (players_order E) -> players_from_parsing E data = Ret (Ok ps) -> len ps <= 256.
Proof.
  intros E data ps IT H. unfold players_from_parsing in H. apply bind_ret_inv in H. destruct H as [c [C H]]. destruct c as [cs |]; [| discriminate].
  apply bind_ret_inv in H. destruct H as [p [P H]]. destruct p as [pings |]; [| discriminate].
  apply bind_ret_inv in H. destruct H as [frags [F H]]. inv H. apply clients_fit_proof in C.
  assert (forall l m, Forall fit_client l -> NoDup (map fst m) /\ Forall (fun n => n < 256) (map fst m) ->
    NoDup (map fst (fold_left (fun m c => aset N.eqb (c_number c) (player_of_client frags pings c) m) l m)) /\
    Forall (fun n => n < 256) (map fst (fold_left (fun m c => aset N.eqb (c_number c) (player_of_client frags pings c) m) l m))) as K.
  { clear. induction l as [| c l IH]; intros m FC [ND F]; cbn [fold_left]; [auto |]. inversion FC as [| ? ? [Q _] ?]; subst.
    apply IH; [assumption |]. split; [apply (aset_nodup N.eqb N.eqb_eq); exact ND |].
    rewrite aset_keys. destruct (existsb _ _); [exact F |]. apply Forall_app. split; [exact F | constructor; [exact Q | constructor]]. }
  specialize (K (filter (fun c => negb (c_is_spectator c)) cs) []). destruct K as [ND FK].
  { rewrite Forall_forall in *. intros x I. apply filter_In in I. apply C. apply I. }
  { split; constructor. }
  unfold len. rewrite (Permutation.Permutation_length (sort_by_perm _ player_cmp _)), map_length, (Permutation.Permutation_length (IT _)).
  rewrite <- (map_length fst). exact (few_keys _ ND FK).
Qed.
