(** Players whose teams are given other names, or several teams one name *)
From Coq Require Import Lia ZifyN ZifyNat ZifyBool Permutation.
From Verif.Model Require Import Base Float Env Clients Frags Ktxstats Players.
From Verif.Spec Require Import Mvd Messages Score Wrap Rename Recording Order Clientlist Teams TeamMerge.
From Verif.Proofs Require Import BaseFacts OrderFacts TeamFacts ScoreProps WrapFacts RenameFacts ShuffleFacts SourceFacts RecordingTexts.
From Verif.Proofs Require ClientFacts.
Open Scope N_scope.

Definition in_team (n : str) (p : Player) : bool := beq (p_team p) n.

Lemma filter_or : forall A (f g : A -> bool) l, (forall x, f x = true -> g x = false) ->
  Permutation (filter f l ++ filter g l) (filter (fun x => f x || g x) l).
Proof.
  intros A f g l D. induction l as [| x l IH]; [constructor |]. cbn [filter]. destruct (f x) eqn:F; cbn [orb].
  - rewrite (D x F). cbn [app]. constructor. exact IH.
  - destruct (g x); [| exact IH]. apply Permutation_sym, Permutation_cons_app, Permutation_sym. exact IH.
Qed.

Lemma filter_same : forall A (f g : A -> bool) l, (forall x, In x l -> f x = g x) -> filter f l = filter g l.
Proof.
  intros A f g l H. induction l as [| x l IH]; [reflexivity |]. cbn [filter]. rewrite (H x (or_introl eq_refl)).
  rewrite IH by (intros y Y; apply H; right; exact Y). reflexivity.
Qed.

Lemma by_team : forall (Q : str -> bool) ps ks, NoDup ks ->
  Permutation (concat (map (fun k => filter (in_team k) ps) (filter Q ks)))
    (filter (fun p => Q (p_team p) && existsb (beq (p_team p)) ks) ps).
Proof.
  intros Q ps ks. induction ks as [| k ks IH]; intros ND.
  - cbn [filter map concat existsb]. rewrite (filter_same _ _ (fun _ => false)) by (intros; apply Bool.andb_false_r).
    clear. induction ps; [constructor | exact IHps].
  - inversion ND as [| ? ? N1 N2]. subst. specialize (IH N2). cbn [filter]. destruct (Q k) eqn:QK.
    + cbn [map concat]. eapply perm_trans; [apply Permutation_app_head; exact IH |].
      eapply perm_trans; [apply filter_or |].
      * intros p X. unfold in_team in X. apply beq_eq in X. rewrite X.
        destruct (existsb (beq k) ks) eqn:Y; [| apply Bool.andb_false_r]. apply existsb_exists in Y. destruct Y as [y [Y1 Y2]].
        apply beq_eq in Y2. subst y. contradiction.
      * erewrite filter_same; [reflexivity |]. intros p _. unfold in_team. cbn [existsb]. destruct (beq (p_team p) k) eqn:X; [| reflexivity].
        apply beq_eq in X. rewrite X, QK. reflexivity.
    + eapply perm_trans; [exact IH |]. erewrite filter_same; [reflexivity |]. intros p _. cbn [existsb].
      destruct (beq (p_team p) k) eqn:X; [| reflexivity]. apply beq_eq in X. rewrite X, QK. reflexivity.
Qed.

Lemma members : forall ps n a b, splits (fun p => p_team p = n) ps a b -> a = filter (in_team n) ps.
Proof.
  intros ps n a b H. induction H as [| x l a b P H IH | x l a b P H IH]; [reflexivity | |]; cbn [filter]; unfold in_team at 1.
  - rewrite (proj2 (beq_eq (p_team x) n)) by exact P. rewrite IH. reflexivity.
  - rewrite (proj2 (beq_neq (p_team x) n)) by exact P. exact IH.
Qed.

Lemma filter_reteam : forall g n ps, filter (in_team n) (map (reteam g) ps) = map (reteam g) (filter (fun p => beq (g (p_team p)) n) ps).
Proof.
  intros g n ps. induction ps as [| p ps IH]; [reflexivity |]. cbn [map filter]. unfold in_team at 1. cbn [reteam p_team].
  destruct (beq (g (p_team p)) n); cbn [map]; rewrite IH; reflexivity.
Qed.

Lemma total_app' : forall a b, total (a ++ b) = (total a + total b)%Z.
Proof. intros a b. unfold total. induction a as [| x a IH]; cbn [app fold_right]; [lia | rewrite IH; lia]. Qed.
Lemma total_perm : forall a b, Permutation a b -> total a = total b.
Proof. intros a b H. unfold total. induction H; cbn [fold_right] in *; lia. Qed.
Lemma ping_app : forall a b, total_ping (a ++ b) = total_ping a + total_ping b.
Proof. intros a b. unfold total_ping. rewrite map_app. induction (map p_ping a) as [| x l IH]; cbn [app fold_right]; [lia | rewrite IH; lia]. Qed.
Lemma ping_perm : forall a b, Permutation a b -> total_ping a = total_ping b.
Proof. intros a b H. unfold total_ping. induction H; cbn [map fold_right] in *; lia. Qed.

Lemma frags_reteam : forall g ps, map p_frags (map (reteam g) ps) = map p_frags ps.
Proof. intros g ps. rewrite map_map. reflexivity. Qed.
Lemma ping_reteam : forall g ps, total_ping (map (reteam g) ps) = total_ping ps.
Proof. intros g ps. unfold total_ping. rewrite map_map. reflexivity. Qed.

Lemma teams_members : forall ps ts, Forall (team_of ps) ts -> forall t, In t ts -> t_players t = filter (in_team (t_name t)) ps.
Proof. intros ps ts F t I. rewrite Forall_forall in F. destruct (tm_members _ _ (F t I)) as [o H]. apply members in H. exact H. Qed.

Lemma teams_players : forall g n ps ts, Forall (team_of ps) ts ->
  concat (map t_players (teams_to g n ts)) =
  concat (map (fun k => filter (in_team k) ps) (filter (fun k => beq (g k) n) (map t_name ts))).
Proof.
  intros g n ps ts F. pose proof (teams_members ps ts F) as M. clear F. unfold teams_to.
  induction ts as [| t ts IH]; [reflexivity |]. specialize (IH (fun t I => M t (or_intror I))). cbn [map filter].
  destruct (beq (g (t_name t)) n); [| exact IH]. cbn [map concat]. rewrite IH, (M t) by (left; reflexivity). reflexivity.
Qed.

Lemma gathered : forall lower g ps ts ts', teams_of lower ps ts -> teams_of lower (map (reteam g) ps) ts' ->
  forall t', In t' ts' -> Permutation (t_players t') (map (reteam g) (concat (map t_players (teams_to g (t_name t') ts)))).
Proof.
  intros lower g ps ts ts' H H' t' I. rewrite (teams_members _ _ (to_each _ _ _ H') t' I), filter_reteam.
  apply Permutation_map. rewrite (teams_players _ _ _ _ (to_each _ _ _ H)).
  eapply perm_trans; [| apply Permutation_sym, by_team; apply (to_once _ _ _ H)].
  erewrite filter_same; [reflexivity |]. intros p P. cbn beta.
  assert (existsb (beq (p_team p)) (map t_name ts) = true) as ->; [| rewrite Bool.andb_true_r; reflexivity].
  apply existsb_exists. exists (p_team p). split; [| apply beq_refl]. apply (to_names _ _ _ H). exists p. auto.
Qed.

Lemma frags_of_all : forall ps ts, Forall (team_of ps) ts -> total (map t_frags ts) = total (map p_frags (concat (map t_players ts))).
Proof.
  intros ps ts F. induction F as [| t ts H F IH]; [reflexivity |]. cbn [map concat]. rewrite map_app, total_app', <- IH, <- (tm_frags _ _ H).
  reflexivity.
Qed.

Lemma Forall_filter : forall A (P : A -> Prop) f l, Forall P l -> Forall P (filter f l).
Proof. intros A P f l H. rewrite Forall_forall in *. intros x I. apply filter_In in I. apply H. apply I. Qed.

Lemma pings_of_all : forall ps ts lo hi, Forall (team_of ps) ts -> (forall t, In t ts -> lo <= t_ping t <= hi) ->
  let all := concat (map t_players ts) in total_ping all + len all <= 8388608 ->
  2 * len all * lo <= 2 * total_ping all + len all /\ (ts <> [] -> 2 * total_ping all + len all < 2 * len all * (hi + 1)).
Proof.
  intros ps ts lo hi F. induction F as [| t ts H F IH]; intros B all L; [split; [cbn; lia | intros X; contradiction X; reflexivity] |].
  subst all. cbn [map concat] in *. rewrite !len_app, !ping_app in *.
  specialize (IH (fun t I => B t (or_intror I)) ltac:(lia)). destruct IH as [A1 A2]. destruct (B t (or_introl eq_refl)) as [B1 B2].
  pose proof (tm_ping _ _ H ltac:(lia)) as [R1 R2]. set (s := total_ping (t_players t)) in *. set (n := len (t_players t)) in *.
  set (s' := total_ping (concat (map t_players ts))) in *. set (n' := len (concat (map t_players ts))) in *.
  assert (n * lo <= n * t_ping t) by (apply N.mul_le_mono_l; exact B1).
  assert (n * (t_ping t + 1) <= n * (hi + 1)) by (apply N.mul_le_mono_l; lia).
  split; [lia |]. intros _. destruct ts as [| u ts].
  - subst s' n'. cbn [map concat] in *. change (total_ping []) with 0. change (len []) with 0 in *. lia.
  - specialize (A2 ltac:(discriminate)). lia.
Qed.

Lemma merged_teams_proof : forall lower g ps ts ts', teams_of lower ps ts -> teams_of lower (map (reteam g) ps) ts' ->
  merged_teams g ts ts'.
Proof.
  intros lower g ps ts ts' H H'. pose proof (gathered lower g ps ts ts' H H') as G.
  assert (forall n, Forall (team_of ps) (teams_to g n ts)) as FT by (intros n; apply Forall_filter, (to_each _ _ _ H)).
  pose proof (to_each _ _ _ H') as E'. rewrite Forall_forall in E'. split.
  - apply (to_once _ _ _ H').
  - intros n. rewrite (to_names _ _ _ H'). split.
    + intros [q [I <-]]. apply in_map_iff in I. destruct I as [p [<- I]]. cbn [reteam p_team].
      assert (In (p_team p) (map t_name ts)) as J by (apply (to_names _ _ _ H); exists p; auto).
      apply in_map_iff in J. destruct J as [t [Q J]]. exists t. rewrite Q. auto.
    + intros [t [I ->]]. assert (In (t_name t) (map t_name ts)) as J by (apply in_map; exact I).
      apply (to_names _ _ _ H) in J. destruct J as [p [J Q]]. exists (reteam g p). split; [apply in_map; exact J |].
      cbn [reteam p_team]. rewrite Q. reflexivity.
  - exact G.
  - intros t' I. rewrite (tm_frags _ _ (E' t' I)), (frags_of_all ps _ (FT (t_name t'))).
    rewrite <- (frags_reteam g (concat _)). apply total_perm, Permutation_map, G. exact I.
  - intros t' lo hi I L B. pose proof (G t' I) as P. pose proof (ping_perm _ _ P) as P1. rewrite ping_reteam in P1.
    pose proof (Permutation_length P) as P2. rewrite map_length in P2.
    assert (len (t_players t') = len (concat (map t_players (teams_to g (t_name t') ts)))) as P3 by (unfold len; rewrite P2; reflexivity).
    destruct (pings_of_all ps _ lo hi (FT (t_name t')) B ltac:(lia)) as [A1 A2].
    pose proof (tm_ping _ _ (E' t' I) L) as [R1 R2]. pose proof (tm_some _ _ (E' t' I)) as S.
    assert (0 < len (t_players t')) as Z by (destruct (t_players t'); [contradiction S; reflexivity | rewrite len_cons; lia]).
    assert (teams_to g (t_name t') ts <> []) as NE by (intros X; rewrite X in P3; cbn in P3; lia).
    specialize (A2 NE). rewrite <- P1, <- P3 in A1, A2. set (s := total_ping (t_players t')) in *. set (n := len (t_players t')) in *.
    split; apply N.lt_succ_r; rewrite <- N.add_1_r; apply (N.mul_lt_mono_pos_l (2 * n)); lia.
Qed.

(** Other names *)
Lemma wear_reteam : forall g c ps n, wear c (map (reteam g) ps) n <-> wear c ps n.
Proof.
  intros g c ps. induction ps as [| p ps IH]; intros n; cbn [map]; split; intros W; inversion W; subst; try constructor; auto; apply IH; assumption.
Qed.
Lemma most_worn_reteam : forall g c ps, most_worn c (map (reteam g) ps) <-> most_worn c ps.
Proof.
  intros g c ps. split; intros [n (P & W & M)]; exists n; (split; [exact P |]); (split; [apply (wear_reteam g); exact W |]);
    intros d m X; apply (M d); apply (wear_reteam g); exact X.
Qed.

(** the ping as it is computed *)
Definition exact_pings (ts : list Team) : Prop := forall t, In t ts ->
  t_ping t = f32_round_to_u32 (f32_div (f32_of_N (total_ping (t_players t))) (f32_of_N (len (t_players t)))).

Lemma pings_exact : forall E ps ts, iterates (teams_order E) -> each_iterates (colors_order E) -> sums_fit ps ->
  teams_from_players E ps = Ret ts -> teams_of (to_lowercase E) ps ts -> exact_pings ts.
Proof.
  intros E ps ts IT IC SF T H t I. pose proof (team_in E ps ts t IT T I) as A.
  destruct (sums_fit_members ps (t_name t) SF) as [L1 [P1 F1]].
  pose proof (to_each _ _ _ H) as EA. pose proof (teams_members _ _ EA t I) as M. rewrite Forall_forall in EA. pose proof (tm_some _ _ (EA t I)) as NE.
  unfold in_team in M. fold (ShuffleFacts.members (t_name t) ps) in M. rewrite <- M in *.
  destruct (team_done E (t_players t) IC NE L1 P1 F1) as [t0 [A0 (_ & _ & _ & _ & PX & _)]]. rewrite A in A0. injection A0 as <-. exact PX.
Qed.

Lemma same_team_proof : forall lower g ps ts ts', injective g -> teams_of lower ps ts -> teams_of lower (map (reteam g) ps) ts' ->
  exact_pings ts -> exact_pings ts' ->
  length ts = length ts' /\ forall t, In t ts -> exists t', In t' ts' /\ same_team g t t'.
Proof.
  intros lower g ps ts ts' INJ H H' XP XP'. pose proof (merged_teams_proof lower g ps ts ts' H H') as M.
  pose proof (to_each _ _ _ H) as E0. pose proof (to_each _ _ _ H') as E'. rewrite Forall_forall in E0, E'.
  split.
  - assert (NoDup (map g (map t_name ts))) as N1 by (apply FinFun.Injective_map_NoDup; [exact INJ | apply (to_once _ _ _ H)]).
    assert (Permutation (map g (map t_name ts)) (map t_name ts')) as P.
    { apply NoDup_Permutation; [exact N1 | apply (to_once _ _ _ H') |]. intros n. rewrite (mt_names _ _ _ M). rewrite map_map, in_map_iff.
      split; intros [t [A B]]; exists t; [subst n |]; auto. }
    apply Permutation_length in P. rewrite !map_length in P. exact P.
  - intros t I. assert (In (g (t_name t)) (map t_name ts')) as J by (apply (mt_names _ _ _ M); exists t; auto).
    apply in_map_iff in J. destruct J as [t' [Q J]]. exists t'. split; [exact J |].
    assert (t_players t' = map (reteam g) (t_players t)) as PL.
    { rewrite (teams_members _ _ (to_each _ _ _ H') t' J), (teams_members _ _ (to_each _ _ _ H) t I), Q, filter_reteam. f_equal.
      apply filter_same. intros p _. unfold in_team. destruct (beq (p_team p) (t_name t)) eqn:X.
      - apply beq_eq in X. rewrite X. apply beq_refl.
      - apply beq_neq. apply beq_neq in X. intros Y. apply X, INJ, Y. }
    split.
    + exact Q.
    + exact PL.
    + rewrite (tm_frags _ _ (E' t' J)), (tm_frags _ _ (E0 t I)), PL, frags_reteam. reflexivity.
    + rewrite (XP t I), (XP' t' J), PL, ping_reteam. unfold len. rewrite map_length. reflexivity.
    + intros C. pose proof (tm_color _ _ (E0 t I)) as C1. pose proof (tm_color _ _ (E' t' J)) as C2. rewrite PL in C2.
      destruct (t_players t) as [| a [| b [| c l]]] eqn:XL; cbn [map team_color reteam p_color] in *.
      * contradiction.
      * congruence.
      * congruence.
      * apply C; [cbn; lia | apply (most_worn_reteam g); exact C2 | exact C1].
Qed.

Lemma sums_fit_reteam : forall g ps, injective g -> sums_fit ps -> sums_fit (map (reteam g) ps).
Proof.
  intros g ps INJ SF team ms others H. apply members in H. rewrite filter_reteam in H.
  assert (exists n, ms = map (reteam g) (filter (in_team n) ps) \/ ms = []) as [n [X | X]].
  { destruct (filter (fun p => beq (g (p_team p)) team) ps) as [| q l] eqn:F; [exists []; right; exact H |].
    exists (p_team q). left. rewrite H, <- F. f_equal.
    assert (In q (filter (fun p => beq (g (p_team p)) team) ps)) as I by (rewrite F; left; reflexivity).
    apply filter_In in I. destruct I as [_ I]. apply beq_eq in I. apply filter_same. intros p _. unfold in_team.
    destruct (beq (p_team p) (p_team q)) eqn:Y.
    - apply beq_eq in Y. rewrite Y, I. apply beq_refl.
    - apply beq_neq. apply beq_neq in Y. intros Z. apply Y, INJ. congruence. }
  - destruct (SF n _ _ (group_splits ps n)) as (A & B & C). change (fun p => beq (p_team p) n) with (in_team n) in *.
    rewrite X. assert (len (map (reteam g) (filter (in_team n) ps)) = len (filter (in_team n) ps)) as L by (unfold len; rewrite map_length; reflexivity).
    rewrite L, ping_reteam. split; [exact A |]. split; [exact B |]. intros a b Q. apply map_eq_app in Q. destruct Q as (a0 & b0 & Q & <- & <-).
    rewrite frags_reteam. apply (C _ b0). exact Q.
  - rewrite X. split; [reflexivity |]. split; [reflexivity |]. intros a b Q. symmetry in Q. apply app_eq_nil in Q. destruct Q as [-> _]. cbn. lia.
Qed.

Lemma teams_merged_proof : forall E g ps, iterates (teams_order E) -> each_iterates (colors_order E) ->
  sums_fit ps -> sums_fit (map (reteam g) ps) ->
  exists ts ts', teams_from_players E ps = Ret ts /\ teams_from_players E (map (reteam g) ps) = Ret ts' /\ merged_teams g ts ts'.
Proof.
  intros E g ps T C S S'. destruct (teams_proof E ps T C S) as (ts & R & H). destruct (teams_proof E _ T C S') as (ts' & R' & H').
  exists ts, ts'. split; [exact R |]. split; [exact R' |]. exact (merged_teams_proof _ g ps ts ts' H H').
Qed.

Lemma teams_relabelled_proof : forall E g ps, iterates (teams_order E) -> each_iterates (colors_order E) -> injective g -> sums_fit ps ->
  exists ts ts', teams_from_players E ps = Ret ts /\ teams_from_players E (map (reteam g) ps) = Ret ts' /\
    length ts = length ts' /\ forall t, In t ts -> exists t', In t' ts' /\ same_team g t t'.
Proof.
  intros E g ps T C J S. destruct (teams_proof E ps T C S) as (ts & R & H).
  destruct (teams_proof E _ T C (sums_fit_reteam g ps J S)) as (ts' & R' & H').
  exists ts, ts'. split; [exact R |]. split; [exact R' |]. exact (same_team_proof _ g ps ts ts' J H H' (pings_exact _ _ _ T C S R H) (pings_exact _ _ _ T C (sums_fit_reteam g ps J S) R' H')).
Qed.

(** Recordings *)
Lemma filter_reteam_clients : forall g cs, filter (fun c => negb (c_is_spectator c)) (map (reteam_client g) cs) =
  map (reteam_client g) (filter (fun c => negb (c_is_spectator c)) cs).
Proof.
  intros g cs. induction cs as [| c cs IH]; [reflexivity |]. cbn [map filter]. cbn [reteam_client c_is_spectator].
  destruct (c_is_spectator c); cbn [negb map]; rewrite IH; reflexivity.
Qed.

Lemma portraits : forall g r r' cs es es', timeline r' = timeline r -> Forall2 (portrait r) cs es ->
  Forall2 (portrait r') (map (reteam_client g) cs) es' -> es' = map (reteam g) es.
Proof.
  intros g r r' cs es es' T F. revert es'. induction F as [| c p cs es P F IH]; intros es' F'; inversion F' as [| ? p' ? es2 P' F2]; subst; [reflexivity |].
  cbn [map]. rewrite (IH _ F2). f_equal. destruct P, P'.
  destruct p as [a1 a2 a3 a4 a5 a6 a7 a8], p' as [b1 b2 b3 b4 b5 b6 b7 b8].
  cbn [reteam reteam_client p_name p_team p_color p_frags p_ping p_is_bot p_auth_username p_auth_cc c_number c_name c_team c_color c_is_bot c_auth_username c_auth_cc] in *.
  unfold all_scores, pings_reported in *. rewrite T in *. subst. reflexivity.
Qed.

Lemma portraits_names : forall r cs es, Forall2 (portrait r) cs es -> map p_name es = map c_name cs.
Proof. intros r cs es F. induction F as [| c p cs es P F IH]; [reflexivity |]. cbn [map]. rewrite IH, (po_name _ _ _ P). reflexivity. Qed.

Lemma better_reteam : forall g l, in_order_of better l -> in_order_of better (map (reteam g) l).
Proof.
  intros g l H. induction H as [| p l H IH F]; [constructor |]. cbn [map]. constructor; [exact IH |].
  rewrite Forall_forall in *. intros q Q. apply in_map_iff in Q. destruct Q as [q0 [<- Q]]. exact (F q0 Q).
Qed.

Lemma recordings_reteamed_proof : forall E g cs cs' r r' m, wf_recording E cs r -> wf_recording E cs' r' -> reteamed g cs cs' r r' ->
  iterates (players_order E) -> pings_reported r <> [] -> ktxstats_from E (concat (map snd (r_stats r))) = Err m ->
  exists ps, players E (encode (frames r)) = Ret (Ok ps) /\ players E (encode (frames r')) = Ret (Ok (map (reteam g) ps)).
Proof.
  intros E g cs cs' r r' m W W' [C T S ND] IT NE K. subst cs'.
  destruct (recording_players_listed E cs r m W IT NE K) as (es & l & R & F & P & O).
  assert (pings_reported r' <> []) as NE' by (unfold pings_reported in *; rewrite T; exact NE).
  assert (ktxstats_from E (concat (map snd (r_stats r'))) = Err m) as K' by (rewrite S; exact K).
  destruct (recording_players_listed E _ r' m W' IT NE' K') as (es' & l' & R' & F' & P' & O').
  exists l. split; [exact R |]. rewrite R'. do 2 f_equal. rewrite filter_reteam_clients in F'.
  pose proof (portraits g r r' _ _ _ T F F') as Q. subst es'.
  pose proof (portraits_names _ _ _ F) as NM. rewrite <- NM in ND.
  apply (in_order_unique _ better); [| exact O' | apply better_reteam; exact O |].
  - intros a b IA IB NA NB. destruct (better_total a b) as [B | [[_ X] | B]]; [contradiction | | contradiction].
    assert (NoDup (map p_name l')) as N2.
    { eapply Permutation_NoDup; [apply Permutation_map; exact P' |]. rewrite map_map. exact ND. }
    apply (in_unique _ _ p_name _ _ _ N2 IA IB X).
  - eapply perm_trans; [apply Permutation_sym; exact P' |]. apply Permutation_map. exact P.
Qed.

Lemma recordings_teams_proof : forall E g cs cs' r r' m ps, wf_recording E cs r -> wf_recording E cs' r' -> reteamed g cs cs' r r' ->
  iterates (players_order E) -> iterates (teams_order E) -> each_iterates (colors_order E) ->
  pings_reported r <> [] -> ktxstats_from E (concat (map snd (r_stats r))) = Err m ->
  players E (encode (frames r)) = Ret (Ok ps) -> sums_fit ps -> sums_fit (map (reteam g) ps) ->
  exists ts ts', teams E (encode (frames r)) = Ret (Ok ts) /\ teams E (encode (frames r')) = Ret (Ok ts') /\ merged_teams g ts ts' /\
    (injective g -> length ts = length ts' /\ forall t, In t ts -> exists t', In t' ts' /\ same_team g t t').
Proof.
  intros E g cs cs' r r' m ps W W' RT IP IT IC NE K PS SF SF'.
  destruct (recordings_reteamed_proof E g cs cs' r r' m W W' RT IP NE K) as (ps0 & R & R'). rewrite PS in R. injection R as <-.
  destruct (teams_proof E ps IT IC SF) as (ts & T & H). destruct (teams_proof E _ IT IC SF') as (ts' & T' & H').
  exists ts, ts'. unfold teams. rewrite PS, R'. cbn [bind]. rewrite T, T'. split; [reflexivity |]. split; [reflexivity |].
  split; [exact (merged_teams_proof _ g ps ts ts' H H') |]. intros J. exact (same_team_proof _ g ps ts ts' J H H' (pings_exact _ _ _ IT IC SF T H) (pings_exact _ _ _ IT IC SF' T' H')).
Qed.

(** Team kills *)
Lemma charged_reteam : forall g cs v nums k, injective g -> charged (map (reteam_client g) cs) v nums k <-> charged cs v nums k.
Proof.
  intros g cs v nums k INJ. unfold charged.
  assert (NAME : forall x, c_name (reteam_client g x) = v <-> c_name x = v) by reflexivity.
  assert (NUM : forall n x, c_number (reteam_client g x) = n <-> c_number x = n) by reflexivity.
  assert (GOOD : forall w n, (exists c, first_with (fun c => c_number c = n) (map (reteam_client g) cs) c
              /\ c_team c = c_team (reteam_client g w) /\ c_name c <> v) <->
            exists c, first_with (fun c => c_number c = n) cs c /\ c_team c = c_team w /\ c_name c <> v).
  { intros w n. split.
    - intros [c [C [T D]]]. apply (first_with_map _ _ _ _ _ _ _ (NUM n)) in C. destruct C as [c0 [C ->]].
      exists c0. split; [exact C |]. split; [apply INJ; exact T | exact D].
    - intros [c [C [T D]]]. exists (reteam_client g c). split; [apply (first_with_map _ _ _ _ _ _ _ (NUM n)); eauto |].
      split; [cbn; congruence | exact D]. }
  split.
  - intros [w [W [n [c [G [C K]]]]]]. apply (first_with_map _ _ _ _ _ _ _ NAME) in W. destruct W as [w0 [W ->]].
    apply (first_with_map _ _ _ _ _ _ _ (NUM n)) in C. destruct C as [c0 [C ->]].
    exists w0. split; [exact W |]. exists n, c0.
    split; [| split; [exact C | exact K]]. eapply first_with_iff; [| exact G]. intros x. symmetry. apply GOOD.
  - intros [w [W [n [c [G [C K]]]]]]. exists (reteam_client g w).
    split; [apply (first_with_map _ _ _ _ _ _ _ NAME); eauto |]. exists n, (reteam_client g c).
    split; [| split; [apply (first_with_map _ _ _ _ _ _ _ (NUM n)); eauto | exact K]].
    eapply first_with_iff; [| exact G]. intros x. apply GOOD.
Qed.

Lemma scored_reteam : forall g cs nums text l, injective g -> scored cs nums text l -> scored (map (reteam_client g) cs) nums text l.
Proof.
  intros g cs nums text l INJ [t [T [[e [R H]] | H]]]; exists t; (split; [exact T |]); [left; exists e; split; [exact R |] | right; exact H].
  destruct e; cbn [entries] in *; try exact H. destruct H as [[k [C ->]] | [N ->]].
  - left. exists k. split; [| reflexivity]. apply charged_reteam; assumption.
  - right. split; [| reflexivity]. intros k C. apply charged_reteam in C; [| exact INJ]. exact (N k C).
Qed.

Lemma frags_reteamed_proof : forall g, injective g -> forall E fs fs' rest rest' cs, wf fs -> wf fs' ->
  stops (len (encode fs ++ rest)) rest -> stops (len (encode fs' ++ rest')) rest' ->
  clients E (encode fs ++ rest) = Ret (Ok cs) -> clients E (encode fs' ++ rest') = Ret (Ok (map (reteam_client g) cs)) ->
  Forall2 same_obituary (obituaries fs) (obituaries fs') ->
  renamed (fun n => n) (frags_per_player_name E (encode fs ++ rest)) (frags_per_player_name E (encode fs' ++ rest')).
Proof.
  intros g INJ E fs fs' rest rest' cs W W' S S' C C' D.
  assert (exists per, Forall2 (fun '(m, s) l => scored cs (nearby_updates m s) (to_unicode E (m_text m)) l) (obituaries fs) per /\
    Forall2 (fun '(m, s) l => scored (map (reteam_client g) cs) (nearby_updates m s) (to_unicode E (m_text m)) l) (obituaries fs') per)
    as [per [F F']].
  { clear -D INJ. induction D as [| [m s] [m' s'] l l' [A B] D [per [F F']]]; [exists []; split; constructor |]. cbn [fst snd] in *.
    destruct (scored_exists_proof cs (nearby_updates m s) (to_unicode E (m_text m))) as [e G].
    exists (e :: per). split; constructor; auto. rewrite A, B. apply scored_reteam; assumption. }
  assert (ID : forall a b : str, (fun n : str => n) a = (fun n => n) b -> a = b) by (intros a b X; exact X).
  destruct (scores_any_proof E fs rest (Ok cs) per W S C F) as [[CK [L ->]] | [NL [t [-> T]]]];
    destruct (scores_any_proof E fs' rest' (Ok (map (reteam_client g) cs)) _ W' S' C' F') as [[CK' [L' ->]] | [NL' [t' [-> T']]]].
  - reflexivity.
  - contradiction (NL' CK).
  - contradiction (NL CK').
  - cbn [renamed]. eapply (tabulates32_rename (fun n => n) ID); [exact T |].
    unfold rename_rows. rewrite (map_ext _ (fun x => x)) by (intros [k v]; reflexivity). rewrite map_id. exact T'.
Qed.
