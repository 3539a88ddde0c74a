(** A player who scores *)
From Coq Require Import Lia Permutation Sorted ZifyN ZifyNat ZifyBool.
From Verif.Model Require Import Base Env Clientinfo Clients Frags Ping Ktxstats Players.
From Verif.Spec Require Import Pings Score Wrap Mvd Recording Order Clientlist Teams Climb.
From Verif.Proofs Require TeamMergeFacts WrapFacts RangeFacts.
From Verif.Proofs Require Import BaseFacts OrderFacts TeamFacts SourceFacts RecordingTexts ShuffleFacts ColumnFacts OneMoreFacts DeterminedFacts StandingFacts.
Open Scope N_scope.

Lemma app_prefix : forall A (a b c d : list A), a ++ b = c ++ d -> (length a <= length c)%nat -> exists u, c = a ++ u /\ b = u ++ d.
Proof.
  intros A a. induction a as [| x a IH]; intros b c d H L; [exists c; split; [reflexivity | exact H] |].
  destruct c as [| y c]; cbn [length] in L; [lia |]. cbn [app] in H. injection H as <- H. destruct (IH _ _ _ H ltac:(lia)) as (u & -> & ->).
  exists u. split; reflexivity.
Qed.

Lemma better_points : forall d p, (0 < d)%Z -> better (with_points d p) p.
Proof. intros d p D. left. cbn [with_points p_frags]. lia. Qed.

Lemma sorted_climbs : forall d p x y x' y', (0 < d)%Z -> in_order_of better (x ++ p :: y) -> in_order_of better (x' ++ with_points d p :: y') ->
  x ++ y = x' ++ y' -> climbs p d (x ++ p :: y) (x' ++ with_points d p :: y').
Proof.
  intros d p x y x' y' D S S' E. destruct (Nat.le_gt_cases (length x') (length x)) as [L | L].
  - destruct (app_prefix _ _ _ _ _ (eq_sym E) L) as (u & -> & ->). exists x', u, y. rewrite <- app_assoc. split; reflexivity.
  - exfalso. destruct (app_prefix _ _ _ _ _ E ltac:(lia)) as (u & -> & ->). rewrite app_length in L. destruct u as [| e u]; [cbn [length] in L; lia |].
    assert (~ better e p) as NE.
    { clear - S. induction x as [| z x IH]; cbn [app] in S; inversion S as [| ? ? S' F]; subst; [| apply IH; exact S'].
      inversion F; assumption. }
    assert (~ better (with_points d p) e) as NP.
    { clear - S'. induction x as [| z x IH]; cbn [app] in S'; inversion S' as [| ? ? S F]; subst; [| apply IH; exact S].
      rewrite Forall_forall in F. apply F. apply in_app_iff. right. left. reflexivity. }
    destruct better_key_order as [KI KT KS]. destruct (KS _ e _ (better_points d p D)); contradiction.
Qed.

Lemma player_points : forall k k' d, stats_points d k k' -> player_from k' = with_points d (player_from k).
Proof. intros k k' d (A1 & A2 & A3 & A4 & A5 & A6 & A7 & A8). unfold player_from, with_points. cbn. rewrite A1, A2, A3, A4, A5, A6, A7, A8. reflexivity. Qed.

Lemma sort_climbs : forall d p a b, (0 < d)%Z -> climbs p d (sort_by player_cmp (a ++ p :: b)) (sort_by player_cmp (a ++ with_points d p :: b)).
Proof.
  intros d p a b D.
  destruct (sort_one_more Player better player_cmp better_key_order player_cmp_gt a p b) as (x & y & E1 & E2).
  destruct (sort_one_more Player better player_cmp better_key_order player_cmp_gt a (with_points d p) b) as (x' & y' & E3 & E4).
  pose proof (in_order_sort Player better player_cmp better_key_order player_cmp_gt (a ++ p :: b)) as S1.
  pose proof (in_order_sort Player better player_cmp better_key_order player_cmp_gt (a ++ with_points d p :: b)) as S2.
  rewrite E1 in *. rewrite E3 in *. apply sorted_climbs; congruence.
Qed.

Lemma stats_climb_proof : forall E e e' s s' a k k' b d,
  ktxstats_v3 E e = Ret (Ok s) -> ks_players s = a ++ k :: b -> ktxstats_v3 E e' = Ret (Ok s') -> ks_players s' = a ++ k' :: b ->
  stats_points d k k' -> (0 < d)%Z ->
  exists ps qs p, converted k p /\ players E e = Ret (Ok ps) /\ players E e' = Ret (Ok qs) /\ climbs p d ps qs.
Proof.
  intros E e e' s s' a k k' b d S P S' P' Q D. do 2 eexists. exists (player_from k). split; [apply converted_player |].
  unfold players. rewrite S, S'. cbn [bind]. unfold players_from_ktxstats. split; [reflexivity |]. split; [reflexivity |].
  rewrite P, P', !map_app. cbn [map]. rewrite (player_points _ _ _ Q). apply sort_climbs. exact D.
Qed.

(** Teams *)
Lemma members_app : forall n a b, members n (a ++ b) = members n a ++ members n b.
Proof. intros n a b. apply filter_app. Qed.
Lemma members_cons : forall n p l, members n (p :: l) = if beq (p_team p) n then p :: members n l else members n l.
Proof. reflexivity. Qed.

Lemma climbs_perm : forall p d ps qs, climbs p d ps qs -> exists l, Permutation ps (p :: l) /\ Permutation qs (with_points d p :: l).
Proof.
  intros p d ps qs (x & u & v & -> & ->). exists (x ++ u ++ v). split; [| symmetry; apply Permutation_middle].
  rewrite !app_assoc. symmetry. apply Permutation_middle.
Qed.
Lemma total_perm : forall a b, Permutation a b -> Teams.total a = Teams.total b.
Proof. intros a b P. unfold Teams.total. induction P; cbn [fold_right]; lia. Qed.
Lemma ping_perm : forall a b, Permutation a b -> total_ping a = total_ping b.
Proof. intros a b P. unfold total_ping. induction P; cbn [map fold_right] in *; lia. Qed.

Lemma climbs_len : forall p d ps qs, climbs p d ps qs -> len ps = len qs.
Proof. intros p d ps qs (x & u & v & -> & ->). rewrite !len_app, !len_cons, !len_app. cbn. lia. Qed.

Lemma members_climb : forall p d ps qs, climbs p d ps qs -> climbs p d (members (p_team p) ps) (members (p_team p) qs).
Proof.
  intros p d ps qs (x & u & v & -> & ->). exists (members (p_team p) x), (members (p_team p) u), (members (p_team p) v).
  rewrite !members_app, !members_cons, !members_app. cbn [with_points p_team]. rewrite beq_refl. split; reflexivity.
Qed.
Lemma members_same : forall p d ps qs n, climbs p d ps qs -> n <> p_team p -> members n ps = members n qs.
Proof.
  intros p d ps qs n (x & u & v & -> & ->) N. rewrite !members_app, !members_cons, !members_app. cbn [with_points p_team].
  rewrite (proj2 (beq_neq (p_team p) n)) by congruence. reflexivity.
Qed.

Lemma team_ping_exact : forall E ps ts t, iterates (teams_order E) -> each_iterates (colors_order E) -> sums_fit ps ->
  teams_from_players E ps = Ret ts -> In t ts -> members (t_name t) ps <> [] ->
  t_ping t = Float.f32_round_to_u32 (Float.f32_div (Float.f32_of_N (total_ping (members (t_name t) ps))) (Float.f32_of_N (len (members (t_name t) ps)))).
Proof.
  intros E ps ts t IT IC SF T I NE. pose proof (team_in E ps ts t IT T I) as X. destruct (sums_fit_members ps (t_name t) SF) as (A & B & C).
  destruct (team_done E _ IC NE A B C) as (t' & Y & _ & _ & _ & _ & P & _). congruence.
Qed.

Lemma teams_climb_proof : forall E p d ps qs, iterates (teams_order E) -> each_iterates (colors_order E) ->
  climbs p d ps qs -> sums_fit ps -> sums_fit qs ->
  exists ts us, teams_from_players E ps = Ret ts /\ teams_from_players E qs = Ret us /\ team_climbs p d ts us.
Proof.
  intros E p d ps qs IT IC C SP SQ.
  destruct (teams_proof E ps IT IC SP) as (ts & T & [T1 T2 T3 T4]). destruct (teams_proof E qs IT IC SQ) as (us & U & [U1 U2 U3 U4]).
  exists ts, us. split; [exact T |]. split; [exact U |]. rewrite Forall_forall in T3, U3.
  assert (In p ps /\ In (with_points d p) qs) as [IP IQ].
  { destruct C as (x & u & v & -> & ->). split; apply in_app_iff; right; [apply in_app_iff; right |]; left; reflexivity. }
  constructor.
  - assert (In (p_team p) (map t_name ts)) as A by (apply T2; exists p; split; [exact IP | reflexivity]).
    assert (In (p_team p) (map t_name us)) as B by (apply U2; exists (with_points d p); split; [exact IQ | reflexivity]).
    apply in_map_iff in A, B. destruct A as (t & NT & A), B as (u & NU & B). exists t, u.
    destruct (T3 t A) as [(o & M1) _ F1 _ _], (U3 u B) as [(o' & M2) _ F2 _ _].
    rewrite NT in M1. rewrite NU in M2.
    pose proof (proj1 (splits_unique _ _ _ _ _ M1 _ _ (group_splits ps (p_team p)))) as Q1.
    pose proof (proj1 (splits_unique _ _ _ _ _ M2 _ _ (group_splits qs (p_team p)))) as Q2.
    fold (members (p_team p) ps) in Q1. fold (members (p_team p) qs) in Q2.
    pose proof (members_climb _ _ _ _ C) as MC. rewrite <- Q1, <- Q2 in MC.
    destruct (climbs_perm _ _ _ _ MC) as (l & P1 & P2).
    split; [exact A |]. split; [exact B |]. split; [exact NT |]. split; [exact NU |]. split; [| split; [| exact MC]].
    + rewrite F1, F2, (total_perm _ _ (Permutation_map p_frags P1)), (total_perm _ _ (Permutation_map p_frags P2)).
      cbn [map with_points p_frags]. unfold Teams.total. cbn [fold_right]. lia.
    + assert (t_players t <> [] /\ t_players u <> []) as [NE1 NE2].
      { destruct MC as (x & y & v & -> & ->). split; [destruct x; [destruct y |] | destruct x]; discriminate. }
      pose proof (team_ping_exact E ps ts t IT IC SP T A) as X. pose proof (team_ping_exact E qs us u IT IC SQ U B) as Y.
      rewrite NT, <- Q1 in X. rewrite NU, <- Q2 in Y. rewrite (X NE1), (Y NE2), (climbs_len _ _ _ _ MC), (ping_perm _ _ P1), (ping_perm _ _ P2).
      reflexivity.
  - intros t N. destruct (splits_members (t_name t) ps) as [o S]. destruct (splits_members (t_name t) qs) as [o' S'].
    rewrite <- (members_same _ _ _ _ _ C N) in S'. apply (team_own_members_proof E _ _ _ _ _ _ _ _ IT S S' T U t eq_refl).
  - intros n. rewrite T2, U2. destruct C as (x & u & v & -> & ->). split; intros (q & I & Q).
    + apply in_app_iff in I. destruct I as [I | I]; [exists q; split; [apply in_app_iff; left; exact I | exact Q] |].
      apply in_app_iff in I. destruct I as [I | [<- | I]].
      * exists q. split; [apply in_app_iff; right; right; apply in_app_iff; left; exact I | exact Q].
      * exists (with_points d p). split; [apply in_app_iff; right; left; reflexivity | exact Q].
      * exists q. split; [apply in_app_iff; right; right; apply in_app_iff; right; exact I | exact Q].
    + apply in_app_iff in I. destruct I as [I | [<- | I]]; [exists q; split; [apply in_app_iff; left; exact I | exact Q] | |].
      * exists p. split; [apply in_app_iff; right; apply in_app_iff; right; left; reflexivity | exact Q].
      * apply in_app_iff in I. exists q. split; [| exact Q]. apply in_app_iff. right. apply in_app_iff.
        destruct I as [I | I]; [left; exact I | right; right; exact I].
Qed.

(** Recordings *)
Lemma portraits_points : forall r r' n d cs es es', (forall k, pings_of k (pings_reported r') = pings_of k (pings_reported r)) ->
  (forall m, m <> n -> Score.total m (all_scores r') = Score.total m (all_scores r)) ->
  Score.total n (all_scores r') = (Score.total n (all_scores r) + d)%Z ->
  Forall2 (portrait r) cs es -> Forall2 (portrait r') cs es' ->
  es' = map (fun p => if beq (p_name p) n then with_points d p else p) es.
Proof.
  intros r r' n d cs es es' PG TO TN F. revert es'. induction F as [| c p cs es P F IH]; intros es' F'; inversion F' as [| ? q ? es2 Q F2]; subst; [reflexivity |].
  cbn [map]. f_equal; [| apply IH; exact F2]. destruct P as [A1 A2 A3 A4 A5 A6 A7 A8], Q as [B1 B2 B3 B4 B5 B6 B7 B8].
  rewrite PG in B5.
  destruct p as [a1 a2 a3 a4 a5 a6 a7 a8], q as [b1 b2 b3 b4 b5 b6 b7 b8]. unfold with_points.
  cbn [p_name p_team p_color p_frags p_ping p_is_bot p_auth_username p_auth_cc] in *.
  destruct (beq a1 n) eqn:E.
  - apply beq_eq in E. subst n. f_equal; congruence.
  - apply beq_neq in E. rewrite A1 in E. rewrite (TO _ E) in B4. congruence.
Qed.

Lemma map_others : forall n d es, ~ In n (map p_name es) -> map (fun p => if beq (p_name p) n then with_points d p else p) es = es.
Proof.
  intros n d es. induction es as [| p es IH]; intros N; [reflexivity |]. cbn [map] in *. rewrite IH by (intros I; apply N; right; exact I).
  rewrite (proj2 (beq_neq (p_name p) n)) by (intros Q; apply N; left; exact Q). reflexivity.
Qed.

Lemma recordings_climb_proof : forall E cs r r' c d m, wf_recording E cs r -> wf_recording E cs r' ->
  pings_reported r' = pings_reported r -> r_stats r' = r_stats r ->
  NoDup (map c_name (filter (fun c => negb (c_is_spectator c)) cs)) -> In c cs -> c_is_spectator c = false ->
  (forall m, m <> c_name c -> Score.total m (all_scores r') = Score.total m (all_scores r)) ->
  Score.total (c_name c) (all_scores r') = (Score.total (c_name c) (all_scores r) + d)%Z -> (0 < d)%Z ->
  iterates (players_order E) -> pings_reported r <> [] -> ktxstats_from E (concat (map snd (r_stats r))) = Err m ->
  exists ps qs p, portrait r c p /\ players E (encode (frames r)) = Ret (Ok ps) /\ players E (encode (frames r')) = Ret (Ok qs) /\ climbs p d ps qs.
Proof.
  intros E cs r r' c d m W W' PG S ND IC NS TO TN D IT NE K.
  destruct (recording_players_listed E cs r m W IT NE K) as (es & l & R & F & P & O).
  assert (pings_reported r' <> []) as NE' by (rewrite PG; exact NE).
  assert (ktxstats_from E (concat (map snd (r_stats r'))) = Err m) as K' by (rewrite S; exact K).
  destruct (recording_players_listed E cs r' m W' IT NE' K') as (es' & l' & R' & F' & P' & O').
  pose proof (TeamMergeFacts.portraits_names _ _ _ F) as NM. rewrite <- NM in ND.
  assert (In c (filter (fun c => negb (c_is_spectator c)) cs)) as IF by (apply filter_In; rewrite NS; split; [exact IC | reflexivity]).
  destruct (Forall2_in_l _ _ _ _ _ c F IF) as (p & IP & PP).
  pose proof (portraits_points r r' (c_name c) d _ _ _ ltac:(intros k; rewrite PG; reflexivity) TO TN F F') as Q.
  apply in_split in IP. destruct IP as (e1 & e2 & ->).
  pose proof (po_name _ _ _ PP) as PN.
  rewrite map_app in ND. cbn [map] in ND. pose proof (NoDup_remove_2 _ _ _ ND) as NI. rewrite PN in NI.
  rewrite map_app in Q. cbn [map] in Q. rewrite PN, beq_refl, !map_others in Q by (intros I; apply NI, in_app_iff; tauto). subst es'.
  assert (In p l) as IL by (apply (Permutation_in _ P); apply in_app_iff; right; left; reflexivity).
  assert (In (with_points d p) l') as IL' by (apply (Permutation_in _ P'); apply in_app_iff; right; left; reflexivity).
  apply in_split in IL, IL'. destruct IL as (x & y & ->), IL' as (x' & y' & ->).
  exists (x ++ p :: y), (x' ++ with_points d p :: y'), p. split; [exact PP |]. split; [exact R |]. split; [exact R' |].
  assert (Permutation (x ++ y) (e1 ++ e2)) as P1.
  { apply (Permutation_cons_inv (a := p)). eapply perm_trans; [apply Permutation_middle |]. eapply perm_trans; [apply Permutation_sym; exact P |].
    apply Permutation_sym, Permutation_middle. }
  assert (Permutation (x' ++ y') (e1 ++ e2)) as P2.
  { apply (Permutation_cons_inv (a := with_points d p)). eapply perm_trans; [apply Permutation_middle |]. eapply perm_trans; [apply Permutation_sym; exact P' |].
    apply Permutation_sym, Permutation_middle. }
  apply sorted_climbs; [exact D | exact O | exact O' |].
  apply (in_order_unique _ better _ _) with (2 := in_order_drop _ _ _ _ _ O) (3 := in_order_drop _ _ _ _ _ O').
  - intros a b IA IB NA NB. destruct (better_total a b) as [B | [[_ X] | B]]; [contradiction | | contradiction].
    assert (NoDup (map p_name (x ++ y))) as N2.
    { eapply Permutation_NoDup; [apply Permutation_map, Permutation_sym; exact P1 |]. rewrite map_app. apply (NoDup_remove_1 _ _ _ ND). }
    apply (in_unique _ _ p_name _ _ _ N2 IA IB X).
  - eapply perm_trans; [exact P1 | apply Permutation_sym; exact P2].
Qed.

Lemma recordings_teams_climb_proof : forall E cs r r' c d m ps qs, wf_recording E cs r -> wf_recording E cs r' ->
  pings_reported r' = pings_reported r -> r_stats r' = r_stats r ->
  NoDup (map c_name (filter (fun c => negb (c_is_spectator c)) cs)) -> In c cs -> c_is_spectator c = false ->
  (forall m, m <> c_name c -> Score.total m (all_scores r') = Score.total m (all_scores r)) ->
  Score.total (c_name c) (all_scores r') = (Score.total (c_name c) (all_scores r) + d)%Z -> (0 < d)%Z ->
  iterates (players_order E) -> iterates (teams_order E) -> each_iterates (colors_order E) ->
  pings_reported r <> [] -> ktxstats_from E (concat (map snd (r_stats r))) = Err m ->
  players E (encode (frames r)) = Ret (Ok ps) -> players E (encode (frames r')) = Ret (Ok qs) -> sums_fit ps -> sums_fit qs ->
  exists ts us p, portrait r c p /\ teams E (encode (frames r)) = Ret (Ok ts) /\ teams E (encode (frames r')) = Ret (Ok us) /\ team_climbs p d ts us.
Proof.
  intros E cs r r' c d m ps qs W W' PG S ND IC NS TO TN D IT ITT ICC NE K X Y SP SQ.
  destruct (recordings_climb_proof E cs r r' c d m W W' PG S ND IC NS TO TN D IT NE K) as (ps' & qs' & p & PP & R & R' & C).
  assert (ps' = ps) by congruence. assert (qs' = qs) by congruence. subst ps' qs'.
  destruct (teams_climb_proof E p d ps qs ITT ICC C SP SQ) as (ts & us & T & U & TC).
  exists ts, us, p. split; [exact PP |]. unfold teams. rewrite R, R'. cbn [bind]. rewrite T, U. cbn [bind]. split; [reflexivity |]. split; [reflexivity | exact TC].
Qed.

(** Any bytes *)
Lemma entries_points : forall t t' pg n d cs es es', NoDup (map fst t) -> NoDup (map fst t') -> NoDup (map fst pg) ->
  (forall m v, m <> n -> In m (map c_name cs) -> (looked_up t m 0%Z v <-> looked_up t' m 0%Z v)) ->
  (forall v, looked_up t n 0%Z v -> looked_up t' n 0%Z (v + d)%Z) ->
  Forall2 (entry t pg) cs es -> Forall2 (entry t' pg) cs es' ->
  es' = map (fun p => if beq (p_name p) n then with_points d p else p) es.
Proof.
  intros t t' pg n d cs es es' NT NT' NP TO TN F. revert es' TO. induction F as [| c p cs es P F IH]; intros es' TO F'; inversion F' as [| ? q ? es2 Q F2]; subst; [reflexivity |].
  cbn [map]. f_equal; [| apply IH; [intros m v N I; apply TO; [exact N | right; exact I] | exact F2]].
  destruct P as [A1 A2 A3 A4 A5 A6 A7 A8], Q as [B1 B2 B3 B4 B5 B6 B7 B8].
  pose proof (looked_up_unique _ _ _ _ _ _ _ NP A5 B5) as PG.
  destruct p as [a1 a2 a3 a4 a5 a6 a7 a8], q as [b1 b2 b3 b4 b5 b6 b7 b8]. unfold with_points.
  cbn [p_name p_team p_color p_frags p_ping p_is_bot p_auth_username p_auth_cc] in *.
  destruct (beq a1 n) eqn:E.
  - apply beq_eq in E. subst n. rewrite A1 in TN. pose proof (looked_up_unique _ _ _ _ _ _ _ NT' (TN _ A4) B4). f_equal; congruence.
  - apply beq_neq in E. rewrite A1 in E. pose proof (proj1 (TO _ _ E (or_introl eq_refl)) A4) as A4'.
    pose proof (looked_up_unique _ _ _ _ _ _ _ NT' A4' B4). f_equal; congruence.
Qed.

Lemma parsed_climb_proof : forall E e e' l l' cs pg t t' c d, iterates (players_order E) ->
  clientinfo_strings E e = Ret (Ok l) -> len l <= 256 -> clientinfo_strings E e' = Ret (Ok l') -> len l' <= 256 ->
  player_clients E e = Ret (Ok cs) -> player_clients E e' = Ret (Ok cs) -> NoDup (map c_name cs) ->
  ping_per_player_number E e = Ret (Ok pg) -> ping_per_player_number E e' = Ret (Ok pg) ->
  frags_per_player_name E e = Ret t -> frags_per_player_name E e' = Ret t' ->
  In c cs -> (forall m v, m <> c_name c -> In m (map c_name cs) -> (looked_up t m 0%Z v <-> looked_up t' m 0%Z v)) ->
  (forall v, looked_up t (c_name c) 0%Z v -> looked_up t' (c_name c) 0%Z (v + d)%Z) -> (0 < d)%Z ->
  exists ps qs p, entry t pg c p /\ players_from_parsing E e = Ret (Ok ps) /\ players_from_parsing E e' = Ret (Ok qs) /\ climbs p d ps qs.
Proof.
  intros E e e' i i' cs pg t t' c d IT I L I' L' C C' ND G G' T T' IC TO TN D.
  destruct (players_parsed_all E e i cs pg t IT I L C G T) as (es & l & R & F & P & O).
  destruct (players_parsed_all E e' i' cs pg t' IT I' L' C' G' T') as (es' & l' & R' & F' & P' & O').
  assert (map p_name es = map c_name cs) as NM.
  { clear - F. induction F as [| x y cs es X F IH]; [reflexivity |]. cbn [map]. rewrite IH. f_equal. apply (en_name _ _ _ _ X). }
  rewrite <- NM in ND.
  destruct (Forall2_in_l _ _ _ _ _ c F IC) as (p & IP & PP).
  pose proof (entries_points t t' pg (c_name c) d _ _ _ (score_rows_once_proof _ _ _ T) (score_rows_once_proof _ _ _ T') (proj1 (RangeFacts.pings_fit_proof _ _ _ G)) TO TN F F') as Q.
  apply in_split in IP. destruct IP as (e1 & e2 & ->).
  pose proof (en_name _ _ _ _ PP) as PN.
  rewrite map_app in ND. cbn [map] in ND. pose proof (NoDup_remove_2 _ _ _ ND) as NI. rewrite PN in NI.
  rewrite map_app in Q. cbn [map] in Q. rewrite PN, beq_refl, !map_others in Q by (intros X; apply NI, in_app_iff; tauto). subst es'.
  assert (In p l) as IL by (apply (Permutation_in _ P); apply in_app_iff; right; left; reflexivity).
  assert (In (with_points d p) l') as IL' by (apply (Permutation_in _ P'); apply in_app_iff; right; left; reflexivity).
  apply in_split in IL, IL'. destruct IL as (x & y & ->), IL' as (x' & y' & ->).
  exists (x ++ p :: y), (x' ++ with_points d p :: y'), p. split; [exact PP |]. split; [exact R |]. split; [exact R' |].
  assert (Permutation (x ++ y) (e1 ++ e2)) as P1.
  { apply (Permutation_cons_inv (a := p)). eapply perm_trans; [apply Permutation_middle |]. eapply perm_trans; [apply Permutation_sym; exact P |].
    apply Permutation_sym, Permutation_middle. }
  assert (Permutation (x' ++ y') (e1 ++ e2)) as P2.
  { apply (Permutation_cons_inv (a := with_points d p)). eapply perm_trans; [apply Permutation_middle |]. eapply perm_trans; [apply Permutation_sym; exact P' |].
    apply Permutation_sym, Permutation_middle. }
  apply sorted_climbs; [exact D | exact O | exact O' |].
  apply (in_order_unique _ better _ _) with (2 := in_order_drop _ _ _ _ _ O) (3 := in_order_drop _ _ _ _ _ O').
  - intros a b IA IB NA NB. destruct (better_total a b) as [B | [[_ X] | B]]; [contradiction | | contradiction].
    assert (NoDup (map p_name (x ++ y))) as N2.
    { eapply Permutation_NoDup; [apply Permutation_map, Permutation_sym; exact P1 |]. rewrite map_app. apply (NoDup_remove_1 _ _ _ ND). }
    apply (in_unique _ _ p_name _ _ _ N2 IA IB X).
  - eapply perm_trans; [exact P1 | apply Permutation_sym; exact P2].
Qed.

(** Who is passed *)
Lemma in_order_around : forall A (before : A -> A -> Prop) x p y, in_order_of before (x ++ p :: y) ->
  Forall (fun q => ~ before p q) x /\ Forall (fun q => ~ before q p) y.
Proof.
  intros A before x p y. induction x as [| a x IH]; cbn [app]; intros H; inversion H as [| ? ? S F]; subst; [split; [constructor | exact F] |].
  destruct (IH S) as [B C]. split; [constructor; [| exact B] | exact C]. rewrite Forall_forall in F. apply F, in_app_iff. right. left. reflexivity.
Qed.

Lemma climb_passes_proof : forall p d x u v, in_order_of better (x ++ u ++ p :: v) -> in_order_of better (x ++ with_points d p :: u ++ v) ->
  Forall (fun q => ~ better (with_points d p) q) x /\ Forall (fun q => ~ better p q /\ ~ better q (with_points d p)) u /\
  Forall (fun q => ~ better q p) v.
Proof.
  intros p d x u v H H'. rewrite app_assoc in H. apply in_order_around in H, H'. destruct H as [A B], H' as [C D].
  apply Forall_app in A, D. destruct A as [_ A], D as [D _]. split; [exact C |]. split; [| exact B].
  rewrite Forall_forall in *. intros q I. split; [apply A | apply D]; exact I.
Qed.
