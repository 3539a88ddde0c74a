(** Proofs for Properties/Sources.v *)
From Coq Require Import Lia Permutation Sorted ZifyN ZifyNat ZifyBool.
From Verif.Model Require Import Base Env Players Ktxstats.
From Verif.Spec Require Import Order Clientlist Teams Shuffles Sources.
From Verif.Proofs Require Import BaseFacts OrderFacts TeamFacts AgreeFacts ShuffleFacts.

(** ** Lists in order of their keys *)
Lemma keys_in_order : forall A B K (before : K -> K -> Prop) (k : A -> K) (k' : B -> K) (R : A -> B -> Prop) l l',
  (forall a b, ~ before a b -> ~ before b a -> a = b) ->
  in_order_of (fun a b => before (k a) (k b)) l -> in_order_of (fun a b => before (k' a) (k' b)) l' ->
  Permutation (map k l) (map k' l') -> (forall a b, In a l -> In b l' -> k a = k' b -> R a b) -> Forall2 R l l'.
Proof.
  intros A B K before k k' R l l' T S S' P H.
  assert (Q : map k l = map k' l').
  { apply (in_order_unique _ before); [intros; apply T; assumption | | | exact P]; unfold in_order_of; apply StronglySorted_map; assumption. }
  clear S S' P. revert l' Q H. induction l as [| a l IH]; intros [| b l'] Q H; cbn [map] in Q; try discriminate; [constructor |].
  inversion Q. constructor; [apply H; auto; left; reflexivity |]. apply IH; [assumption |]. intros x y I J. apply H; right; assumption.
Qed.

Definition rank_before (x y : Z * str) : Prop := (fst y < fst x)%Z \/ (fst x = fst y /\ text_lt (snd x) (snd y)).

Lemma rank_tie : forall x y, ~ rank_before x y -> ~ rank_before y x -> x = y.
Proof.
  intros [a n] [b m] X Y. unfold rank_before in X, Y. cbn [fst snd] in X, Y.
  assert (a = b) by (destruct (Z.lt_trichotomy a b) as [L | [L | L]]; [| exact L |]; exfalso; [apply Y | apply X]; left; exact L).
  subst b. f_equal. destruct (text_trichotomy n m) as [L | [L | L]]; [| exact L |]; exfalso; [apply X | apply Y]; right; auto.
Qed.

Lemma Forall2_in_r : forall A B (R : A -> B -> Prop) l l' b, Forall2 R l l' -> In b l' -> exists a, In a l /\ R a b.
Proof. intros A B R l l' b F I. exact (Forall2_in A B R l l' b F I). Qed.

Lemma matched_in_order : forall d l l', matched (same_player d) l l' -> no_ties l ->
  in_order_of better l -> in_order_of better l' -> Forall2 (same_player d) l l'.
Proof.
  intros d l l' [m [P F]] N S S'.
  apply (keys_in_order _ _ _ rank_before rank rank _ l l' rank_tie S S').
  - rewrite P. apply eq_ind with (x := map rank l') (P := fun x => Permutation x (map rank l')); [reflexivity |].
    symmetry. apply Forall2_map_eq. eapply Forall2_impl; [| exact F]. intros a b Q. unfold rank. f_equal; apply Q.
  - intros a b IA IB Q. destruct (Forall2_in_r _ _ _ _ _ b F IB) as [a' [IA' L]].
    replace a with a'; [exact L |]. apply (in_unique _ _ rank l); [exact N | | exact IA |].
    + apply (Permutation_in _ (Permutation_sym P)). exact IA'.
    + rewrite Q. unfold rank. f_equal; apply L.
Qed.

Lemma matched_perm : forall A B (R : A -> B -> Prop) l k l' k', Permutation l k -> Permutation l' k' -> matched R l l' -> matched R k k'.
Proof.
  intros A B R l k l' k' P P' [m [PM F]].
  assert (F' : Forall2 (fun b a => R a b) l' m) by (clear - F; induction F; constructor; assumption).
  destruct (Forall2_perm _ _ _ _ _ P' _ F') as [m' [F2 PM']]. exists m'. split.
  - rewrite <- P, PM. exact PM'.
  - clear - F2. induction F2; constructor; assumption.
Qed.

Lemma low_byte_unique : forall z a b, low_byte (Some z) a -> low_byte (Some z) b -> a = b.
Proof.
  intros z a b [_ [v [[Q | [Q _]] V]]] [_ [w [[R | [R _]] W]]]; try discriminate. injection Q as <-. injection R as <-. lia.
Qed.

Lemma converted_unique : forall k p q, converted k p -> converted k q -> p = q.
Proof.
  intros k p q P Q. destruct p as [n t [c c'] f g b a u], q as [n1 t1 [c1 c1'] f1 g1 b1 a1 u1].
  pose proof (cv_name _ _ P). pose proof (cv_name _ _ Q). pose proof (cv_team _ _ P). pose proof (cv_team _ _ Q).
  pose proof (cv_top _ _ P) as T. pose proof (cv_top _ _ Q) as T'. pose proof (cv_bottom _ _ P) as B. pose proof (cv_bottom _ _ Q) as B'.
  pose proof (cv_frags _ _ P). pose proof (cv_frags _ _ Q). pose proof (cv_ping _ _ P). pose proof (cv_ping _ _ Q).
  pose proof (cv_bot _ _ P) as O. pose proof (cv_bot _ _ Q) as O'. pose proof (cv_auth _ _ P) as U. pose proof (cv_auth _ _ Q) as U'.
  pose proof (cv_cc _ _ P). pose proof (cv_cc _ _ Q). clear P Q.
  cbn [p_name p_team p_color p_frags p_ping p_is_bot p_auth_username p_auth_cc fst snd] in *.
  assert (c = c1) by exact (low_byte_unique _ _ _ T T'). assert (c' = c1') by exact (low_byte_unique _ _ _ B B').
  assert (g = g1) by lia.
  assert (b = b1) by (destruct b, b1; try reflexivity; [pose proof (proj2 O' (proj1 O eq_refl)) | pose proof (proj2 O (proj1 O' eq_refl))]; discriminate).
  assert (a = a1).
  { destruct a as [x |].
    - symmetry. apply U', U. reflexivity.
    - destruct a1 as [y |]; [| reflexivity]. apply U, U'. reflexivity. }
  subst. reflexivity.
Qed.

Lemma sources_proof : forall E data s l es d,
  ktxstats_v3 E data = Ret (Ok s) -> players_from_parsing E data = Ret (Ok l) ->
  Forall2 converted (ks_players s) es -> matched (same_player d) es l -> no_ties es ->
  exists l', players E data = Ret (Ok l') /\ Permutation es l' /\ Forall2 (same_player d) l' l.
Proof.
  intros E data s l es d K PP C MT NT.
  assert (Q : es = map player_from (ks_players s)).
  { clear - C. induction C as [| k p ks es H C IH]; [reflexivity |]. cbn [map]. rewrite <- IH. f_equal.
    pose proof (converted_player k) as H'. apply converted_unique with (k := k); assumption. }
  exists (sort_by player_cmp es). split; [unfold players; rewrite K; cbn [bind]; unfold players_from_ktxstats; rewrite Q; reflexivity |].
  assert (PE : Permutation es (sort_by player_cmp es)) by (symmetry; apply sort_by_perm).
  split; [exact PE |].
  apply matched_in_order.
  - exact (matched_perm _ _ _ _ _ _ _ PE (Permutation_refl _) MT).
  - unfold no_ties in *. eapply Permutation_NoDup; [apply Permutation_map; exact PE | exact NT].
  - eapply stable_order_sorted; [apply better_key_order | apply sort_players].
  - unfold players_from_parsing in PP. destruct (Clients.clients E data) as [[cs |] | |]; cbn [bind] in PP; try discriminate.
    destruct (Ping.ping_per_player_number E data) as [[pings |] | |]; cbn [bind] in PP; try discriminate.
    destruct (Frags.frags_per_player_name E data) as [fr | |]; cbn [bind] in PP; try discriminate. injection PP as <-.
    eapply stable_order_sorted; [apply better_key_order | apply sort_players].
Qed.

(** ** Teams *)
Lemma team_in : forall E ps ts t, iterates (teams_order E) -> teams_from_players E ps = Ret ts -> In t ts ->
  team_from E (members (t_name t) ps) = Ret t.
Proof.
  intros E ps ts t IT T I. destruct (teams_divide_proof E ps ts IT T) as [_ [_ [FA _]]]. rewrite Forall_forall in FA.
  destruct (FA t I) as [_ [o S]]. pose proof (proj1 (splits_unique _ _ _ _ _ S _ _ (group_splits ps (t_name t)))) as Q. fold (members (t_name t) ps) in Q. rewrite <- Q.
  unfold teams_from_players in T. destruct (mapM (team_from E) (map snd (teams_order E (group_by_team ps)))) as [us | |] eqn:U; cbn [bind] in T; try discriminate.
  injection T as <-. apply (Permutation_in _ (sort_by_perm _ _ _)) in I.
  destruct (Forall2_in_r _ _ _ _ _ t (mapM_ret _ _ _ _ _ U) I) as [ms [IM TF]].
  replace (t_players t) with ms; [exact TF |].
  destruct ms as [| p0 r]; [cbn [team_from] in TF; injection TF as <-; reflexivity |].
  cbn [team_from] in TF. destruct (foldM _ (p0 :: r) (0%Z, 0)) as [[f g] | |]; cbn [bind] in TF; try discriminate.
  destruct (majority_color E (p_team p0) (map p_color (p0 :: r))) as [mc | |]; cbn [bind] in TF; try discriminate.
  injection TF as <-. reflexivity.
Qed.

Lemma members_like : forall d n ps qs, Forall2 (same_player d) ps qs -> Forall2 (same_player d) (members n ps) (members n qs).
Proof.
  intros d n ps qs F. unfold members. induction F as [| p q ps qs H F IH]; [constructor |]. cbn [filter].
  rewrite <- (sp_team _ _ _ H). destruct (beq (p_team p) n); [constructor |]; assumption.
Qed.

Lemma total_pings_within : forall d ps qs, Forall2 (same_player d) ps qs ->
  total_ping ps <= total_ping qs + d * len ps /\ total_ping qs <= total_ping ps + d * len ps.
Proof.
  intros d ps qs F. unfold total_ping. induction F as [| p q ps qs H F IH]; [cbn; lia |].
  cbn [map fold_right]. rewrite len_cons. destruct (sp_ping _ _ _ H) as [A B]. lia.
Qed.

Lemma Forall2_len : forall A B (R : A -> B -> Prop) l l', Forall2 R l l' -> len l = len l'.
Proof. intros A B R l l' F. induction F as [| a b l l' H F IH]; [reflexivity | rewrite !len_cons, IH; reflexivity]. Qed.

Lemma round_within : forall s s' n a b d, 0 < n -> s <= s' + d * n -> rounds_half_up s n a -> rounds_half_up s' n b -> a <= b + d.
Proof. unfold rounds_half_up. intros s s' n a b d P L [A _] [_ B]. nia. Qed.

Lemma members_total : forall n ps, total_ping (members n ps) + len (members n ps) <= total_ping ps + len ps.
Proof.
  intros n ps. unfold members, total_ping. induction ps as [| p ps IH]; [cbn; lia |]. cbn [filter].
  destruct (beq (p_team p) n); cbn [map fold_right]; rewrite ?len_cons; lia.
Qed.

Lemma majority_color_of : forall E ms t, ms <> [] -> team_from E ms = Ret t ->
  exists p r mc, ms = p :: r /\ majority_color E (p_team p) (map p_color ms) = Ret mc /\
    t_color t = (match mc with Some c => c | None => p_color p end) /\ t_players t = ms.
Proof.
  intros E [| p0 r] t NE TF; [contradiction |]. cbn [team_from] in TF.
  destruct (foldM _ (p0 :: r) (0%Z, 0)) as [[f g] | |]; cbn [bind] in TF; try discriminate.
  destruct (majority_color E (p_team p0) (map p_color (p0 :: r))) as [mc | |] eqn:M; cbn [bind] in TF; try discriminate.
  injection TF as <-. exists p0, r, mc. repeat split; assumption || reflexivity.
Qed.

Lemma sums_fit_members : forall ps n, sums_fit ps -> len (members n ps) < 256 /\ total_ping (members n ps) < 4294967296 /\
  forall a b, members n ps = a ++ b -> (-2147483648 <= Teams.total (map p_frags a) <= 2147483647)%Z.
Proof. intros ps n SF. exact (SF n _ _ (group_splits ps n)). Qed.

Lemma teams_like : forall E ps qs d, iterates (teams_order E) -> each_iterates (colors_order E) ->
  Forall2 (same_player d) ps qs -> sums_fit ps -> sums_fit qs -> small_pings ps -> small_pings qs ->
  exists ts us, teams_from_players E ps = Ret ts /\ teams_from_players E qs = Ret us /\
    matched (same_team d) ts us /\ (apart (to_lowercase E) ps -> Forall2 (same_team d) ts us).
Proof.
  intros E ps qs d IT IC F SF SF' SM SM'.
  destruct (teams_proof E ps IT IC SF) as [ts [T TO]]. destruct (teams_proof E qs IT IC SF') as [us [U UO]].
  exists ts, us. split; [exact T |]. split; [exact U |].
  assert (L : forall t u, In t ts -> In u us -> t_name t = t_name u -> same_team d t u).
  { intros t u I J Q. pose proof (team_in E ps ts t IT T I) as A. pose proof (team_in E qs us u IT U J) as B. rewrite <- Q in B.
    pose proof (members_like d (t_name t) ps qs F) as FM.
    destruct (sums_fit_members ps (t_name t) SF) as [L1 [P1 F1]]. destruct (sums_fit_members qs (t_name t) SF') as [L2 [P2 F2]].
    pose proof (members_total (t_name t) ps) as M1. pose proof (members_total (t_name t) qs) as M2.
    pose proof (to_each _ _ _ TO) as TE. rewrite Forall_forall in TE. pose proof (tm_some _ _ (TE t I)) as NE.
    pose proof (tm_members _ _ (TE t I)) as [o S]. pose proof (proj1 (splits_unique _ _ _ _ _ S _ _ (group_splits ps (t_name t)))) as MQ.
    fold (members (t_name t) ps) in MQ. rewrite MQ in NE.
    set (ms := members (t_name t) ps) in *. set (ms' := members (t_name t) qs) in *. clearbody ms ms'.
    assert (NE' : ms' <> []) by (intros X; rewrite X in FM; inversion FM as [Y |]; apply NE; auto).
    destruct (team_done E ms IC NE L1 P1 F1) as [t0 [A0 (_ & PL & FR & PG & _)]]. rewrite A in A0. injection A0 as <-.
    destruct (team_done E ms' IC NE' L2 P2 F2) as [u0 [B0 (_ & PL' & FR' & PG' & _)]]. rewrite B in B0. injection B0 as <-.
    destruct (majority_color_of E ms t NE A) as (p & r & mc & E1 & MC & C1 & _).
    destruct (majority_color_of E ms' u NE' B) as (p' & r' & mc' & E1' & MC' & C1' & _).
    assert (PP : same_player d p p') by (rewrite E1, E1' in FM; inversion FM; assumption).
    assert (CO : map p_color ms = map p_color ms') by (apply Forall2_map_eq; eapply Forall2_impl; [| exact FM]; intros x y H; apply H).
    assert (FO : map p_frags ms = map p_frags ms') by (apply Forall2_map_eq; eapply Forall2_impl; [| exact FM]; intros x y H; apply H).
    split.
    - exact Q.
    - rewrite C1, C1'. rewrite CO, (sp_team _ _ _ PP), MC' in MC. injection MC as ->. rewrite (sp_color _ _ _ PP). reflexivity.
    - rewrite FR, FR', FO. reflexivity.
    - unfold small_pings in *. specialize (PG ltac:(lia)). specialize (PG' ltac:(lia)).
      rewrite <- (Forall2_len _ _ _ _ _ FM) in PG'. destruct (total_pings_within d ms ms' FM) as [W W'].
      assert (Z : 0 < len ms) by (destruct ms; [exfalso; apply NE; reflexivity | rewrite len_cons; lia]).
      split; [exact (round_within _ _ _ _ _ d Z W PG PG') | exact (round_within _ _ _ _ _ d Z W' PG' PG)].
    - rewrite PL, PL'. exact FM. }
  assert (TN : forall n, In n (map t_name ts) <-> In n (map t_name us)).
  { intros n. rewrite (to_names _ _ _ TO), (to_names _ _ _ UO). clear - F. induction F as [| p q ps qs H F IH]; [firstorder |].
    split; intros [x [[<- | I] Q]].
    - exists q. split; [left; reflexivity | rewrite <- Q; symmetry; apply H].
    - destruct (proj1 IH (ex_intro _ x (conj I Q))) as [y [J R]]. exists y. split; [right |]; assumption.
    - exists p. split; [left; reflexivity | rewrite <- Q; apply H].
    - destruct (proj2 IH (ex_intro _ x (conj I Q))) as [y [J R]]. exists y. split; [right |]; assumption. }
  assert (PN : Permutation (map t_name ts) (map t_name us)) by (apply NoDup_Permutation; [apply TO | apply UO | exact TN]).
  split.
  - apply Permutation_sym, Permutation_map_inv in PN. destruct PN as [m [Q P]]. exists m. split; [exact P |].
    assert (LM : forall t u, In t m -> In u us -> t_name t = t_name u -> same_team d t u)
      by (intros t u I; apply L; apply (Permutation_in _ (Permutation_sym P)); exact I).
    clear - Q LM. revert us Q LM. induction m as [| t m IH]; intros [| u us] Q LM; cbn [map] in Q; try discriminate; [constructor |].
    inversion Q. constructor; [apply LM; auto; left; reflexivity |]. apply IH; [assumption |]. intros x y I J. apply LM; right; assumption.
  - intros AP. set (k := fun t : Team => to_lowercase E (t_name t)).
    apply (keys_in_order _ _ _ text_lt k k); [| apply TO | apply UO | |].
    + intros a b X Y. destruct (text_trichotomy a b) as [Z | [Z | Z]]; [contradiction | exact Z | contradiction].
    + unfold k. rewrite <- !(map_map t_name (to_lowercase E)). apply Permutation_map. exact PN.
    + intros t u I J Q. apply L; auto. unfold k in Q.
      destruct (proj1 (to_names _ _ _ TO _) (in_map t_name _ _ I)) as [p [IP PA]].
      destruct (proj1 (to_names _ _ _ TO _) (proj2 (TN _) (in_map t_name _ _ J))) as [q [IQ QB]].
      rewrite <- PA, <- QB in Q |- *. apply AP; assumption.
Qed.

Lemma Forall2_in_l : forall A B (R : A -> B -> Prop) l l' a, Forall2 R l l' -> In a l -> exists b, In b l' /\ R a b.
Proof.
  intros A B R l l' a F I. induction F as [| x y l l' H F IH]; [destruct I |].
  destruct I as [<- | I]; [exists y; split; [left; reflexivity | exact H] |]. destruct (IH I) as [b [J Q]]. exists b. split; [right |]; assumption.
Qed.
