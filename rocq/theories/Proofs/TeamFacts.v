(** Facts about players and teams. *)
From Coq Require Import Lia ZifyN ZifyNat ZifyBool Permutation Sorted.
From Verif.Model Require Import Base Env Clientinfo Clients Frags Ping Ktxstats Float Players.
From Verif.Spec Require Import Order Clientlist Teams Builds.
From Verif.Proofs Require Import BaseFacts PingFacts RoundFacts OrderFacts ClientFacts EnvFacts.
Open Scope N_scope.

(** ** The order of players *)
Lemma player_cmp_cases : forall p q,
  match player_cmp p q with
  | Lt => better p q
  | Eq => p_frags p = p_frags q /\ p_name p = p_name q
  | Gt => better q p
  end.
Proof.
  intros p q. unfold player_cmp, then_cmp, better.
  destruct (Z.compare_spec (p_frags q) (p_frags p)) as [E | L | G].
  - pose proof (str_cmp_cases (p_name p) (p_name q)) as C. destruct (str_cmp (p_name p) (p_name q)).
    + auto.
    + right. split; [auto | apply C].
    + right. split; [auto | apply C].
  - left. exact L.
  - left. exact G.
Qed.

Lemma better_trans : forall p q r, better p q -> better q r -> better p r.
Proof.
  intros p q r [L | [E L]] [L' | [E' L']]; [left; lia | left; lia | left; lia |].
  right. split; [congruence | eapply text_lt_trans; eauto].
Qed.

Lemma better_irrefl : forall p, ~ better p p.
Proof. intros p [L | [_ L]]; [lia | apply (text_lt_irrefl _ L)]. Qed.

Lemma better_total : forall p q, better p q \/ (p_frags p = p_frags q /\ p_name p = p_name q) \/ better q p.
Proof. intros p q. pose proof (player_cmp_cases p q) as C. destruct (player_cmp p q); tauto. Qed.

Lemma better_same : forall p q r, p_frags p = p_frags q -> p_name p = p_name q -> better p r -> better q r.
Proof. intros p q r F N. unfold better. rewrite F, N. auto. Qed.

Lemma better_key_order : key_order better.
Proof.
  split.
  - apply better_irrefl.
  - apply better_trans.
  - intros p q r H. destruct (better_total p q) as [B | [[F N] | B]]; [auto | right; eapply better_same; eauto |].
    right. eapply better_trans; eauto.
Qed.

Lemma player_cmp_gt : forall p q, player_cmp p q = Gt <-> better q p.
Proof.
  intros p q. pose proof (player_cmp_cases p q) as C. split.
  - intros H. rewrite H in C. exact C.
  - intros B. destruct (player_cmp p q); [| | reflexivity].
    + destruct C as [F N]. exfalso. apply (better_irrefl p). eapply better_same; [symmetry; exact F | symmetry; exact N | exact B].
    + exfalso. apply (better_irrefl p). eapply better_trans; eauto.
Qed.

Lemma player_cmp_exact : forall p q,
  (player_cmp p q = Lt <-> better p q) /\
  (player_cmp p q = Eq <-> p_frags p = p_frags q /\ p_name p = p_name q) /\
  (player_cmp p q = Gt <-> better q p).
Proof.
  intros p q. pose proof (player_cmp_cases p q) as C.
  assert (NB : forall p q, better p q -> p_frags p = p_frags q /\ p_name p = p_name q -> False).
  { intros a b B [F N]. apply (better_irrefl b). eapply better_same; eauto. }
  assert (NS : forall p q, better p q -> better q p -> False).
  { intros a b B B'. apply (better_irrefl a). eapply better_trans; eauto. }
  assert (SY : forall p q, p_frags p = p_frags q /\ p_name p = p_name q -> p_frags q = p_frags p /\ p_name q = p_name p) by (intros a b [F N]; auto).
  destruct (player_cmp p q); (split; [split | split; split]); intros H; try discriminate; try reflexivity; try exact C; try apply C; exfalso; eauto.
Qed.

Lemma sort_players : forall l, stable_order better l (sort_by player_cmp l).
Proof. apply stable_order_sort; [apply better_key_order | apply player_cmp_gt]. Qed.

(** ** Players by parsing *)
Lemma looked_up_get : forall K V (eqb : K -> K -> bool), (forall a b, eqb a b = true <-> a = b) ->
  forall k (d : V) m, looked_up m k d (aget_or eqb k d m).
Proof.
  intros K V eqb OK k d m. unfold aget_or. destruct (aget eqb k m) as [v |] eqn:G.
  - left. apply (aget_in eqb OK). exact G.
  - right. split; [apply (aget_none eqb OK); exact G | reflexivity].
Qed.

Lemma entry_of_client : forall scores pings c, entry scores pings c (player_of_client scores pings c).
Proof.
  intros scores pings c. split; try reflexivity.
  - apply (looked_up_get _ _ beq beq_eq).
  - apply (looked_up_get _ _ N.eqb N.eqb_eq).
Qed.

Lemma filter_aset : forall V (P : N -> bool) k (v : V) m, NoDup (map fst m) ->
  Permutation (filter (fun x => P (fst x)) (aset N.eqb k v m))
              ((if P k then [(k, v)] else []) ++ filter (fun x => P (fst x) && negb (k =? fst x)) m).
Proof.
  intros V P k v m. induction m as [| [k' v'] m IH]; intros ND; cbn [aset].
  - cbn [filter fst]. rewrite app_nil_r. reflexivity.
  - cbn [map fst] in ND. inversion ND as [| ? ? NI ND']. subst. cbn [filter fst]. destruct (N.eqb k k') eqn:Q.
    + apply N.eqb_eq in Q. subst k'. cbn [negb]. rewrite andb_false_r. cbn [filter fst].
      assert (filter (fun x => P (fst x) && negb (k =? fst x)) m = filter (fun x => P (fst x)) m) as ->.
      { apply filter_ext_in. intros [a b] I. cbn [fst]. destruct (N.eqb k a) eqn:Q; [| rewrite andb_true_r; reflexivity].
        apply N.eqb_eq in Q. subst a. exfalso. apply NI. apply in_map_iff. exists (k, b). auto. }
      destruct (P k); reflexivity.
    + cbn [negb]. rewrite andb_true_r. cbn [filter fst]. specialize (IH ND'). destruct (P k').
      * rewrite IH. apply Permutation_middle.
      * exact IH.
Qed.

Section Pmap.
  Context (f : Client -> Player).
  Let insert m c := aset N.eqb (c_number c) (f c) m.
  Let absent (cs : list Client) (n : N) : bool := negb (existsb (N.eqb n) (map c_number cs)).

  Lemma absent_cons : forall c cs n, absent (c :: cs) n = absent cs n && negb (c_number c =? n).
  Proof.
    intros c cs n. unfold absent. cbn [map existsb]. rewrite negb_orb, andb_comm, (N.eqb_sym n). reflexivity.
  Qed.

  Lemma absent_iff : forall cs n, absent cs n = true <-> ~ In n (map c_number cs).
  Proof.
    intros cs n. unfold absent. rewrite negb_true_iff. split.
    - intros H I. assert (existsb (N.eqb n) (map c_number cs) = true) as T; [| congruence].
      apply existsb_exists. exists n. split; [exact I | apply N.eqb_refl].
    - intros N. destruct (existsb (N.eqb n) (map c_number cs)) eqn:T; [| reflexivity].
      apply existsb_exists in T. destruct T as [x [I X]]. apply N.eqb_eq in X. subst x. contradiction.
  Qed.

  Lemma pmap_perm : forall cs l, latest cs l -> forall m, NoDup (map fst m) ->
    Permutation (fold_left insert cs m)
      (map (fun c => (c_number c, f c)) l ++ filter (fun x => absent cs (fst x)) m).
  Proof.
    intros cs l L. induction L as [| c cs l N L IH | c cs l N L IH]; intros m ND; cbn [fold_left].
    - cbn [map app]. assert (filter (fun x => absent [] (fst x)) m = m) as ->; [| reflexivity].
      clear ND. induction m as [| x m IH]; [reflexivity |]. cbn [filter]. unfold absent at 1. cbn [map existsb negb]. rewrite IH. reflexivity.
    - rewrite IH by (apply (aset_nodup N.eqb N.eqb_eq); exact ND). unfold insert. rewrite filter_aset by exact ND.
      apply absent_iff in N. rewrite N. cbn [map app]. rewrite <- Permutation_middle. constructor. apply Permutation_app_head.
      rewrite (filter_ext _ _ (fun x => absent_cons c cs (fst x))). reflexivity.
    - rewrite IH by (apply (aset_nodup N.eqb N.eqb_eq); exact ND). unfold insert. rewrite filter_aset by exact ND.
      assert (absent cs (c_number c) = false) as ->.
      { destruct (absent cs (c_number c)) eqn:A; [| reflexivity]. apply absent_iff in A. contradiction. }
      apply Permutation_app_head. rewrite (filter_ext _ _ (fun x => absent_cons c cs (fst x))). reflexivity.
  Qed.
End Pmap.

Lemma latest_exists : forall cs, exists l, latest cs l.
Proof.
  induction cs as [| c cs [l IH]]; [exists []; constructor |].
  destruct (in_dec N.eq_dec (c_number c) (map c_number cs)).
  - exists l. apply latest_drop; assumption.
  - exists (c :: l). apply latest_keep; assumption.
Qed.

Lemma latest_all : forall cs, NoDup (map c_number cs) -> latest cs cs.
Proof.
  induction cs as [| c cs IH]; intros N; [constructor |]. cbn [map] in N. inversion N. subst.
  apply latest_keep; auto.
Qed.

Lemma Forall2_map_r : forall A B (R : A -> B -> Prop) f l, (forall x, R x (f x)) -> Forall2 R l (map f l).
Proof. intros A B R f l H. induction l; constructor; auto. Qed.

Lemma players_parsed_proof : forall E data ps pings scores ls,
  iterates (players_order E) ->
  player_clients E data = Ret (Ok ps) -> ping_per_player_number E data = Ret (Ok pings) ->
  frags_per_player_name E data = Ret scores -> latest ps ls ->
  exists es l, players_from_parsing E data = Ret (Ok l) /\ Forall2 (entry scores pings) ls es /\
    Permutation es l /\ in_order_of better l.
Proof.
  intros E data ps pings scores ls PO PC PI SC LA. unfold player_clients in PC. unfold players_from_parsing.
  destruct (clients E data) as [[cs | e] | |]; try discriminate. cbn [bind] in *. injection PC as PC.
  rewrite PI. cbn [bind]. rewrite SC. cbn [bind]. rewrite PC.
  set (m := fold_left _ ps []). exists (map (player_of_client scores pings) ls). eexists. split; [reflexivity |]. split; [| split].
  - apply Forall2_map_r. apply entry_of_client.
  - rewrite sort_by_perm. rewrite (PO m). unfold m.
    rewrite (pmap_perm (player_of_client scores pings) ps ls LA [] ltac:(constructor)). cbn [filter]. rewrite app_nil_r, map_map. reflexivity.
  - eapply stable_order_sorted; [apply better_key_order | apply sort_players].
Qed.

Lemma players_parsing_fails_proof : forall E data,
  (forall m, clients E data = Ret (Err m) -> players_from_parsing E data = Ret (Err m)) /\
  (forall p, clients E data = Panic p -> players_from_parsing E data = Panic p) /\
  (forall cs, clients E data = Ret (Ok cs) ->
     (forall m, ping_per_player_number E data = Ret (Err m) -> players_from_parsing E data = Ret (Err m)) /\
     (forall p, ping_per_player_number E data = Panic p -> players_from_parsing E data = Panic p) /\
     (forall pings, ping_per_player_number E data = Ret (Ok pings) ->
        forall p, frags_per_player_name E data = Panic p -> players_from_parsing E data = Panic p)).
Proof.
  intros E data. unfold players_from_parsing. split; [intros m ->; reflexivity |]. split; [intros p ->; reflexivity |].
  intros cs ->. cbn [bind]. split; [intros m ->; reflexivity |]. split; [intros p ->; reflexivity |].
  intros pings -> p. cbn [bind]. intros ->. reflexivity.
Qed.

Lemma nth_error_ext : forall A (l l' : list A), (forall k, nth_error l k = nth_error l' k) -> l = l'.
Proof.
  induction l as [| x l IH]; intros [| y l'] H; [reflexivity | specialize (H O); discriminate | specialize (H O); discriminate |].
  pose proof (H O) as H0. cbn [nth_error] in H0. injection H0 as ->. f_equal. apply IH. intros k. exact (H (S k)).
Qed.

Lemma client_numbers_distinct : forall E data l cs, clientinfo_strings E data = Ret (Ok l) -> len l <= 256 ->
  clients E data = Ret (Ok cs) -> NoDup (map c_number cs).
Proof.
  intros E data l cs H L C. destruct (clients_numbered_proof E data l H) as [cs' [C' [LC D]]].
  rewrite C in C'. injection C' as <-.
  assert (map c_number cs = map N.of_nat (seq 0 (length l))) as ->.
  { apply nth_error_ext. intros k. rewrite !nth_error_map. destruct (lt_dec k (length l)) as [K | K].
    - destruct (nth_error l k) as [s |] eqn:S; [| apply nth_error_None in S; lia].
      destruct (D k s S) as [c [N DC]]. rewrite N. cbn [option_map]. rewrite (d_number _ _ _ DC).
      rewrite N.mod_small by (unfold len in L; lia).
      rewrite (nth_error_nth' (seq 0 (length l)) O) by (rewrite seq_length; exact K). rewrite seq_nth by exact K. reflexivity.
    - assert (nth_error cs k = None) as -> by (apply nth_error_None; lia).
      assert (nth_error (seq 0 (length l)) k = None) as -> by (apply nth_error_None; rewrite seq_length; lia). reflexivity. }
  apply FinFun.Injective_map_NoDup; [| apply seq_NoDup]. intros a b Q. lia.
Qed.

Lemma NoDup_map_filter : forall A B (f : A -> B) g l, NoDup (map f l) -> NoDup (map f (filter g l)).
Proof.
  intros A B f g l H. induction l as [| x l IH]; [constructor |]. cbn [map] in H. inversion H as [| ? ? NI ND]. subst. cbn [filter].
  destruct (g x); [| auto]. cbn [map]. constructor; [| auto]. intros I. apply NI. apply in_map_iff in I. destruct I as [y [Q I]].
  apply filter_In in I. apply in_map_iff. exists y. tauto.
Qed.

Lemma players_parsed_all : forall E data l ps pings scores,
  iterates (players_order E) -> clientinfo_strings E data = Ret (Ok l) -> len l <= 256 ->
  player_clients E data = Ret (Ok ps) -> ping_per_player_number E data = Ret (Ok pings) ->
  frags_per_player_name E data = Ret scores ->
  exists es l, players_from_parsing E data = Ret (Ok l) /\ Forall2 (entry scores pings) ps es /\
    Permutation es l /\ in_order_of better l.
Proof.
  intros E data l ps pings scores IT S L PC PI SC. eapply players_parsed_proof; try eassumption. apply latest_all.
  unfold player_clients in PC. destruct (clients E data) as [[cs | e] | |] eqn:C; try discriminate. cbn [bind] in PC. injection PC as <-.
  apply NoDup_map_filter. eapply client_numbers_distinct; eauto.
Qed.

(** ** Players of the embedded stats *)
Lemma low_byte_as_u8 : forall z, low_byte (Some z) (as_u8 z).
Proof. intros z. unfold low_byte, as_u8. split; [lia |]. exists z. split; [auto |]. lia. Qed.

Lemma converted_player : forall k, converted k (player_from k).
Proof.
  intros k. split; try reflexivity; try apply low_byte_as_u8.
  - unfold player_from, as_u32; cbn [p_ping]. lia.
  - cbn [player_from p_is_bot]. rewrite orb_true_iff, Z.eqb_eq. reflexivity.
  - intros s. cbn [player_from p_auth_username]. destruct (kp_login k) as [| b r] eqn:L; cbn [is_empty].
    + split; [discriminate | intros [-> N]; contradiction].
    + split; [intros H; injection H as <-; split; [reflexivity | discriminate] | intros [-> _]; reflexivity].
Qed.

Lemma players_of_stats_proof : forall s, exists es l, players_from_ktxstats s = Ok l /\
  Forall2 converted (ks_players s) es /\ stable_order better es l.
Proof.
  intros s. exists (map player_from (ks_players s)), (sort_by player_cmp (map player_from (ks_players s))).
  split; [reflexivity |]. split; [apply Forall2_map_r, converted_player | apply sort_players].
Qed.

(** ** Determinism *)
Lemma agrees_antisym : forall A (m m' : M A), agrees m m' -> agrees m' m -> m = m'.
Proof. intros A m m' [-> | ->] [H | ->]; auto. Qed.

Lemma reordered_libraries : forall E po to co, same_libraries E (reordered E po to co).
Proof. intros. split; reflexivity. Qed.
Lemma reordered_libraries' : forall E po to co, same_libraries (reordered E po to co) E.
Proof. intros. split; reflexivity. Qed.
Lemma reordered_stricter : forall E po to co, stricter E (reordered E po to co) /\ stricter (reordered E po to co) E.
Proof. intros. split; right; reflexivity. Qed.

Section Reordered.
  Context (E : env) (po : list (N * Player) -> list (N * Player))
    (to : list (str * list Player) -> list (str * list Player)) (co : str -> list ((N * N) * N) -> list ((N * N) * N)).
  Let E' := reordered E po to co.
  Lemma reordered_clients : forall data, clients E' data = clients E data.
  Proof. intros. apply clients_same. apply reordered_libraries'. Qed.
  Lemma reordered_pings : forall data, ping_per_player_number E' data = ping_per_player_number E data.
  Proof. intros. apply agrees_antisym; apply pings_agrees; right; reflexivity. Qed.
  Lemma reordered_frags : forall data, frags_per_player_name E' data = frags_per_player_name E data.
  Proof.
    intros. apply agrees_antisym; apply frags_agrees; try (right; reflexivity);
      [apply reordered_libraries' | apply reordered_libraries].
  Qed.
  Lemma reordered_stats : forall data, ktxstats_v3 E' data = ktxstats_v3 E data.
  Proof.
    intros. apply agrees_antisym; apply ktxstats_v3_agrees; try (right; reflexivity);
      [apply reordered_libraries' | apply reordered_libraries].
  Qed.
End Reordered.

Lemma ranks_sorted : forall l l', Permutation l l' -> in_order_of better l -> in_order_of better l' ->
  map rank l = map rank l'.
Proof.
  intros l l' P S S'.
  set (before := fun x y : Z * str => (fst y < fst x)%Z \/ (fst x = fst y /\ text_lt (snd x) (snd y))).
  apply (in_order_unique _ before).
  - intros [a n] [b m] _ _ X Y. unfold before in X, Y. cbn [fst snd] in X, Y.
    assert (a = b) by (destruct (Z.lt_trichotomy a b) as [L | [L | L]]; [| exact L |]; exfalso; [apply Y | apply X]; left; exact L).
    subst b. f_equal. destruct (text_trichotomy n m) as [L | [L | L]]; [| exact L |]; exfalso; [apply X | apply Y]; right; auto.
  - unfold in_order_of. apply StronglySorted_map. exact S.
  - unfold in_order_of. apply StronglySorted_map. exact S'.
  - apply Permutation_map. exact P.
Qed.

Lemma same_up_to_ties_refl : forall m, same_up_to_ties m m.
Proof. intros [[l | e] | p |]; cbn; auto. Qed.

Lemma parsed_unordered : forall E po to co data, iterates (players_order E) -> iterates po ->
  same_up_to_ties (players_from_parsing E data) (players_from_parsing (reordered E po to co) data).
Proof.
  intros E po to co data O O'. unfold players_from_parsing.
  rewrite reordered_clients, reordered_pings, reordered_frags.
  destruct (clients E data) as [[cs | e] | |]; try apply same_up_to_ties_refl. cbn [bind].
  destruct (ping_per_player_number E data) as [[pings | e] | |]; try apply same_up_to_ties_refl. cbn [bind].
  destruct (frags_per_player_name E data) as [scores | |]; try apply same_up_to_ties_refl. cbn [bind].
  set (m := fold_left _ _ _). cbn [players_order reordered].
  assert (P : Permutation (sort_by player_cmp (map snd (players_order E m))) (sort_by player_cmp (map snd (po m)))).
  { rewrite !sort_by_perm. apply Permutation_map. rewrite (O _), (O' _). reflexivity. }
  assert (S : forall l, in_order_of better (sort_by player_cmp l)).
  { intros l. eapply stable_order_sorted; [apply better_key_order | apply sort_players]. }
  cbn [same_up_to_ties]. split; [exact P |]. split; [apply ranks_sorted; auto |].
  intros U. apply (in_order_unique _ better); auto. intros a b IA IB NA NB. apply U; auto.
  destruct (better_total a b) as [B | [[F N] | B]]; [contradiction | unfold rank; congruence | contradiction].
Qed.

Lemma players_unordered : forall E po to co data, iterates (players_order E) -> iterates po ->
  same_up_to_ties (players E data) (players (reordered E po to co) data).
Proof.
  intros E po to co data O O'. unfold players. rewrite reordered_stats.
  destruct (ktxstats_v3 E data) as [[s | e] | |]; try apply same_up_to_ties_refl. cbn [bind].
  apply parsed_unordered; assumption.
Qed.

Lemma source_proof : forall E data,
  (forall s, ktxstats_v3 E data = Ret (Ok s) -> players E data = Ret (players_from_ktxstats s)) /\
  (forall m, ktxstats_v3 E data = Ret (Err m) -> players E data = players_from_parsing E data) /\
  (forall p, ktxstats_v3 E data = Panic p -> players E data = Panic p).
Proof. intros E data. unfold players. repeat split; intros x ->; reflexivity. Qed.

Lemma teams_source_proof : forall E data,
  (forall l, players E data = Ret (Ok l) ->
     (forall ts, teams E data = Ret (Ok ts) <-> teams_from_players E l = Ret ts) /\
     (forall p, teams E data = Panic p <-> teams_from_players E l = Panic p) /\
     (forall m, teams E data <> Ret (Err m))) /\
  (forall m, players E data = Ret (Err m) -> teams E data = Ret (Err m)) /\
  (forall p, players E data = Panic p -> teams E data = Panic p).
Proof.
  intros E data. unfold teams. split; [| split; intros x ->; reflexivity].
  intros l ->. cbn [bind]. destruct (teams_from_players E l) as [ts | p |]; cbn [bind].
  - split; [| split; [| discriminate]]; intros x; split; intros H; try discriminate; injection H as <-; reflexivity.
  - split; [| split; [| discriminate]]; intros x; split; intros H; try discriminate; injection H as <-; reflexivity.
  - split; [| split; [| discriminate]]; intros x; split; intros H; discriminate.
Qed.

Lemma teams_of_stats_proof : forall E s l, players_from_ktxstats s = Ok l ->
  forall ts, teams_from_ktxstats E s = Ret (Ok ts) <-> teams_from_players E l = Ret ts.
Proof.
  intros E s l H ts. unfold teams_from_ktxstats. rewrite H. destruct (teams_from_players E l); cbn [bind]; split; intros X;
    try discriminate; injection X as <-; reflexivity.
Qed.

(** ** Grouping *)
Lemma group_gather : forall ps, group_by_team ps = gather beq (map (fun p => (p_team p, p)) ps) [].
Proof.
  intros ps. unfold group_by_team, gather.
  assert (H : forall m, fold_left (fun m p => aset beq (p_team p) (aget_or beq (p_team p) [] m ++ [p]) m) ps m
    = fold_left (gather1 beq) (map (fun p => (p_team p, p)) ps) m); [| apply H].
  induction ps as [| p ps IH]; intros m; [reflexivity |]. cbn [map fold_left]. rewrite IH. reflexivity.
Qed.

Lemma group_entry : forall ps n ms, In (n, ms) (group_by_team ps) ->
  ms = filter (fun p => beq (p_team p) n) ps /\ ms <> [].
Proof.
  intros ps n ms H. rewrite group_gather in H. destruct (gather_entries beq beq_eq _ _ _ H) as [V NE].
  split; [| exact NE]. subst ms. clear. unfold values_of.
  induction ps as [| p ps IH]; [reflexivity |]. cbn [map filter fst]. destruct (beq (p_team p) n); cbn [map snd]; rewrite IH; reflexivity.
Qed.

Lemma group_nodup : forall ps, NoDup (map fst (group_by_team ps)).
Proof. intros ps. rewrite group_gather. apply (gather_nodup beq beq_eq). constructor. Qed.

Lemma group_keys : forall ps n, In n (map fst (group_by_team ps)) <-> exists p, In p ps /\ p_team p = n.
Proof.
  intros ps n. rewrite group_gather, (gather_keys beq beq_eq). rewrite map_map. cbn [fst]. split.
  - intros [[] | H]. apply in_map_iff in H. destruct H as [p [Q I]]. eauto.
  - intros [p [I Q]]. right. apply in_map_iff. eauto.
Qed.

Lemma group_splits : forall ps n, splits (fun p => p_team p = n) ps
  (filter (fun p => beq (p_team p) n) ps) (filter (fun p => negb (beq (p_team p) n)) ps).
Proof. intros ps n. apply splits_filter; [intros x; apply beq_eq | reflexivity]. Qed.

Lemma splits_unique : forall A (P : A -> Prop) l a b, splits P l a b -> forall a' b', splits P l a' b' -> a = a' /\ b = b'.
Proof.
  intros A P l a b H. induction H as [| x l a b Px H IH | x l a b Px H IH]; intros a' b' H'; inversion H'; subst; auto; try contradiction;
    destruct (IH _ _ ltac:(eassumption)) as [-> ->]; auto.
Qed.

(** ** Sums *)
Lemma total_app : forall a b, total (a ++ b) = (total a + total b)%Z.
Proof. intros a b. unfold total. induction a as [| x a IH]; [reflexivity |]. cbn [app fold_right]. rewrite IH. ring. Qed.

Lemma sums_done : forall E ms f g,
  (forall a b, ms = a ++ b -> (-2147483648 <= f + total (map p_frags a) <= 2147483647)%Z) ->
  g + total_ping ms < 4294967296 ->
  foldM (fun '(frags, ping) p =>
           let! f := iadd E frags (p_frags p) in
           let! g := uadd E u32_bound ping (p_ping p) in
           Ret (f, g)) ms (f, g) = Ret ((f + total (map p_frags ms))%Z, g + total_ping ms).
Proof.
  intros E ms. induction ms as [| p ms IH]; intros f g F G.
  - cbn [foldM map]. unfold total, total_ping. cbn [map fold_right]. rewrite N.add_0_r, Z.add_0_r. reflexivity.
  - assert (TP : total_ping (p :: ms) = p_ping p + total_ping ms) by reflexivity.
    assert (TF : forall l, total (map p_frags (p :: l)) = (p_frags p + total (map p_frags l))%Z) by reflexivity.
    rewrite TP in G. cbn [foldM].
    assert (iadd E f (p_frags p) = Ret (f + p_frags p)%Z) as ->.
    { unfold iadd. pose proof (F [p] ms eq_refl) as B. rewrite (TF []) in B. change (total (map p_frags [])) with 0%Z in B.
      unfold i32_min, i32_max. destruct ((-2147483648 <=? f + p_frags p) && (f + p_frags p <=? 2147483647))%Z eqn:C; [reflexivity | lia]. }
    cbn [bind]. assert (uadd E u32_bound g (p_ping p) = Ret (g + p_ping p)) as ->.
    { unfold uadd, u32_bound. destruct (g + p_ping p <? 4294967296) eqn:C; [reflexivity | lia]. }
    cbn [bind]. rewrite IH.
    + rewrite TP, TF, N.add_assoc, Z.add_assoc. reflexivity.
    + intros a b Q. pose proof (F (p :: a) b ltac:(rewrite Q; reflexivity)) as B. rewrite TF, Z.add_assoc in B. exact B.
    + rewrite <- N.add_assoc. exact G.
Qed.

(** ** Colours *)
Lemma color_eqb_eq : forall a b, color_eqb a b = true <-> a = b.
Proof.
  intros [a b] [c d]. unfold color_eqb. cbn [fst snd]. rewrite andb_true_iff, !N.eqb_eq. split; [intros [-> ->]; reflexivity |].
  intros H. injection H as -> ->. auto.
Qed.

Fixpoint worn (c : N * N) (ps : list Player) : N :=
  match ps with
  | [] => 0
  | p :: ps => worn c ps + if color_eqb (p_color p) c then 1 else 0
  end.

Lemma wear_worn : forall c ps, wear c ps (worn c ps).
Proof.
  intros c ps. induction ps as [| p ps IH]; cbn [worn]; [constructor |]. destruct (color_eqb (p_color p) c) eqn:Q.
  - apply wear_yes; [apply color_eqb_eq; exact Q | exact IH].
  - rewrite N.add_0_r. apply wear_no; [| exact IH]. intros X. apply color_eqb_eq in X. congruence.
Qed.

Lemma wear_fun : forall c ps n, wear c ps n -> n = worn c ps.
Proof.
  intros c ps n H. induction H as [| p ps n Q H IH | p ps n Q H IH]; cbn [worn]; [reflexivity | |].
  - apply color_eqb_eq in Q. rewrite Q. congruence.
  - destruct (color_eqb (p_color p) c) eqn:X; [apply color_eqb_eq in X; contradiction | lia].
Qed.

Lemma color_counts_done : forall E ps m, NoDup (map fst m) -> (forall c v, In (c, v) m -> 0 < v) ->
  (forall c, aget_or color_eqb c 0 m + len ps < 256) ->
  exists m', foldM (fun m c =>
           let! n := uadd E u8_bound (aget_or color_eqb c 0 m) 1 in
           Ret (aset color_eqb c n m)) (map p_color ps) m = Ret m' /\
    NoDup (map fst m') /\ (forall c v, In (c, v) m' -> 0 < v) /\
    forall c, aget_or color_eqb c 0 m' = aget_or color_eqb c 0 m + worn c ps.
Proof.
  intros E ps. induction ps as [| p ps IH]; intros m ND POS B.
  - exists m. cbn [map foldM worn]. repeat split; auto. intros c. rewrite N.add_0_r. reflexivity.
  - cbn [map foldM]. assert (uadd E u8_bound (aget_or color_eqb (p_color p) 0 m) 1 = Ret (aget_or color_eqb (p_color p) 0 m + 1)) as ->.
    { unfold uadd, u8_bound. specialize (B (p_color p)). rewrite len_cons in B. destruct (_ <? 256) eqn:C; [reflexivity | lia]. }
    cbn [bind]. set (m1 := aset _ _ _ _).
    assert (G : forall c, aget_or color_eqb c 0 m1 = aget_or color_eqb c 0 m + if color_eqb (p_color p) c then 1 else 0).
    { intros c. unfold m1. rewrite (aget_or_aset color_eqb color_eqb_eq).
      rewrite (eqb_symm color_eqb color_eqb_eq c). destruct (color_eqb (p_color p) c) eqn:Q; [apply color_eqb_eq in Q; subst c; reflexivity | lia]. }
    assert (ND1 : NoDup (map fst m1)) by (apply (aset_nodup color_eqb color_eqb_eq); exact ND).
    destruct (IH m1) as [m' [F [ND' [POS' G']]]].
    + exact ND1.
    + intros c v I. pose proof (in_aget color_eqb color_eqb_eq _ _ _ ND1 I) as A. pose proof (G c) as X.
      unfold aget_or at 1 in X. rewrite A in X. destruct (color_eqb (p_color p) c) eqn:Q; [lia |].
      unfold aget_or in X. destruct (aget color_eqb c m) as [w |] eqn:W.
      * apply (aget_in color_eqb color_eqb_eq) in W. specialize (POS _ _ W). lia.
      * unfold m1 in A. rewrite (aget_aset color_eqb color_eqb_eq) in A. rewrite (eqb_symm color_eqb color_eqb_eq), Q, W in A. discriminate.
    + intros c. rewrite G. specialize (B c). rewrite len_cons in B. destruct (color_eqb (p_color p) c); lia.
    + exists m'. split; [exact F |]. split; [exact ND' |]. split; [exact POS' |]. intros c. rewrite G', G. cbn [worn]. lia.
Qed.

Lemma max_color_spec : forall (l : list ((N * N) * N)) (mc : option (N * N)) (mn : N), let r := fold_left (fun '(mc, mn) '(color, count) =>
               if mn <? count then (Some color, count) else (mc, mn)) l (mc, mn) in
  mn <= snd r /\ (forall c v, In (c, v) l -> v <= snd r) /\ (r = (mc, mn) \/ exists c, fst r = Some c /\ In (c, snd r) l).
Proof.
  induction l as [| [c v] l IH]; intros mc mn r.
  - subst r. cbn [fold_left snd]. repeat split; [lia | intros c v [] | auto].
  - subst r. cbn [fold_left]. destruct (mn <? v) eqn:Q.
    + destruct (IH (Some c) v) as [A [B C]]. split; [lia |]. split.
      * intros c' v' [H | I]; [injection H as <- <-; exact A | eauto].
      * right. destruct C as [-> | [c' [F I]]]; [exists c; split; [reflexivity | left; reflexivity] | exists c'; split; [exact F | right; exact I]].
    + destruct (IH mc mn) as [A [B C]]. split; [exact A |]. split.
      * intros c' v' [H | I]; [injection H as <- <-; lia | eauto].
      * destruct C as [-> | [c' [F I]]]; [left; reflexivity | right; exists c'; split; [exact F | right; exact I]].
Qed.

Lemma majority_done : forall E team ps, each_iterates (colors_order E) -> (3 <= length ps)%nat -> len ps < 256 ->
  exists c, majority_color E team (map p_color ps) = Ret (Some c) /\ most_worn c ps.
Proof.
  intros E team ps IT L3 L. unfold majority_color.
  destruct ps as [| p1 [| p2 [| p3 ps]]]; try (cbn [length] in L3; lia).
  set (l := p1 :: p2 :: p3 :: ps) in *. cbn [map]. change (p_color p1 :: p_color p2 :: p_color p3 :: map p_color ps) with (map p_color l).
  unfold color_counts. destruct (color_counts_done E l []) as [m [F [ND [POS G]]]].
  { constructor. } { intros c v []. } { intros c. cbn. exact L. }
  rewrite F. cbn [bind]. unfold max_color.
  pose proof (max_color_spec (colors_order E team m) None 0) as X. cbn zeta in X. set (r := fold_left _ _ _) in *.
  destruct X as [_ [MX C]].
  assert (G0 : forall c, aget_or color_eqb c 0 m = worn c l) by (intros c; rewrite G; reflexivity).
  assert (IN : forall c v, In (c, v) m <-> 0 < v /\ v = worn c l).
  { intros c v. split.
    - intros I. split; [eauto |]. rewrite <- G0. unfold aget_or. rewrite (in_aget color_eqb color_eqb_eq _ _ _ ND I). reflexivity.
    - intros [P ->]. rewrite <- G0 in *. unfold aget_or in *. destruct (aget color_eqb c m) eqn:A; [apply (aget_in color_eqb color_eqb_eq); exact A | lia]. }
  assert (INO : forall c v, In (c, v) (colors_order E team m) <-> In (c, v) m).
  { intros c v. split; apply Permutation_in; [apply IT | apply Permutation_sym, IT]. }
  destruct C as [C | [c [C I]]].
  - exfalso. assert (I : In (p_color p1, worn (p_color p1) l) (colors_order E team m)).
    { apply INO, IN. split; [| reflexivity]. unfold l. cbn [worn]. assert (color_eqb (p_color p1) (p_color p1) = true) as -> by (apply color_eqb_eq; reflexivity). lia. }
    pose proof (MX _ _ I) as X. apply INO in I. apply IN in I. rewrite C in X. cbn [snd] in X. lia.
  - exists c. rewrite C. split; [reflexivity |]. apply INO in I. apply IN in I. destruct I as [P Q].
    exists (snd r). split; [exact P |]. split; [rewrite Q; apply wear_worn |].
    intros d n W. apply wear_fun in W. destruct (N.eq_dec n 0) as [Z | NZ]; [lia |].
    apply (MX d). apply INO, IN. split; [lia | exact W].
Qed.

(** ** One team *)
Lemma team_done : forall E ms, each_iterates (colors_order E) -> ms <> [] ->
  len ms < 256 -> total_ping ms < 4294967296 ->
  (forall a b, ms = a ++ b -> (-2147483648 <= total (map p_frags a) <= 2147483647)%Z) ->
  exists t, team_from E ms = Ret t /\ (exists p r, ms = p :: r /\ t_name t = p_team p) /\ t_players t = ms /\
    t_frags t = total (map p_frags ms) /\
    (total_ping ms + len ms <= 8388608 -> rounds_half_up (total_ping ms) (len ms) (t_ping t)) /\
    t_ping t = f32_round_to_u32 (f32_div (f32_of_N (total_ping ms)) (f32_of_N (len ms))) /\
    team_color ms (t_color t).
Proof.
  intros E ms IT NE L TP TF. destruct ms as [| p r] eqn:Q; [contradiction |]. rewrite <- Q in *.
  assert (RH : forall x, x = f32_round_to_u32 (f32_div (f32_of_N (total_ping ms)) (f32_of_N (len ms))) ->
     total_ping ms + len ms <= 8388608 -> rounds_half_up (total_ping ms) (len ms) x).
  { intros x -> B. rewrite average_half_up by (try exact B; rewrite Q, len_cons; lia).
    assert (C : 0 < len ms) by (rewrite Q, len_cons; lia). unfold rounds_half_up.
    set (s := total_ping ms) in *. set (n := len ms) in *. clearbody s n.
    pose proof (N.div_mod (2 * s + n) (2 * n) ltac:(lia)). pose proof (N.mod_lt (2 * s + n) (2 * n) ltac:(lia)).
    set (q := (2 * s + n) / (2 * n)) in *. set (t := (2 * s + n) mod (2 * n)) in *. clearbody q t. nia. }
  assert (MC : exists mc, majority_color E (p_team p) (map p_color ms) = Ret mc /\ team_color ms (match mc with Some c => c | None => p_color p end)).
  { destruct (le_lt_dec 3 (length ms)) as [G | S].
    - destruct (majority_done E (p_team p) ms IT G L) as [c [M W]]. exists (Some c). split; [exact M |].
      rewrite Q in *. destruct r as [| b [| c' r]]; try (cbn [length] in G; lia). exact W.
    - rewrite Q in *. destruct r as [| b [| c' r]]; [| | cbn [length] in S; lia]; (eexists; split; [reflexivity | reflexivity]). }
  destruct MC as [mc [M TC]]. eexists. split.
  { transitivity (team_from E (p :: r)); [rewrite Q; reflexivity |]. cbn [team_from]. rewrite <- Q. rewrite sums_done.
    - cbn [bind]. rewrite Z.add_0_l, N.add_0_l. rewrite M. cbn [bind]. reflexivity.
    - intros a b S. rewrite Z.add_0_l. eapply TF. exact S.
    - rewrite N.add_0_l. exact TP. }
  cbn [t_name t_players t_frags t_ping t_color]. split; [eauto |]. split; [reflexivity |]. split; [reflexivity |].
  split; [apply RH; reflexivity |]. split; [reflexivity | exact TC].
Qed.

Lemma mapM_done : forall A B (f : A -> M B) l, (forall a, In a l -> exists b, f a = Ret b) ->
  exists bs, mapM f l = Ret bs /\ Forall2 (fun a b => f a = Ret b) l bs.
Proof.
  intros A B f l. induction l as [| a l IH]; intros H; [exists []; split; [reflexivity | constructor] |].
  destruct (H a (or_introl eq_refl)) as [b FA]. destruct IH as [bs [ML F2]]; [intros; apply H; right; assumption |].
  exists (b :: bs). cbn [mapM]. rewrite FA. cbn [bind]. rewrite ML. cbn [bind]. split; [reflexivity | constructor; assumption].
Qed.

Lemma mapM_Forall2 : forall A B (f : A -> M B) l bs, Forall2 (fun a b => f a = Ret b) l bs -> mapM f l = Ret bs.
Proof.
  intros A B f l bs H. induction H as [| a b l bs FA H IH]; [reflexivity |]. cbn [mapM]. rewrite FA. cbn [bind]. rewrite IH. reflexivity.
Qed.

Lemma Forall2_perm : forall A B (R : A -> B -> Prop) l l', Permutation l l' -> forall bs, Forall2 R l bs ->
  exists bs', Forall2 R l' bs' /\ Permutation bs bs'.
Proof.
  intros A B R l l' P. induction P as [| x l l' P IH | x y l | l l' l'' P IH P' IH']; intros bs F.
  - inv F. exists []. split; constructor.
  - inv F. destruct (IH _ H3) as [bs' [F' PB]]. exists (y :: bs'). split; constructor; assumption.
  - inv F. inv H3. exists (y1 :: y0 :: l'0). split; [repeat constructor; assumption | constructor].
  - destruct (IH _ F) as [b1 [F1 P1]]. destruct (IH' _ F1) as [b2 [F2 P2]]. exists b2. split; [exact F2 | etransitivity; eauto].
Qed.

Lemma Forall2_in : forall A B (R : A -> B -> Prop) l bs b, Forall2 R l bs -> In b bs -> exists a, In a l /\ R a b.
Proof.
  intros A B R l bs b F. induction F as [| x y l bs Rxy F IH]; intros I; [destruct I |]. destruct I as [-> | I].
  - exists x. split; [left; reflexivity | exact Rxy].
  - destruct (IH I) as [a [IA RA]]. exists a. split; [right; exact IA | exact RA].
Qed.

(** the teams before they are sorted *)
Lemma groups_done : forall E ps, iterates (teams_order E) -> each_iterates (colors_order E) -> sums_fit ps ->
  exists ts, Forall2 (fun g t => team_from E (snd g) = Ret t /\ fst g = t_name t /\ team_of ps t) (teams_order E (group_by_team ps)) ts.
Proof.
  intros E ps IT IC SF.
  assert (H : forall g, In g (teams_order E (group_by_team ps)) ->
    exists t, team_from E (snd g) = Ret t /\ fst g = t_name t /\ team_of ps t).
  { intros [n ms] I. apply (Permutation_in _ (IT _)) in I. destruct (group_entry _ _ _ I) as [V NE]. cbn [fst snd].
    pose proof (group_splits ps n) as SP. rewrite <- V in SP. destruct (SF _ _ _ SP) as [L [TP TF]].
    destruct (team_done E ms IC NE L TP TF) as [t [T [[p [r [Q NM]]] [PL [FR [PG [_ TC]]]]]]].
    exists t. split; [exact T |].
    assert (NN : n = t_name t).
    { rewrite NM. assert (IP : In p ms) by (rewrite Q; left; reflexivity). rewrite V in IP. apply filter_In in IP.
      destruct IP as [_ B]. apply beq_eq in B. congruence. }
    split; [exact NN |]. split.
    - rewrite PL, <- NN. eauto.
    - rewrite PL. exact NE.
    - rewrite PL. exact FR.
    - rewrite PL. exact PG.
    - rewrite PL. exact TC. }
  induction (teams_order E (group_by_team ps)) as [| g l IH]; [exists []; constructor |].
  destruct (H g (or_introl eq_refl)) as [t T]. destruct IH as [ts F]; [intros; apply H; right; assumption |].
  exists (t :: ts). constructor; assumption.
Qed.

Lemma Forall2_impl : forall A B (R R' : A -> B -> Prop) l bs, (forall a b, R a b -> R' a b) -> Forall2 R l bs -> Forall2 R' l bs.
Proof. intros A B R R' l bs H F. induction F; constructor; auto. Qed.
Lemma Forall2_map_l : forall A B C (f : A -> C) (R : C -> B -> Prop) l bs, Forall2 (fun a b => R (f a) b) l bs -> Forall2 R (map f l) bs.
Proof. intros A B C f R l bs F. induction F; cbn [map]; constructor; auto. Qed.
Lemma Forall2_map_eq : forall A B C (f : A -> C) (g : B -> C) l bs, Forall2 (fun a b => f a = g b) l bs -> map f l = map g bs.
Proof. intros A B C f g l bs F. induction F; cbn [map]; congruence. Qed.

Lemma team_cmp_gt : forall E a b, team_cmp E a b = Gt <-> text_lt (to_lowercase E (t_name b)) (to_lowercase E (t_name a)).
Proof.
  intros E a b. unfold team_cmp. pose proof (str_cmp_cases (to_lowercase E (t_name a)) (to_lowercase E (t_name b))) as C.
  destruct (str_cmp _ _); split; intros H; try discriminate; try reflexivity.
  - rewrite C in H. destruct (text_lt_irrefl _ H).
  - destruct C as [_ [C _]]. contradiction.
  - apply C.
Qed.

Lemma sort_teams : forall E l, in_order_of (fun a b => text_lt (to_lowercase E (t_name a)) (to_lowercase E (t_name b))) (sort_by (team_cmp E) l).
Proof.
  intros E l. eapply stable_order_sorted; [apply (text_key_order Team (fun t => to_lowercase E (t_name t))) |].
  apply stable_order_sort; [apply text_key_order | apply team_cmp_gt].
Qed.

Lemma teams_proof : forall E ps, iterates (teams_order E) -> each_iterates (colors_order E) -> sums_fit ps ->
  exists ts, teams_from_players E ps = Ret ts /\ teams_of (to_lowercase E) ps ts.
Proof.
  intros E ps IT IC SF. destruct (groups_done E ps IT IC SF) as [ts F]. exists (sort_by (team_cmp E) ts). split.
  - unfold teams_from_players. rewrite (mapM_Forall2 _ _ _ (map snd (teams_order E (group_by_team ps))) ts); [reflexivity |].
    apply Forall2_map_l. eapply Forall2_impl; [| exact F]. intros a b [H _]. exact H.
  - assert (NM : map t_name ts = map fst (teams_order E (group_by_team ps))).
    { symmetry. apply Forall2_map_eq. eapply Forall2_impl; [| exact F]. intros a b [_ [H _]]. exact H. }
    assert (P : Permutation (map t_name (sort_by (team_cmp E) ts)) (map fst (group_by_team ps))).
    { transitivity (map t_name ts); [apply Permutation_map, sort_by_perm |]. rewrite NM. apply Permutation_map. apply IT. }
    split.
    + eapply Permutation_NoDup; [apply Permutation_sym, P | apply group_nodup].
    + intros n. rewrite <- group_keys. split; apply Permutation_in; [exact P | apply Permutation_sym, P].
    + apply Forall_forall. intros t I. apply (Permutation_in _ (sort_by_perm _ _ _)) in I.
      destruct (Forall2_in _ _ _ _ _ _ F I) as [g [_ [_ [_ H]]]]. exact H.
    + apply sort_teams.
Qed.

(** Every player is in exactly one team. *)
Lemma teams_partition : forall lower ps ts, teams_of lower ps ts ->
  Permutation (concat (map t_players ts)) ps.
Proof.
  intros lower ps ts [ON NA EA _].
  assert (ST : forall l t, team_of l t -> t_players t = filter (fun p => beq (p_team p) (t_name t)) l).
  { intros l t [[o S] _ _ _ _]. exact (proj1 (splits_unique _ _ _ _ _ S _ _ (group_splits l (t_name t)))). }
  assert (Q : concat (map t_players ts) = concat (map (fun n => filter (fun p => beq (p_team p) n) ps) (map t_name ts))).
  { rewrite map_map. f_equal. apply map_ext_in. intros t I. apply ST. rewrite Forall_forall in EA. auto. }
  rewrite Q. assert (C : forall p, In p ps -> In (p_team p) (map t_name ts)) by (intros p I; apply NA; eauto). revert ON C.
  generalize (map t_name ts) as ns. clear. intros ns ON C.
  induction ps as [| p ps IH].
  - clear. induction ns as [| n ns IH]; [constructor | exact IH].
  - specialize (IH (fun q I => C q (or_intror I))). specialize (C p (or_introl eq_refl)).
    apply in_split in C. destruct C as [a [b ->]].
    assert (D : forall l : list str, ~ In (p_team p) l -> @map str _ (fun n : bytes => filter (fun p => beq (p_team p) n) (p :: ps)) l = @map str _ (fun n : bytes => filter (fun p => beq (p_team p) n) ps) l).
    { intros l NI. apply map_ext_in. intros n I. cbn [filter]. destruct (beq (p_team p) n) eqn:Q; [| reflexivity].
      apply beq_eq in Q. subst n. contradiction. }
    apply NoDup_remove_2 in ON. rewrite in_app_iff in ON.
    rewrite map_app in *. cbn [map] in IH |- *. rewrite (D a), (D b) by tauto. cbn [filter].
    assert (beq (p_team p) (p_team p) = true) as -> by (apply beq_eq; reflexivity).
    rewrite concat_app in *. cbn [concat] in *. cbn [app]. rewrite <- Permutation_middle. constructor. exact IH.
Qed.

(** ** Determinism of teams *)
Lemma majority_equal : forall E E' team ps, checked E = checked E' -> each_iterates (colors_order E) -> each_iterates (colors_order E') ->
  len ps < 256 -> ((3 <= length ps)%nat -> forall c d, most_worn c ps -> most_worn d ps -> c = d) ->
  majority_color E team (map p_color ps) = majority_color E' team (map p_color ps).
Proof.
  intros E E' team ps CH IT IT' L U. destruct (le_lt_dec 3 (length ps)) as [G | S].
  - destruct (majority_done E team ps IT G L) as [c [-> W]]. destruct (majority_done E' team ps IT' G L) as [d [-> W']].
    rewrite (U G c d W W'). reflexivity.
  - destruct ps as [| a [| b [| c ps]]]; [reflexivity | reflexivity | reflexivity | cbn [length] in S; lia].
Qed.

Lemma team_from_reordered : forall E po to co ms, each_iterates (colors_order E) -> each_iterates co -> len ms < 256 ->
  ((3 <= length ms)%nat -> forall c d, most_worn c ms -> most_worn d ms -> c = d) ->
  team_from (reordered E po to co) ms = team_from E ms.
Proof.
  intros E po to co ms IT IT' L U. unfold team_from. destruct ms as [| p r] eqn:Q; [reflexivity |]. rewrite <- Q in *.
  rewrite (majority_equal (reordered E po to co) E (p_team p) ms) by (auto). reflexivity.
Qed.

Lemma teams_unordered : forall E po to co ps, iterates (teams_order E) -> each_iterates (colors_order E) ->
  iterates to -> each_iterates co -> sums_fit ps ->
  exists ts ts', teams_from_players E ps = Ret ts /\ teams_from_players (reordered E po to co) ps = Ret ts' /\
    map (fun t => to_lowercase E (t_name t)) ts = map (fun t => to_lowercase E (t_name t)) ts' /\
    ((forall p q, In p ps -> In q ps -> to_lowercase E (p_team p) = to_lowercase E (p_team q) -> p_team p = p_team q) ->
     clear_colors ps -> ts = ts').
Proof.
  intros E po to co ps IT IC IT' IC' SF.
  destruct (teams_proof E ps IT IC SF) as [ts [T TO]].
  destruct (teams_proof (reordered E po to co) ps IT' IC' SF) as [ts' [T' TO']].
  cbn [to_lowercase reordered] in TO'.
  exists ts, ts'. split; [exact T |]. split; [exact T' |]. split.
  - destruct TO as [ON NA _ OR], TO' as [ON' NA' _ OR'].
    apply (in_order_unique _ text_lt).
    + intros a b _ _ X Y. destruct (text_trichotomy a b) as [L | [L | L]]; [contradiction | exact L | contradiction].
    + apply StronglySorted_map. exact OR.
    + apply StronglySorted_map. exact OR'.
    + assert (P : Permutation (map t_name ts) (map t_name ts')).
      { apply NoDup_Permutation; [exact ON | exact ON' |]. intros n. rewrite NA, NA'. reflexivity. }
      apply (Permutation_map (to_lowercase E)) in P. rewrite !map_map in P. exact P.
  - intros LC CC. destruct (groups_done E ps IT IC SF) as [us F].
    assert (P : Permutation (teams_order E (group_by_team ps)) (to (group_by_team ps))) by (rewrite (IT _), (IT' _); reflexivity).
    destruct (Forall2_perm _ _ _ _ _ P _ F) as [us' [F' PU]].
    assert (M : mapM (team_from E) (map snd (teams_order E (group_by_team ps))) = Ret us).
    { apply mapM_Forall2. apply Forall2_map_l. eapply Forall2_impl; [| exact F]. intros a b [H _]. exact H. }
    assert (M' : mapM (team_from (reordered E po to co)) (map snd (to (group_by_team ps))) = Ret us').
    { apply mapM_Forall2. apply Forall2_map_l.
      assert (X : forall g, In g (to (group_by_team ps)) -> team_from (reordered E po to co) (snd g) = team_from E (snd g)).
      { intros [n ms] I. cbn [snd]. apply (Permutation_in _ (IT' _)) in I. destruct (group_entry _ _ _ I) as [V _].
        pose proof (group_splits ps n) as SP. rewrite <- V in SP. destruct (SF _ _ _ SP) as [L _].
        apply team_from_reordered; auto. intros G. eapply CC; [exact SP | exact G]. }
      clear - F' X. induction F' as [| g t l bs [H _] F IH]; constructor.
      - rewrite X by (left; reflexivity). exact H.
      - apply IH. intros; apply X; right; assumption. }
    unfold teams_from_players in T, T'. rewrite M in T. cbn [teams_order reordered] in T'. rewrite M' in T'. cbn [bind] in T, T'.
    assert (ts = sort_by (team_cmp E) us) as -> by congruence.
    assert (ts' = sort_by (team_cmp E) us') as ->.
    { change (team_cmp E) with (team_cmp (reordered E po to co)). congruence. }
    apply (in_order_unique _ (fun a b => text_lt (to_lowercase E (t_name a)) (to_lowercase E (t_name b)))).
    + intros a b IA IB X Y.
      assert (LE : to_lowercase E (t_name a) = to_lowercase E (t_name b)).
      { destruct (text_trichotomy (to_lowercase E (t_name a)) (to_lowercase E (t_name b))) as [L | [L | L]]; [contradiction | exact L | contradiction]. }
      assert (NE : t_name a = t_name b).
      { destruct TO as [_ NA _ _].
        assert (HA : In (t_name a) (map t_name (sort_by (team_cmp E) us))) by (apply in_map; exact IA).
        assert (HB : In (t_name b) (map t_name (sort_by (team_cmp E) us))) by (apply in_map; exact IB).
        apply NA in HA. apply NA in HB. destruct HA as [p [IP PA]], HB as [q [IQ QB]]. rewrite <- PA, <- QB in *. apply LC; assumption. }
      destruct TO as [ON _ _ _]. clear - ON IA IB NE. revert ON IA IB. generalize (sort_by (team_cmp E) us) as l.
      induction l as [| x l IH]; intros ND IA IB; [destruct IA |]. cbn [map] in ND. inversion ND as [| ? ? NI ND']. subst.
      destruct IA as [-> | IA], IB as [-> | IB]; auto.
      * exfalso. apply NI. rewrite NE. apply in_map. exact IB.
      * exfalso. apply NI. rewrite <- NE. apply in_map. exact IA.
    + apply sort_teams.
    + apply sort_teams.
    + rewrite !sort_by_perm. exact PU.
Qed.

(** ** When nothing overflows *)
Lemma total_bound : forall b l, Forall (fun x => (- b <= x <= b)%Z) l -> (- (b * Z.of_nat (length l)) <= total l <= b * Z.of_nat (length l))%Z.
Proof.
  intros b l H. induction H as [| x l Hx H IH]; [unfold total; cbn [fold_right length]; lia |].
  cbn [length]. change (total (x :: l)) with (x + total l)%Z. rewrite Nat2Z.inj_succ. nia.
Qed.
Lemma total_ping_bound : forall b l, Forall (fun p => p_ping p <= b) l -> total_ping l <= b * len l.
Proof.
  intros b l H. induction H as [| x l Hx H IH]; [cbn; lia |]. rewrite len_cons.
  change (total_ping (x :: l)) with (p_ping x + total_ping l). nia.
Qed.
Lemma splits_in : forall A (P : A -> Prop) l a b, splits P l a b -> (forall x, In x a -> In x l) /\ (length a <= length l)%nat.
Proof.
  intros A P l a b H. induction H as [| x l a b Px H [IH L] | x l a b Px H [IH L]]; cbn [length In] in *; split; try lia; intros y I; auto.
  destruct I; auto.
Qed.

Lemma sums_fit_small : forall ps, len ps < 256 ->
  Forall (fun p => (-8000000 <= p_frags p <= 8000000)%Z /\ p_ping p <= 16000000) ps -> sums_fit ps.
Proof.
  intros ps L F team ms others S. destruct (splits_in _ _ _ _ _ S) as [I LE]. unfold len in *.
  rewrite Forall_forall in F. split; [lia |]. split.
  - pose proof (total_ping_bound 16000000 ms) as B. unfold len in B. assert (FP : Forall (fun p => p_ping p <= 16000000) ms).
    { apply Forall_forall. intros p IP. apply F. auto. }
    specialize (B FP). lia.
  - intros a b ->. pose proof (total_bound 8000000 (map p_frags a)) as B.
    assert (FP : Forall (fun x => (- (8000000) <= x <= 8000000)%Z) (map p_frags a)).
    { apply Forall_forall. intros x IX. apply in_map_iff in IX. destruct IX as [p [<- IP]].
      assert (In p ps) by (apply I, in_or_app; auto). destruct (F p H) as [X _]. lia. }
    specialize (B FP). rewrite map_length in B. rewrite app_length in LE. lia.
Qed.
