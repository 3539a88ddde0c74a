(** The order of the players depends on names and scores only. *)
From Coq Require Import Lia Permutation Sorted ZifyN ZifyNat ZifyBool.
From Verif.Model Require Import Base Env FlagEvent Clientinfo Clients FragEvent Frags Flags Ping Ktxstats Players.
From Verif.Spec Require Import Pings Score Order Clientlist Teams Standing.
From Verif.Proofs Require OneMoreFacts ShuffleFacts.
From Verif.Proofs Require Import BaseFacts OrderFacts TeamFacts RangeFacts DeterminedFacts.
Open Scope N_scope.

Lemma score_rows_once_proof : forall E data t, frags_per_player_name E data = Ret t -> NoDup (map fst t).
Proof.
  intros E data t H. unfold frags_per_player_name in H. apply bind_ret_inv in H. destruct H as [pfs [_ H]].
  revert H. apply (foldM_inv _ _ (fun t => NoDup (map fst t))); [| constructor]. intros m pf m' F _ H.
  assert (forall name d, frag_add E name d m = Ret m' -> NoDup (map fst m')) as ADD.
  { intros name d A. unfold frag_add in A. apply bind_ret_inv in A. destruct A as [v [IA R]]. inv R.
    apply (aset_nodup beq beq_eq). exact F. }
  unfold score_print in H. destruct (frag_event_from _) as [[] |]; eauto; try (inv H; assumption).
  apply bind_ret_inv in H. destruct H as [r [_ H]]. destruct r; [eauto | inv H; assumption].
Qed.

Lemma flag_rows_once_proof : forall E data t, flag_events_per_player_name E data = Ret t -> NoDup (map fst t).
Proof.
  intros E data t H. unfold flag_events_per_player_name in H. apply bind_ret_inv in H. destruct H as [ps [_ H]].
  revert H. apply (foldM_inv _ _ (fun t => NoDup (map fst t))); [| constructor]. intros m p m' F _ H. unfold count_flag_print in H.
  destruct (flag_event_from _) as [e |]; [| inv H; exact F]. apply bind_ret_inv in H. destruct H as [q [A R]]. inv R.
  apply (aset_nodup beq beq_eq). exact F.
Qed.

Lemma ranks_in_order : forall l l', Permutation (map rank l) (map rank l') -> in_order_of better l -> in_order_of better l' -> same_table l l'.
Proof.
  intros l l' P S S'. unfold same_table.
  set (before := fun x y : Z * str => (fst y < fst x)%Z \/ (fst x = fst y /\ text_lt (snd x) (snd y))).
  apply (in_order_unique _ before).
  - intros [a n] [b m] _ _ X Y. unfold before in X, Y. cbn [fst snd] in X, Y.
    assert (a = b) by (destruct (Z.lt_trichotomy a b) as [L | [L | L]]; [| exact L |]; exfalso; [apply Y | apply X]; left; exact L).
    subst b. f_equal. destruct (text_trichotomy n m) as [L | [L | L]]; [| exact L |]; exfalso; [apply X | apply Y]; right; auto.
  - unfold in_order_of. apply StronglySorted_map. exact S.
  - unfold in_order_of. apply StronglySorted_map. exact S'.
  - exact P.
Qed.

Lemma sorted_ranks : forall l, Permutation (map rank (sort_by player_cmp l)) (map rank l) /\ in_order_of better (sort_by player_cmp l).
Proof.
  intros l. split; [apply Permutation_map, sort_by_perm |]. apply (OneMoreFacts.in_order_sort Player better player_cmp better_key_order player_cmp_gt).
Qed.

Lemma stats_standing_proof : forall E d d' s s', ktxstats_v3 E d = Ret (Ok s) -> ktxstats_v3 E d' = Ret (Ok s') ->
  same_standing (ks_players s) (ks_players s') ->
  exists ps qs, players E d = Ret (Ok ps) /\ players E d' = Ret (Ok qs) /\ same_table ps qs.
Proof.
  intros E d d' s s' S S' P. unfold players. rewrite S, S'. cbn [bind]. unfold players_from_ktxstats. do 2 eexists.
  split; [reflexivity |]. split; [reflexivity |].
  destruct (sorted_ranks (map player_from (ks_players s))) as [P1 O1]. destruct (sorted_ranks (map player_from (ks_players s'))) as [P2 O2].
  apply ranks_in_order; [| exact O1 | exact O2]. eapply perm_trans; [exact P1 |]. eapply perm_trans; [| apply Permutation_sym; exact P2].
  rewrite !map_map. exact P.
Qed.

Definition ranked (scores : list (str * Z)) (n : str) : Z * str := (aget_or beq n 0%Z scores, n).

Lemma looked_up_get : forall (t : list (str * Z)) n, looked_up t n 0%Z (aget_or beq n 0%Z t).
Proof.
  intros t n. unfold aget_or. induction t as [| [k v] t IH]; cbn [aget]; [right; split; [intros [] | reflexivity] |].
  destruct (beq n k) eqn:B; [apply beq_eq in B; subst k; left; left; reflexivity |].
  destruct IH as [I | [N Q]]; [left; right; exact I | right; split; [| exact Q]].
  apply beq_neq in B. intros [X | X]; [apply B; symmetry; exact X | apply N; exact X].
Qed.

Lemma entries_ranks : forall scores pings cs es, NoDup (map fst scores) -> Forall2 (entry scores pings) cs es ->
  map rank es = map (ranked scores) (map c_name cs).
Proof.
  intros scores pings cs es ND F. induction F as [| c p cs es P F IH]; [reflexivity |]. cbn [map]. f_equal; [| exact IH].
  destruct P as [A1 A2 A3 A4 A5 A6 A7 A8]. unfold rank, ranked. rewrite A1. f_equal.
  exact (looked_up_unique _ _ _ _ _ _ _ ND A4 (looked_up_get scores (c_name c))).
Qed.

Lemma parsed_standing_proof : forall E d d' l l' cs cs' pg pg' t t', iterates (players_order E) ->
  clientinfo_strings E d = Ret (Ok l) -> len l <= 256 -> clientinfo_strings E d' = Ret (Ok l') -> len l' <= 256 ->
  player_clients E d = Ret (Ok cs) -> player_clients E d' = Ret (Ok cs') ->
  ping_per_player_number E d = Ret (Ok pg) -> ping_per_player_number E d' = Ret (Ok pg') ->
  frags_per_player_name E d = Ret t -> frags_per_player_name E d' = Ret t' -> same_scorers cs cs' t t' ->
  exists ps qs, players_from_parsing E d = Ret (Ok ps) /\ players_from_parsing E d' = Ret (Ok qs) /\ same_table ps qs.
Proof.
  intros E d d' l l' cs cs' pg pg' t t' IT I L I' L' C C' G G' T T' [P V].
  destruct (players_parsed_all E d l cs pg t IT I L C G T) as (es & ps & R & F & Q & O).
  destruct (players_parsed_all E d' l' cs' pg' t' IT I' L' C' G' T') as (es' & qs & R' & F' & Q' & O').
  exists ps, qs. split; [exact R |]. split; [exact R' |].
  pose proof (score_rows_once_proof _ _ _ T) as N. pose proof (score_rows_once_proof _ _ _ T') as N'.
  apply ranks_in_order; [| exact O | exact O'].
  eapply perm_trans; [apply Permutation_sym, Permutation_map; exact Q |]. eapply perm_trans; [| apply Permutation_map; exact Q'].
  rewrite (entries_ranks _ _ _ _ N F), (entries_ranks _ _ _ _ N' F').
  replace (map (ranked t) (map c_name cs)) with (map (ranked t') (map c_name cs)); [apply Permutation_map; exact P |].
  apply map_ext_in. intros n IN. unfold ranked. f_equal.
  exact (looked_up_unique _ _ _ _ _ _ _ N' (looked_up_get t' n) (proj1 (V n _ IN) (looked_up_get t n))).
Qed.

(** One more player *)
Lemma entries_unique : forall t pg cs es es', NoDup (map fst t) -> NoDup (map fst pg) ->
  Forall2 (entry t pg) cs es -> Forall2 (entry t pg) cs es' -> es = es'.
Proof.
  intros t pg cs es es' N N' F. revert es'. induction F as [| c p cs es P F IH]; intros es' F'; inversion F' as [| ? q ? es2 Q F2]; subst; [reflexivity |].
  f_equal; [exact (entry_determined_proof _ _ _ _ _ N N' P Q) | apply IH; exact F2].
Qed.

Lemma parsed_one_more_proof : forall E d d' l l' u c v pg t, iterates (players_order E) ->
  clientinfo_strings E d = Ret (Ok l) -> len l <= 256 -> clientinfo_strings E d' = Ret (Ok l') -> len l' <= 256 ->
  player_clients E d = Ret (Ok (u ++ v)) -> player_clients E d' = Ret (Ok (u ++ c :: v)) -> NoDup (map c_name (u ++ v)) ->
  ping_per_player_number E d = Ret (Ok pg) -> ping_per_player_number E d' = Ret (Ok pg) ->
  frags_per_player_name E d = Ret t -> frags_per_player_name E d' = Ret t ->
  exists x p y, entry t pg c p /\ players_from_parsing E d = Ret (Ok (x ++ y)) /\ players_from_parsing E d' = Ret (Ok (x ++ p :: y)).
Proof.
  intros E d d' i i' u c v pg t IT I L I' L' C C' ND G G' T T'.
  destruct (players_parsed_all E d i (u ++ v) pg t IT I L C G T) as (es & l & R & F & P & O).
  destruct (players_parsed_all E d' i' (u ++ c :: v) pg t IT I' L' C' G' T') as (es' & l' & R' & F' & P' & O').
  pose proof (score_rows_once_proof _ _ _ T) as NT. pose proof (proj1 (pings_fit_proof _ _ _ G)) as NP.
  assert (map p_name es = map c_name (u ++ v)) as NM.
  { clear - F. induction F as [| x y cs es X F IH]; [reflexivity |]. cbn [map]. rewrite IH. f_equal. apply (en_name _ _ _ _ X). }
  rewrite <- NM in ND.
  assert (forall a b, In a l -> In b l -> ~ better a b -> ~ better b a -> a = b) as UN.
  { intros a b IA IB NA NB. destruct (better_total a b) as [B | [[_ X] | B]]; [contradiction | | contradiction].
    assert (NoDup (map p_name l)) as N2 by (eapply Permutation_NoDup; [apply Permutation_map; exact P | exact ND]).
    apply (ShuffleFacts.in_unique _ _ p_name _ _ _ N2 IA IB X). }
  apply Forall2_app_inv_l in F'. destruct F' as (e1 & e2 & F1 & F2 & ->). inversion F2 as [| ? p ? e3 Q1 Q2]. subst.
  pose proof (entries_unique _ _ _ _ _ NT NP F (Forall2_app F1 Q2)) as Q. subst es.
  assert (In p l') as J by (apply (Permutation_in _ P'); apply in_app_iff; right; left; reflexivity).
  apply in_split in J. destruct J as (x & y & ->). exists x, p, y. split; [exact Q1 |].
  replace (x ++ y) with l; [split; [exact R | exact R'] |].
  apply (in_order_unique _ better _ _ UN O (OneMoreFacts.in_order_drop _ _ _ _ _ O')).
  eapply perm_trans; [apply Permutation_sym; exact P |]. apply (Permutation_cons_inv (a := p)).
  eapply perm_trans; [| apply Permutation_sym, Permutation_middle]. eapply perm_trans; [| exact P']. apply Permutation_middle.
Qed.
