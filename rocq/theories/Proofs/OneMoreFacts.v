(** One more player *)
From Coq Require Import Lia Permutation Sorted ZifyN ZifyNat ZifyBool.
From Verif.Model Require Import Base Env Clients Ktxstats Players.
From Verif.Spec Require Import Mvd Recording Order Clientlist Teams.
From Verif.Proofs Require TeamMergeFacts.
From Verif.Proofs Require Import BaseFacts OrderFacts TeamFacts RecordingTexts ShuffleFacts ColumnFacts.
Open Scope N_scope.

Section Sort.
  Variables (A : Type) (before : A -> A -> Prop) (cmp : A -> A -> comparison).
  Hypothesis KO : key_order before.
  Hypothesis GT : forall p q, cmp p q = Gt <-> before q p.

  Lemma insert_first : forall p l, exists x y, insert_by cmp p l = x ++ p :: y /\ l = x ++ y.
  Proof.
    intros p l. induction l as [| e l (x & y & IH & Q)]; [exists [], []; split; reflexivity |]. cbn [insert_by].
    destruct (cmp p e); [exists [], (e :: l) | exists [], (e :: l) | exists (e :: x), y; rewrite IH, Q]; split; reflexivity.
  Qed.

  Lemma in_order_sort : forall l, in_order_of before (sort_by cmp l).
  Proof. intros l. eapply stable_order_sorted; [exact KO | apply stable_order_sort; [exact KO | exact GT]]. Qed.

  Lemma insert_beside : forall q p x y, in_order_of before (x ++ p :: y) ->
    exists x' y', insert_by cmp q (x ++ p :: y) = x' ++ p :: y' /\ insert_by cmp q (x ++ y) = x' ++ y'.
  Proof.
    intros q p x. induction x as [| e x IH]; intros y S; cbn [app] in *.
    - cbn [insert_by]. destruct (cmp q p) eqn:C; [| | exists [], (insert_by cmp q y); split; reflexivity].
      all: exists [q], y; split; [reflexivity |]; destruct y as [| e y]; [reflexivity |]; cbn [insert_by app];
        destruct (cmp q e) eqn:D; try reflexivity; exfalso; apply GT in D; inversion S as [| ? ? _ F]; subst; inversion F as [| ? ? NB _]; subst;
        destruct KO as [KI KT KS]; destruct (KS e p q D) as [X | X]; [exact (NB X) | apply GT in X; congruence].
    - inversion S as [| ? ? S' F]. subst. destruct (IH y S') as (x' & y' & E1 & E2). cbn [insert_by].
      destruct (cmp q e); [exists (q :: e :: x), y | exists (q :: e :: x), y | exists (e :: x'), y'; rewrite E1, E2]; split; reflexivity.
  Qed.

  Lemma sort_one_more : forall a p b, exists x y, sort_by cmp (a ++ p :: b) = x ++ p :: y /\ sort_by cmp (a ++ b) = x ++ y.
  Proof.
    intros a p b. induction a as [| q a (x & y & E1 & E2)]; cbn [app sort_by].
    - apply insert_first.
    - rewrite E1, E2. apply insert_beside. rewrite <- E1. apply in_order_sort.
  Qed.
End Sort.

Lemma stats_one_more_proof : forall E d d' s s' a k b,
  ktxstats_v3 E d = Ret (Ok s) -> ks_players s = a ++ k :: b -> ktxstats_v3 E d' = Ret (Ok s') -> ks_players s' = a ++ b ->
  exists x p y, converted k p /\ players E d = Ret (Ok (x ++ p :: y)) /\ players E d' = Ret (Ok (x ++ y)).
Proof.
  intros E d d' s s' a k b S P S' P'.
  destruct (sort_one_more Player better player_cmp better_key_order player_cmp_gt (map player_from a) (player_from k) (map player_from b)) as (x & y & E1 & E2).
  exists x, (player_from k), y. split; [apply converted_player |]. unfold players. rewrite S, S'. cbn [bind]. unfold players_from_ktxstats.
  rewrite P, P', !map_app. cbn [map]. rewrite E1, E2. split; reflexivity.
Qed.

(** Recordings *)
Lemma portrait_unique : forall r r' c p q, timeline r' = timeline r -> portrait r c p -> portrait r' c q -> q = p.
Proof.
  intros r r' c p q T [A1 A2 A3 A4 A5 A6 A7 A8] [B1 B2 B3 B4 B5 B6 B7 B8]. unfold all_scores, pings_reported in *. rewrite T in *.
  destruct p as [a1 a2 a3 a4 a5 a6 a7 a8], q as [b1 b2 b3 b4 b5 b6 b7 b8]. cbn [p_name p_team p_color p_frags p_ping p_is_bot p_auth_username p_auth_cc] in *. congruence.
Qed.
Lemma portraits_unique : forall r r' cs es es', timeline r' = timeline r -> Forall2 (portrait r) cs es -> Forall2 (portrait r') cs es' -> es' = es.
Proof.
  intros r r' cs es es' T F. revert es'. induction F as [| c p cs es P F IH]; intros es' F'; inversion F'; subst; [reflexivity |].
  f_equal; [eapply portrait_unique; eauto | apply IH; assumption].
Qed.

Lemma in_order_drop : forall A (before : A -> A -> Prop) x p y, in_order_of before (x ++ p :: y) -> in_order_of before (x ++ y).
Proof.
  intros A before x p y H. induction x as [| e x IH]; cbn [app] in *; inversion H as [| ? ? S F]; subst; [exact S |].
  constructor; [apply IH; exact S |]. rewrite Forall_forall in *. intros z Z. apply F. apply in_app_iff in Z. apply in_app_iff.
  destruct Z as [Z | Z]; [left | right; right]; exact Z.
Qed.

Lemma recordings_one_more_proof : forall E cs c r r' m, wf_recording E cs r -> wf_recording E (cs ++ [c]) r' ->
  timeline r' = timeline r -> r_stats r' = r_stats r ->
  NoDup (map c_name (filter (fun c => negb (c_is_spectator c)) cs)) ->
  iterates (players_order E) -> pings_reported r <> [] -> ktxstats_from E (concat (map snd (r_stats r))) = Err m ->
  exists x y, players E (encode (frames r)) = Ret (Ok (x ++ y)) /\
    (c_is_spectator c = true -> players E (encode (frames r')) = Ret (Ok (x ++ y))) /\
    (c_is_spectator c = false -> exists p, portrait r c p /\ players E (encode (frames r')) = Ret (Ok (x ++ p :: y))).
Proof.
  intros E cs c r r' m W W' T S ND IT NE K.
  destruct (recording_players_listed E cs r m W IT NE K) as (es & l & R & F & P & O).
  assert (pings_reported r' <> []) as NE' by (unfold pings_reported in *; rewrite T; exact NE).
  assert (ktxstats_from E (concat (map snd (r_stats r'))) = Err m) as K' by (rewrite S; exact K).
  destruct (recording_players_listed E _ r' m W' IT NE' K') as (es' & l' & R' & F' & P' & O').
  rewrite filter_app in F'. cbn [filter] in F'.
  pose proof (TeamMergeFacts.portraits_names _ _ _ F) as NM. rewrite <- NM in ND.
  assert (forall a b, In a l -> In b l -> ~ better a b -> ~ better b a -> a = b) as UN.
  { intros a b IA IB NA NB. destruct (better_total a b) as [B | [[_ X] | B]]; [contradiction | | contradiction].
    assert (NoDup (map p_name l)) as N2 by (eapply Permutation_NoDup; [apply Permutation_map; exact P | exact ND]).
    apply (in_unique _ _ p_name _ _ _ N2 IA IB X). }
  destruct (c_is_spectator c) eqn:SP; cbn [negb] in F'.
  - rewrite app_nil_r in F'. pose proof (portraits_unique _ _ _ _ _ T F F') as Q. subst es'.
    exists l, []. rewrite app_nil_r. split; [exact R |]. split; [| discriminate]. intros _. rewrite R'. do 2 f_equal. symmetry.
    apply (in_order_unique _ better _ _ UN O O'). eapply perm_trans; [apply Permutation_sym; exact P | exact P'].
  - apply Forall2_app_inv_l in F'. destruct F' as (e1 & e2 & F1 & F2 & ->). inversion F2 as [| ? p ? e3 Q1 Q2]. subst. inversion Q2. subst.
    pose proof (portraits_unique _ _ _ _ _ T F F1) as Q. subst e1.
    assert (In p l') as I by (apply (Permutation_in _ P'); apply in_app_iff; right; left; reflexivity).
    apply in_split in I. destruct I as (x & y & ->). exists x, y.
    assert (l = x ++ y) as Q.
    { apply (in_order_unique _ better _ _ UN O (in_order_drop _ _ _ _ _ O')).
      eapply perm_trans; [apply Permutation_sym; exact P |]. apply (Permutation_cons_inv (a := p)).
      eapply perm_trans; [| apply Permutation_sym, Permutation_middle]. eapply perm_trans; [| exact P']. apply Permutation_cons_append. }
    rewrite <- Q. split; [exact R |]. split; [discriminate |]. intros _. exists p. split; [| exact R'].
    destruct Q1 as [B1 B2 B3 B4 B5 B6 B7 B8]. unfold all_scores, pings_reported in *. rewrite T in *. constructor; assumption.
Qed.

Lemma recordings_teams_one_more_proof : forall E cs c r r' m ts us, wf_recording E cs r -> wf_recording E (cs ++ [c]) r' ->
  timeline r' = timeline r -> r_stats r' = r_stats r ->
  NoDup (map c_name (filter (fun c => negb (c_is_spectator c)) cs)) ->
  iterates (players_order E) -> iterates (teams_order E) -> pings_reported r <> [] -> ktxstats_from E (concat (map snd (r_stats r))) = Err m ->
  teams E (encode (frames r)) = Ret (Ok ts) -> teams E (encode (frames r')) = Ret (Ok us) ->
  (c_is_spectator c = true -> us = ts) /\ (c_is_spectator c = false -> forall t, t_name t <> c_team c -> (In t ts <-> In t us)).
Proof.
  intros E cs c r r' m ts us W W' T S ND IT ITT NE K X X'.
  destruct (recordings_one_more_proof E cs c r r' m W W' T S ND IT NE K) as (x & y & R & A & B).
  unfold teams in X, X'. rewrite R in X. cbn [bind] in X.
  destruct (teams_from_players E (x ++ y)) as [ts0 | |] eqn:TT; cbn [bind] in X; try discriminate. injection X as <-. split.
  - intros SP. rewrite (A SP) in X'. cbn [bind] in X'. rewrite TT in X'. cbn [bind] in X'. injection X' as <-. reflexivity.
  - intros SP t N. destruct (B SP) as (p & Q & R'). rewrite R' in X'. cbn [bind] in X'.
    destruct (teams_from_players E (x ++ p :: y)) as [us0 | |] eqn:TU; cbn [bind] in X'; try discriminate. injection X' as <-.
    symmetry. apply (player_leaves_proof E x p y us0 ts0 ITT TU TT t). rewrite (po_team _ _ _ Q). exact N.
Qed.
