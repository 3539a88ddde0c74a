(** The descriptions leave nothing open. *)
From Coq Require Import Lia Permutation Sorted ZifyN ZifyNat ZifyBool.
From Verif.Model Require Import Base Env Clients Ktxstats FragEvent FlagEvent Flags Players.
From Verif.Spec Require Import Occ Obituary Score Flags Pings Wrap Join Order Clientlist Teams Shuffles Sources Faults.
From Verif.Proofs Require Import BaseFacts ObituaryFacts ScoreFacts FlagFacts JoinFacts OrderFacts TeamFacts SourceFacts ShownOnce.
From Verif.Proofs Require ShuffleFacts WrapFacts ErrorProps.
Open Scope N_scope.

Lemma text_or_empty_unique : forall o s t, text_or_empty o s -> text_or_empty o t -> s = t.
Proof. intros o s t [A | [A ->]] [B | [B ->]]; congruence. Qed.
Lemma low_byte_one : forall o a b, low_byte o a -> low_byte o b -> a = b.
Proof.
  intros o a b [_ (v & [Q | [Q ->]] & V)] [_ (w & [R | [R ->]] & W)]; try congruence; try lia.
  assert (v = w) by congruence. subst w. lia.
Qed.
Lemma bool_iff : forall (a b : bool) (P : Prop), (a = true <-> P) -> (b = true <-> P) -> a = b.
Proof. intros [|] [|] P A B; try reflexivity; [symmetry; apply B, A | apply A, B]; reflexivity. Qed.

Lemma client_determined_proof : forall n i c d, describes n i c -> describes n i d -> c = d.
Proof.
  intros n i c d [A1 A2 A3 A4 A5 A6 A7 A8 A9] [B1 B2 B3 B4 B5 B6 B7 B8 B9].
  destruct c as [c1 c2 c3 [c4 c5] c6 c7 c8 c9], d as [d1 d2 d3 [d4 d5] d6 d7 d8 d9].
  cbn [c_number c_name c_team c_color c_is_spectator c_is_bot c_auth_username c_auth_cc fst snd] in *.
  rewrite (text_or_empty_unique _ _ _ A2 B2), (text_or_empty_unique _ _ _ A3 B3), (low_byte_one _ _ _ A4 B4), (low_byte_one _ _ _ A5 B5),
    (bool_iff _ _ _ A6 B6), (bool_iff _ _ _ A7 B7). congruence.
Qed.

Lemma looked_up_unique : forall K V (m : list (K * V)) k d v w, NoDup (map fst m) -> looked_up m k d v -> looked_up m k d w -> v = w.
Proof.
  intros K V m k d v w N [A | [A ->]] [B | [B ->]]; try reflexivity.
  - assert ((k, v) = (k, w)) as Q by (apply (ShuffleFacts.in_unique _ _ fst _ _ _ N A B); reflexivity). congruence.
  - exfalso. apply B. change k with (fst (k, v)). apply in_map. exact A.
  - exfalso. apply A. change k with (fst (k, w)). apply in_map. exact B.
Qed.
Lemma entry_determined_proof : forall scores pings c p q, NoDup (map fst scores) -> NoDup (map fst pings) ->
  entry scores pings c p -> entry scores pings c q -> p = q.
Proof.
  intros s g c p q NS NG [A1 A2 A3 A4 A5 A6 A7 A8] [B1 B2 B3 B4 B5 B6 B7 B8].
  destruct p as [p1 p2 p3 p4 p5 p6 p7 p8], q as [q1 q2 q3 q4 q5 q6 q7 q8].
  cbn [p_name p_team p_color p_frags p_ping p_is_bot p_auth_username p_auth_cc] in *.
  rewrite (looked_up_unique _ _ _ _ _ _ _ NS A4 B4), (looked_up_unique _ _ _ _ _ _ _ NG A5 B5). congruence.
Qed.

Lemma latest_determined : forall cs a b, latest cs a -> latest cs b -> a = b.
Proof.
  intros cs a b A. revert b. induction A as [| c cs l N A IH | c cs l N A IH]; intros b B; inversion B; subst; try contradiction;
    [reflexivity | f_equal; apply IH; assumption | apply IH; assumption].
Qed.

Lemma reads_unique : forall t e f, reads t e -> reads t f -> e = f.
Proof. intros t e f A B. apply reads_iff in A, B. congruence. Qed.
Lemma scored_determined : forall cs nums t l l', scored cs nums t l -> scored cs nums t l' -> l = l'.
Proof.
  intros cs nums t l l' (x & X & A) (y & Y & B). apply trimmed_iff in X, Y. subst x y.
  destruct A as [(e & R & A) | (R & ->)], B as [(f & S & B) | (S & ->)].
  - rewrite (reads_unique _ _ _ S R) in B. apply (entries_unique _ _ _ _ _ A B).
  - exfalso. apply (S e R).
  - exfalso. apply (R f S).
  - reflexivity.
Qed.
Lemma tells_all_determined : forall t l l', tells_all t l -> tells_all t l' -> l = l'.
Proof.
  intros t l l' [(k & n & T & ->) | (T & ->)] [(k' & n' & T' & ->) | (T' & ->)].
  - destruct (tells_unique _ _ _ _ _ T T') as [-> ->]. reflexivity.
  - exfalso. apply (T' _ _ T).
  - exfalso. apply (T _ _ T').
  - reflexivity.
Qed.

(** Tables *)
Lemma tables_same : forall K V (P : K -> Prop) (Q : K -> V -> Prop) (a b : list (K * V)),
  (forall k v w, Q k v -> Q k w -> v = w) ->
  NoDup (map fst a) -> (forall k, In k (map fst a) <-> P k) -> (forall k v, In (k, v) a -> Q k v) ->
  NoDup (map fst b) -> (forall k, In k (map fst b) <-> P k) -> (forall k v, In (k, v) b -> Q k v) -> same_rows a b.
Proof.
  intros K V P Q a b U Na Ka Va Nb Kb Vb. split; [exact Na |]. split; [exact Nb |].
  assert (forall x y : list (K * V), (forall k, In k (map fst x) -> In k (map fst y)) -> (forall k v, In (k, v) x -> Q k v) -> (forall k v, In (k, v) y -> Q k v) ->
    forall k v, In (k, v) x -> In (k, v) y) as H.
  { intros x y S X Y k v I. assert (In k (map fst y)) as J by (apply S; change k with (fst (k, v)); apply in_map; exact I).
    apply in_map_iff in J. destruct J as ([k' w] & E & J). cbn [fst] in E. subst k'. rewrite (U k v w (X _ _ I) (Y _ _ J)). exact J. }
  intros k v. split; apply H; try assumption; intros k' I; [apply Kb, Ka | apply Ka, Kb]; exact I.
Qed.

Lemma tables_determined_proof :
  (forall a b l, tabulates a l -> tabulates b l -> same_rows a b) /\
  (forall a b l, tabulates32 a l -> tabulates32 b l -> same_rows a b) /\
  (forall a b l, averages a l -> averages b l -> same_rows a b) /\
  (forall a b l, averages16 a l -> averages16 b l -> same_rows a b) /\
  (forall a b l, counts a l -> counts b l -> same_rows a b).
Proof.
  split; [| split; [| split; [| split]]].
  - intros a b l (A1 & A2 & A3) (B1 & B2 & B3). apply (tables_same _ _ (fun n => In n (map fst l)) (fun n v => v = Score.total n l)); try assumption. congruence.
  - intros a b l (A1 & A2 & A3) (B1 & B2 & B3). apply (tables_same _ _ (fun n => In n (map fst l)) (fun n v => signed32 (Score.total n l) v)); try assumption.
    intros k v w X Y. apply (ShuffleFacts.signed32_unique _ _ _ X Y).
  - intros a b l (A1 & A2 & A3) (B1 & B2 & B3).
    apply (tables_same _ _ (fun n => In n (map fst l)) (fun p v => v = sum (pings_of p l) / len (pings_of p l))); try assumption. congruence.
  - intros a b l (A1 & A2 & A3) (B1 & B2 & B3).
    apply (tables_same _ _ (fun n => In n (map fst l)) (fun p a => exists s, low_part 65536 (sum (pings_of p l)) s /\ a = s / len (pings_of p l))); try assumption.
    intros k v w (s & S & ->) (s' & S' & ->). apply WrapFacts.low_part_unique in S, S'; [congruence | lia | lia].
  - intros a b l A B. apply (counts_det a b l l A B). apply Permutation_refl.
Qed.

(** Teams *)
Lemma rounds_unique : forall s n a b, 0 < n -> rounds_half_up s n a -> rounds_half_up s n b -> a = b.
Proof. unfold rounds_half_up. intros s n a b P A B. assert (~ a < b) by nia. assert (~ b < a) by nia. lia. Qed.
Lemma mean_ping_unique : forall s n a b, mean_ping s n a -> mean_ping s n b -> a = b.
Proof. unfold mean_ping. intros s n a b A B. lia. Qed.

Lemma members_small : forall (P : Player -> Prop) ps ms o, splits P ps ms o -> total_ping ms <= total_ping ps /\ len ms <= len ps.
Proof.
  intros P ps ms o S. induction S; unfold total_ping in *; cbn [map fold_right] in *; rewrite ?len_cons; try lia.
Qed.

Lemma team_determined : forall ps t u, small_pings ps -> clear_colors ps -> team_of ps t -> team_of ps u -> t_name t = t_name u -> t = u.
Proof.
  intros ps t u SP CC [(o & A1) A2 A3 A4 A5] [(o' & B1) B2 B3 B4 B5] N.
  destruct t as [t1 t2 t3 t4 t5], u as [u1 u2 u3 u4 u5]. cbn [t_name t_color t_frags t_ping t_players] in *. subst u1.
  destruct (splits_unique _ _ _ _ _ A1 _ _ B1) as [<- _]. destruct (members_small _ _ _ _ A1) as [S1 S2]. unfold small_pings in SP.
  assert (0 < len t5) as LP by (destruct t5; [contradiction | rewrite len_cons; lia]).
  rewrite (rounds_unique _ _ _ _ LP (A4 ltac:(lia)) (B4 ltac:(lia))).
  assert (t2 = u2) as ->; [| congruence].
  destruct t5 as [| p [| q [| r t5]]]; cbn [team_color] in A5, B5; [contradiction | congruence | congruence |].
  apply (CC _ _ _ A1 ltac:(cbn [length]; lia) _ _ A5 B5).
Qed.

Lemma team_lists_same : forall (lower : str -> str) (P : str -> Prop) (R : Team -> Prop) ts us,
  (forall t u, R t -> R u -> t_name t = t_name u -> t = u) ->
  (forall n m, P n -> P m -> lower n = lower m -> n = m) ->
  NoDup (map t_name ts) -> (forall n, In n (map t_name ts) <-> P n) -> Forall R ts ->
  in_order_of (fun a b => text_lt (lower (t_name a)) (lower (t_name b))) ts ->
  NoDup (map t_name us) -> (forall n, In n (map t_name us) <-> P n) -> Forall R us ->
  in_order_of (fun a b => text_lt (lower (t_name a)) (lower (t_name b))) us -> ts = us.
Proof.
  intros lower P R ts us U AP N1 K1 F1 O1 N2 K2 F2 O2.
  assert (forall t, In t ts <-> In t us) as S.
  { rewrite Forall_forall in F1, F2. intros t. split; intros I.
    - assert (In (t_name t) (map t_name us)) as J by (apply K2, K1, in_map; exact I). apply in_map_iff in J. destruct J as (u & E & J).
      rewrite <- (U u t (F2 _ J) (F1 _ I) E). exact J.
    - assert (In (t_name t) (map t_name ts)) as J by (apply K1, K2, in_map; exact I). apply in_map_iff in J. destruct J as (u & E & J).
      rewrite <- (U u t (F1 _ J) (F2 _ I) E). exact J. }
  apply (in_order_unique _ _ _ _) with (2 := O1) (3 := O2).
  - intros a b A B NA NB. assert (lower (t_name a) = lower (t_name b)) as Q by (destruct (text_trichotomy (lower (t_name a)) (lower (t_name b))) as [X | [X | X]]; [contradiction | exact X | contradiction]).
    apply (ShuffleFacts.in_unique _ _ t_name _ _ _ N1 A B). apply AP; [apply K1, in_map; exact A | apply K1, in_map; exact B | exact Q].
  - apply NoDup_Permutation; [apply (NoDup_map_inv _ _ N1) | apply (NoDup_map_inv _ _ N2) | exact S].
Qed.

Lemma teams_determined_proof : forall lower ps ts us, small_pings ps -> clear_colors ps -> apart lower ps ->
  teams_of lower ps ts -> teams_of lower ps us -> ts = us.
Proof.
  intros lower ps ts us SP CC AP [A1 A2 A3 A4] [B1 B2 B3 B4].
  apply (team_lists_same lower (fun n => exists p, In p ps /\ p_team p = n) (team_of ps)); try assumption.
  - intros t u T U. apply (team_determined ps); assumption.
  - intros n m (p & P & <-) (q & Q & <-) E. apply AP; assumption.
Qed.

Lemma zero_counted : forall ms c, (forall d n, wear d ms n -> low_part 256 n 0) -> most_counted c ms -> False.
Proof.
  intros ms c Z (n & r & W & L & P & _). specialize (Z _ _ W). apply WrapFacts.low_part_unique in Z, L; lia.
Qed.

Lemma team_determined32 : forall ps t u, clear_counts ps -> team_of32 ps t -> team_of32 ps u -> t_name t = t_name u -> t = u.
Proof.
  intros ps t u CC [(o & A1) A2 A3 (s & A4 & A5) A6] [(o' & B1) B2 B3 (s' & B4 & B5) B6] N.
  destruct t as [t1 t2 t3 t4 t5], u as [u1 u2 u3 u4 u5]. cbn [t_name t_color t_frags t_ping t_players] in *. subst u1.
  destruct (splits_unique _ _ _ _ _ A1 _ _ B1) as [<- _].
  rewrite (ShuffleFacts.signed32_unique _ _ _ A3 B3).
  apply WrapFacts.low_part_unique in A4, B4; [| lia | lia]. subst s s'. rewrite (mean_ping_unique _ _ _ _ A5 B5).
  assert (t2 = u2) as ->; [| reflexivity].
  destruct t5 as [| p [| q [| r t5]]]; cbn [counted_color] in A6, B6; [contradiction | congruence | congruence |].
  destruct A6 as [A6 | [A6 ->]], B6 as [B6 | [B6 ->]].
  - apply (CC _ _ _ A1 ltac:(cbn [length]; lia) _ _ A6 B6).
  - exfalso. apply (zero_counted _ _ B6 A6).
  - exfalso. apply (zero_counted _ _ A6 B6).
  - reflexivity.
Qed.

Lemma teams_determined32_proof : forall lower ps ts us, clear_counts ps -> apart lower ps ->
  teams_of32 lower ps ts -> teams_of32 lower ps us -> ts = us.
Proof.
  intros lower ps ts us CC AP [A1 A2 A3 A4] [B1 B2 B3 B4].
  apply (team_lists_same lower (fun n => exists p, In p ps /\ p_team p = n) (team_of32 ps)); try assumption.
  - intros t u T U. apply (team_determined32 ps); assumption.
  - intros n m (p & P & <-) (q & Q & <-) E. apply AP; assumption.
Qed.

Lemma teams_only_proof : forall E ps ts us, iterates (teams_order E) -> each_iterates (colors_order E) -> len ps < 9223372036854775808 ->
  clear_counts ps -> apart (to_lowercase E) ps ->
  teams_from_players E ps = Ret ts -> teams_of32 (to_lowercase E) ps us -> us = ts.
Proof.
  intros E ps ts us IT IC L CC AP T U. destruct (WrapFacts.teams_any_proof E ps IT IC L) as [(_ & _ & X) | (_ & ts' & X & Y)]; [congruence |].
  assert (ts' = ts) by congruence. subst ts'. apply (teams_determined32_proof (to_lowercase E) ps); assumption.
Qed.

Lemma events_determined_proof :
  (forall msg e f, reads msg e -> reads msg f -> e = f) /\
  (forall cs nums text l l', scored cs nums text l -> scored cs nums text l' -> l = l') /\
  (forall msg l l', tells_all msg l -> tells_all msg l' -> l = l').
Proof. split; [exact reads_unique |]. split; [exact scored_determined | exact tells_all_determined]. Qed.

Lemma rows_determined_proof :
  (forall n i c d, describes n i c -> describes n i d -> c = d) /\
  (forall cs a b, latest cs a -> latest cs b -> a = b) /\
  (forall scores pings c p q, NoDup (map fst scores) -> NoDup (map fst pings) -> entry scores pings c p -> entry scores pings c q -> p = q) /\
  (forall k p q, converted k p -> converted k q -> p = q).
Proof. split; [exact client_determined_proof |]. split; [exact latest_determined |]. split; [exact entry_determined_proof | exact converted_unique]. Qed.

Lemma fault_message_determined_proof : forall d s t i n j m, utf8_fault d i n -> utf8_fault d j m ->
  fault_message s i n -> fault_message t j m -> s = t.
Proof.
  intros d s t i n j m A B (di & DI & S) (dj & DJ & T). destruct (ErrorProps.fault_unique _ _ _ _ _ A B) as [<- <-].
  rewrite <- (decimal_unique _ _ _ DI DJ) in T.
  assert (lit s = lit t) as Q.
  { destruct n as [n |]; [| congruence]. destruct S as (dn & DN & S), T as (dm & DM & T). rewrite <- (decimal_unique _ _ _ DN DM) in T. congruence. }
  unfold lit in Q. rewrite <- (String.string_of_list_byte_of_string s), <- (String.string_of_list_byte_of_string t). congruence.
Qed.
