(** The fields of a team *)
From Coq Require Import Lia ZifyN ZifyNat ZifyBool Permutation Reals Lra.
From Flocq Require Import Core.
From Verif.Model Require Import Base Float Env Clients Ktxstats Players.
From Verif.Spec Require Import Mvd Times Wrap Recording Order Clientlist Teams Shuffles Sources Columns.
From Verif.Proofs Require TeamMergeFacts.
From Verif.Proofs Require Import BaseFacts OrderFacts RoundFacts WrapFacts TeamFacts RecordingTexts AgreeFacts ShuffleFacts SourceFacts.
Open Scope N_scope.

Lemma members_paired : forall (R : Player -> Player -> Prop) n ps qs, (forall p q, R p q -> p_team p = p_team q) ->
  Forall2 R ps qs -> Forall2 R (members n ps) (members n qs).
Proof.
  intros R n ps qs T F. unfold members. induction F as [| p q ps qs H F IH]; [constructor |]. cbn [filter].
  rewrite <- (T _ _ H). destruct (beq (p_team p) n); [constructor |]; assumption.
Qed.

Lemma wear_recolor : forall (g : N * N -> N * N), (forall a b, g a = g b -> a = b) -> forall c ps qs n,
  map p_color qs = map g (map p_color ps) -> wear (g c) qs n <-> wear c ps n.
Proof.
  intros g INJ c ps. induction ps as [| p ps IH]; intros [| q qs] n M; cbn [map] in M; try discriminate.
  - split; intros W; inversion W; constructor.
  - injection M as M1 M2. split; intros W; inversion W; subst.
    + apply wear_yes; [apply INJ; congruence | apply (IH qs); assumption].
    + apply wear_no; [congruence | apply (IH qs); assumption].
    + apply wear_yes; [congruence | apply IH; assumption].
    + apply wear_no; [rewrite M1; intros X; apply INJ in X; contradiction | apply IH; assumption].
Qed.

Lemma worn_some : forall c ps n, wear c ps n -> 0 < n -> In c (map p_color ps).
Proof. intros c ps n W. induction W as [| p ps n Q W IH | p ps n Q W IH]; intros P; [lia | left; exact Q | right; apply IH; exact P]. Qed.

Lemma most_recolored : forall (g : N * N -> N * N), (forall a b, g a = g b -> a = b) -> forall ps qs c,
  map p_color qs = map g (map p_color ps) -> most_worn c qs -> exists d, c = g d /\ most_worn d ps.
Proof.
  intros g INJ ps qs c M [n (P & W & X)]. pose proof (worn_some _ _ _ W P) as I. rewrite M in I. apply in_map_iff in I.
  destruct I as [d [<- I]]. exists d. split; [reflexivity |]. exists n. split; [exact P |].
  split; [apply (wear_recolor g INJ d ps qs n M); exact W |]. intros e m E. apply (X (g e)). apply (wear_recolor g INJ e ps qs m M). exact E.
Qed.

Lemma total_le : forall a b, Forall2 Z.le a b -> (Teams.total a <= Teams.total b)%Z.
Proof. intros a b F. unfold Teams.total. induction F; cbn [fold_right]; lia. Qed.
Lemma sum_le : forall a b, Forall2 N.le a b -> fold_right N.add 0 a <= fold_right N.add 0 b.
Proof. intros a b F. induction F; cbn [fold_right]; lia. Qed.

Lemma mean_le : forall s s' n, s <= s' -> s' < 4294967296 -> 0 < n -> n < 9223372036854775808 ->
  f32_round_to_u32 (f32_div (f32_of_N s) (f32_of_N n)) <= f32_round_to_u32 (f32_div (f32_of_N s') (f32_of_N n)).
Proof.
  intros s s' n L B P Q. pose proof (mean_ping_proof s n ltac:(lia) P Q) as A. pose proof (mean_ping_proof s' n B P Q) as A'.
  unfold mean_ping in A, A'. change single with r32 in A, A'.
  set (v := f32_round_to_u32 _) in *. set (v' := f32_round_to_u32 _) in *. clearbody v v'.
  enough (Z.le (Zfloor (r32 (r32 (IZR (Z.of_N s)) / r32 (IZR (Z.of_N n))) + / 2)) (Zfloor (r32 (r32 (IZR (Z.of_N s')) / r32 (IZR (Z.of_N n))) + / 2))) by lia.
  apply Zfloor_le. apply Rplus_le_compat_r, r32_le. unfold Rdiv. apply Rmult_le_compat_r.
  - apply Rlt_le, Rinv_0_lt_compat. apply Rlt_le_trans with 1%R; [lra |]. rewrite <- (r32_int 1) by lia. apply r32_le. apply IZR_le. lia.
  - apply r32_le, IZR_le. lia.
Qed.

Lemma team_columns_proof : forall E (R : Player -> Player -> Prop) ps qs, iterates (teams_order E) -> each_iterates (colors_order E) ->
  (forall p q, R p q -> p_team p = p_team q) -> Forall2 R ps qs -> sums_fit ps -> sums_fit qs ->
  exists ts us, teams_from_players E ps = Ret ts /\ teams_from_players E qs = Ret us /\
    matched (columns R) ts us /\ (apart (to_lowercase E) ps -> Forall2 (columns R) ts us).
Proof.
  intros E R ps qs IT IC RT F SF SF'.
  destruct (teams_proof E ps IT IC SF) as [ts [T TO]]. destruct (teams_proof E qs IT IC SF') as [us [U UO]].
  exists ts, us. split; [exact T |]. split; [exact U |].
  assert (L : forall t u, In t ts -> In u us -> t_name t = t_name u -> columns R t u).
  { intros t u I J Q. pose proof (team_in E ps ts t IT T I) as A. pose proof (team_in E qs us u IT U J) as B. rewrite <- Q in B.
    pose proof (members_paired R (t_name t) ps qs RT F) as FM.
    destruct (sums_fit_members ps (t_name t) SF) as [L1 [P1 F1]]. destruct (sums_fit_members qs (t_name t) SF') as [L2 [P2 F2]].
    pose proof (to_each _ _ _ TO) as TE. rewrite Forall_forall in TE. pose proof (tm_some _ _ (TE t I)) as NE.
    pose proof (tm_members _ _ (TE t I)) as [o S]. pose proof (proj1 (splits_unique _ _ _ _ _ S _ _ (group_splits ps (t_name t)))) as MQ.
    fold (members (t_name t) ps) in MQ. rewrite MQ in NE.
    set (ms := members (t_name t) ps) in *. set (ms' := members (t_name t) qs) in *. clearbody ms ms'.
    assert (NE' : ms' <> []) by (intros X; rewrite X in FM; inversion FM as [Y |]; apply NE; auto).
    destruct (team_done E ms IC NE L1 P1 F1) as [t0 [A0 (_ & PL & FR & PG & PX & TC)]]. rewrite A in A0. injection A0 as <-.
    destruct (team_done E ms' IC NE' L2 P2 F2) as [u0 [B0 (_ & PL' & FR' & PG' & PX' & TC')]]. rewrite B in B0. injection B0 as <-.
    destruct (majority_color_of E ms t NE A) as (p & r & mc & E1 & MC & C1 & _).
    destruct (majority_color_of E ms' u NE' B) as (p' & r' & mc' & E1' & MC' & C1' & _).
    assert (PP : R p p') by (rewrite E1, E1' in FM; inversion FM; assumption).
    pose proof (Forall2_len _ _ _ _ _ FM) as LEN. rewrite <- PL in *. rewrite <- PL' in *.
    split.
    - symmetry. exact Q.
    - exact FM.
    - intros X. rewrite FR, FR', X. reflexivity.
    - intros X. rewrite PX, PX', LEN. unfold total_ping. rewrite X. reflexivity.
    - intros X. rewrite C1, C1'. rewrite <- X, (RT _ _ PP), MC' in MC. injection MC as <-.
      rewrite E1, E1' in X. injection X as X _. rewrite X. reflexivity.
    - intros g INJ CL X. unfold clear_color in CL.
      assert (LE : length (t_players u) = length (t_players t)) by (apply (f_equal (@length _)) in X; rewrite !map_length in X; exact X).
      destruct (t_players t) as [| a [| b [| c l]]] eqn:Y, (t_players u) as [| a' [| b' [| c' l']]] eqn:Y'; cbn [length] in LE; try lia;
        cbn [team_color] in TC, TC'.
      + contradiction.
      + injection X as X. congruence.
      + injection X as X _. congruence.
      + destruct (most_recolored g INJ _ _ _ X TC') as [d [-> D]]. f_equal. apply CL; [cbn; lia | exact D | exact TC].
    - intros X. rewrite FR, FR'. apply total_le. exact X.
    - intros X. rewrite PX, PX', <- LEN. apply mean_le; [apply sum_le; exact X | exact P2 | rewrite E1, len_cons; lia | lia]. }
  assert (TN : forall n, In n (map t_name ts) <-> In n (map t_name us)).
  { intros n. rewrite (to_names _ _ _ TO), (to_names _ _ _ UO). clear - F RT. induction F as [| p q ps qs H F IH]; [firstorder |].
    apply RT in H. split; intros [x [[<- | I] Q]].
    - exists q. split; [left; reflexivity | congruence].
    - destruct (proj1 IH (ex_intro _ x (conj I Q))) as [y [J X]]. exists y. split; [right |]; assumption.
    - exists p. split; [left; reflexivity | congruence].
    - destruct (proj2 IH (ex_intro _ x (conj I Q))) as [y [J X]]. exists y. split; [right |]; assumption. }
  assert (PN : Permutation (map t_name ts) (map t_name us)) by (apply NoDup_Permutation; [apply TO | apply UO | exact TN]).
  split.
  - apply Permutation_sym, Permutation_map_inv in PN. destruct PN as [m [Q P]]. exists m. split; [exact P |].
    assert (LM : forall t u, In t m -> In u us -> t_name t = t_name u -> columns R t u)
      by (intros t u I; apply L; apply (Permutation_in _ (Permutation_sym P)); exact I).
    clear - Q LM. revert us Q LM. induction m as [| t m IH]; intros [| u us] Q LM; cbn [map] in Q; try discriminate; [constructor |].
    inversion Q. constructor; [apply LM; auto; left; reflexivity |]. apply IH; [assumption |]. intros x y I J. apply LM; right; assumption.
  - intros AP. set (k := fun t : Team => to_lowercase E (t_name t)).
    apply (keys_in_order _ _ _ text_lt k k); [| apply TO | apply UO | |].
    + intros a b X Y. destruct (text_trichotomy a b) as [Z | [Z | Z]]; [contradiction | exact Z | contradiction].
    + unfold k. rewrite <- !(map_map t_name (to_lowercase E)). apply Permutation_map. exact PN.
    + intros t u I J Q. apply L; auto. unfold k in Q.
      destruct (proj1 (to_names _ _ _ TO _) (in_map t_name _ _ I)) as [p [IP PA]].
      destruct (proj1 (to_names _ _ _ TO _) (proj2 (TN _) (in_map t_name _ _ J))) as [q [IQ QB]].
      rewrite <- PA, <- QB in Q |- *. apply AP; assumption.
Qed.

(** Recordings *)
Section Persons.
  Variables (r r' : recording) (all all' : list Client).
  Hypothesis T : timeline r' = timeline r.

  Lemma persons_paired : forall cs ds, Forall2 same_person cs ds ->
    (forall k c d, nth_error cs k = Some c -> nth_error ds k = Some d -> exists j, nth_error all j = Some c /\ nth_error all' j = Some d) ->
    forall es es', Forall2 (portrait r) (filter (fun c => negb (c_is_spectator c)) cs) es ->
      Forall2 (portrait r') (filter (fun c => negb (c_is_spectator c)) ds) es' -> Forall2 (same_results all all') es es'.
  Proof.
    intros cs ds F. induction F as [| c d cs ds H F IH]; intros A es es' P P'.
    - inversion P. inversion P'. constructor.
    - cbn [filter] in P, P'. rewrite (pe_spectator _ _ H) in P'.
      assert (A' : forall k x y, nth_error cs k = Some x -> nth_error ds k = Some y -> exists j, nth_error all j = Some x /\ nth_error all' j = Some y)
        by (intros k x y X Y; apply (A (S k)); assumption).
      destruct (c_is_spectator c); cbn [negb] in P, P'; [exact (IH A' _ _ P P') |].
      inversion P as [| ? p ? es0 Q Q0]. inversion P' as [| ? p' ? es0' Q' Q0']. subst. constructor; [| exact (IH A' _ _ Q0 Q0')].
      destruct (A 0%nat c d eq_refl eq_refl) as [j [J J']]. destruct H as [HN HM HS]. split.
      + rewrite (po_name _ _ _ Q), (po_name _ _ _ Q'). exact HM.
      + rewrite (po_frags _ _ _ Q), (po_frags _ _ _ Q'), HM. unfold all_scores. rewrite T. reflexivity.
      + rewrite (po_ping _ _ _ Q), (po_ping _ _ _ Q'), HN. unfold pings_reported. rewrite T. reflexivity.
      + exists j, c, d. split; [exact J |]. split; [exact J' |]. split; [destruct Q; constructor; assumption | destruct Q'; constructor; assumption].
  Qed.
End Persons.

Lemma better_results : forall cs ds l l', Forall2 (same_results cs ds) l l' -> in_order_of better l -> in_order_of better l'.
Proof.
  intros cs ds l l' F. induction F as [| p q l l' H F IH]; intros O; [constructor |]. inversion O as [| ? ? O1 O2]. subst.
  constructor; [apply IH; exact O1 |]. rewrite Forall_forall in *. intros y Y.
  destruct (Forall2_in _ _ _ _ _ _ F Y) as [x [X R]]. specialize (O2 x X). unfold better in *.
  rewrite (sr_name _ _ _ _ H), (sr_frags _ _ _ _ H), (sr_name _ _ _ _ R), (sr_frags _ _ _ _ R). exact O2.
Qed.

Lemma recordings_columns_proof : forall E cs cs' r r' m, wf_recording E cs r -> wf_recording E cs' r' ->
  Forall2 same_person cs cs' -> timeline r' = timeline r -> r_stats r' = r_stats r ->
  NoDup (map c_name (filter (fun c => negb (c_is_spectator c)) cs)) ->
  iterates (players_order E) -> pings_reported r <> [] -> ktxstats_from E (concat (map snd (r_stats r))) = Err m ->
  exists ps ps', players E (encode (frames r)) = Ret (Ok ps) /\ players E (encode (frames r')) = Ret (Ok ps') /\
    Forall2 (same_results cs cs') ps ps'.
Proof.
  intros E cs cs' r r' m W W' C T S ND IT NE K.
  destruct (recording_players_listed E cs r m W IT NE K) as (es & l & R & F & P & O).
  assert (pings_reported r' <> []) as NE' by (unfold pings_reported in *; rewrite T; exact NE).
  assert (ktxstats_from E (concat (map snd (r_stats r'))) = Err m) as K' by (rewrite S; exact K).
  destruct (recording_players_listed E _ r' m W' IT NE' K') as (es' & l' & R' & F' & P' & O').
  exists l, l'. split; [exact R |]. split; [exact R' |].
  assert (Forall2 (same_results cs cs') es es') as SR by (apply (persons_paired r r' cs cs' T cs cs' C); eauto).
  destruct (Forall2_perm _ _ _ _ _ P _ SR) as [l2 [F2 P2]].
  replace l' with l2; [exact F2 |].
  pose proof (TeamMergeFacts.portraits_names _ _ _ F) as NM. rewrite <- NM in ND.
  apply (in_order_unique _ better); [| exact (better_results _ _ _ _ F2 O) | exact O' |].
  - intros a b IA IB NA NB. destruct (better_total a b) as [B | [[_ X] | B]]; [contradiction | | contradiction].
    assert (map p_name l2 = map p_name l) as Q
      by (symmetry; apply Forall2_map_eq; eapply Forall2_impl; [| exact F2]; intros x y H; symmetry; apply H).
    assert (NoDup (map p_name l2)) as N2 by (rewrite Q; eapply Permutation_NoDup; [apply Permutation_map; exact P | exact ND]).
    apply (in_unique _ _ p_name _ _ _ N2 IA IB X).
  - eapply perm_trans; [apply Permutation_sym; exact P2 | exact P'].
Qed.

Lemma nth_Forall2 : forall A B (R : A -> B -> Prop) l l' k a b, Forall2 R l l' -> nth_error l k = Some a -> nth_error l' k = Some b -> R a b.
Proof.
  intros A B R l l' k a b F. revert k. induction F as [| x y l l' H F IH]; intros [| k] X Y; try discriminate; cbn [nth_error] in *.
  - congruence.
  - exact (IH k X Y).
Qed.

Lemma results_team : forall cs cs' p q, Forall2 (fun c d => c_team d = c_team c) cs cs' -> same_results cs cs' p q -> p_team p = p_team q.
Proof.
  intros cs cs' p q F [_ _ _ (k & c & d & C & D & P & Q)]. rewrite (lk_team _ _ P), (lk_team _ _ Q). symmetry.
  exact (nth_Forall2 _ _ _ _ _ k c d F C D).
Qed.

Lemma results_color : forall g cs cs' p q, Forall2 (fun c d => c_color d = g (c_color c)) cs cs' -> same_results cs cs' p q -> p_color q = g (p_color p).
Proof.
  intros g cs cs' p q F [_ _ _ (k & c & d & C & D & P & Q)]. rewrite (lk_color _ _ P), (lk_color _ _ Q).
  exact (nth_Forall2 _ _ _ _ _ k c d F C D).
Qed.

Lemma results_members : forall cs cs' l l', Forall2 (same_results cs cs') l l' ->
  map p_frags l' = map p_frags l /\ map p_ping l' = map p_ping l.
Proof.
  intros cs cs' l l' F. induction F as [| p q l l' H F [A B]]; [split; reflexivity |]. cbn [map].
  rewrite A, B, (sr_frags _ _ _ _ H), (sr_ping _ _ _ _ H). split; reflexivity.
Qed.

Lemma sums_fit_results : forall (R : Player -> Player -> Prop) ps qs, (forall p q, R p q -> p_team p = p_team q) -> Forall2 R ps qs ->
  (forall p q, R p q -> p_frags q = p_frags p /\ p_ping q = p_ping p) -> sums_fit ps -> sums_fit qs.
Proof.
  intros R ps qs RT F RF SF n ms o S.
  pose proof (proj1 (splits_unique _ _ _ _ _ S _ _ (group_splits qs n))) as Q. fold (members n qs) in Q. subst ms.
  destruct (sums_fit_members ps n SF) as (A & B & C). pose proof (members_paired R n ps qs RT F) as FM.
  rewrite <- (Forall2_len _ _ _ _ _ FM). split; [exact A |].
  assert (EQ : forall l l', Forall2 R l l' -> map p_frags l' = map p_frags l /\ map p_ping l' = map p_ping l).
  { intros l l' X. induction X as [| p q l l' H X [Y Z]]; [split; reflexivity |]. cbn [map]. destruct (RF _ _ H) as [-> ->]. rewrite Y, Z. split; reflexivity. }
  unfold total_ping in *. rewrite (proj2 (EQ _ _ FM)). split; [exact B |]. intros a b X. rewrite X in FM.
  apply Forall2_app_inv_r in FM. destruct FM as (a0 & b0 & FA & _ & Q). rewrite (proj1 (EQ _ _ FA)). apply (C a0 b0). exact Q.
Qed.

Lemma recordings_recolored_proof : forall E g cs cs' r r' m ps, wf_recording E cs r -> wf_recording E cs' r' ->
  Forall2 same_person cs cs' -> Forall2 (fun c d => c_team d = c_team c) cs cs' ->
  (forall a b, g a = g b -> a = b) -> Forall2 (fun c d => c_color d = g (c_color c)) cs cs' ->
  timeline r' = timeline r -> r_stats r' = r_stats r ->
  NoDup (map c_name (filter (fun c => negb (c_is_spectator c)) cs)) ->
  iterates (players_order E) -> iterates (teams_order E) -> each_iterates (colors_order E) ->
  pings_reported r <> [] -> ktxstats_from E (concat (map snd (r_stats r))) = Err m ->
  players E (encode (frames r)) = Ret (Ok ps) -> sums_fit ps ->
  exists ts us, teams E (encode (frames r)) = Ret (Ok ts) /\ teams E (encode (frames r')) = Ret (Ok us) /\
    matched (team_recolored cs cs' g) ts us /\ (apart (to_lowercase E) ps -> Forall2 (team_recolored cs cs' g) ts us).
Proof.
  intros E g cs cs' r r' m ps W W' C CT INJ CC T S ND IP IT IC NE K PS SF.
  destruct (recordings_columns_proof E cs cs' r r' m W W' C T S ND IP NE K) as (ps0 & qs & R & R' & F). rewrite PS in R. injection R as <-.
  assert (RT : forall p q, same_results cs cs' p q -> p_team p = p_team q) by (intros p q; apply results_team; exact CT).
  assert (SF' : sums_fit qs) by (apply (sums_fit_results _ ps qs RT F); [intros p q H; split; apply H | exact SF]).
  destruct (team_columns_proof E (same_results cs cs') ps qs IT IC RT F SF SF') as (ts & us & X & X' & M & O).
  assert (TR : forall t u, columns (same_results cs cs') t u -> team_recolored cs cs' g t u).
  { intros t u H. pose proof (cl_players _ _ _ H) as FP. destruct (results_members _ _ _ _ FP) as [A B]. split.
    - apply H.
    - apply (cl_frags _ _ _ H). exact A.
    - apply (cl_ping _ _ _ H). exact B.
    - exact FP.
    - intros CL. apply (cl_recolor _ _ _ H g INJ CL). rewrite map_map. symmetry. apply Forall2_map_eq.
      eapply Forall2_impl; [| exact FP]. intros p q Y. symmetry. exact (results_color g cs cs' p q CC Y). }
  exists ts, us. unfold teams. rewrite PS, R'. cbn [bind]. rewrite X, X'. split; [reflexivity |]. split; [reflexivity |].
  split.
  - destruct M as [l [P Q]]. exists l. split; [exact P |]. eapply Forall2_impl; [| exact Q]. exact TR.
  - intros AP. eapply Forall2_impl; [| exact (O AP)]. exact TR.
Qed.

(** A team and its members *)
Lemma team_only : forall E ps qs n ms o o' ts us, iterates (teams_order E) ->
  splits (fun p => p_team p = n) ps ms o -> splits (fun p => p_team p = n) qs ms o' ->
  teams_from_players E ps = Ret ts -> teams_from_players E qs = Ret us ->
  forall t, t_name t = n -> In t ts -> In t us.
Proof.
  intros E ps qs n ms o o' ts us IT S S' T U t Q I.
  pose proof (team_in E ps ts t IT T I) as A. rewrite Q in A.
  assert (forall l a b, splits (fun p => p_team p = n) l a b -> a = members n l) as M
    by (intros l a b X; exact (proj1 (splits_unique _ _ _ _ _ X _ _ (group_splits l n)))).
  destruct (teams_divide_proof E ps ts IT T) as (_ & _ & FA & _). rewrite Forall_forall in FA. destruct (FA t I) as [NE [o1 X]].
  rewrite Q in X. apply M in X. rewrite <- (M _ _ _ S) in X, A. rewrite X in NE.
  destruct ms as [| p ms]; [contradiction |].
  assert (In p qs /\ p_team p = n) as [J PN].
  { pose proof (M _ _ _ S') as Y. assert (In p (members n qs)) as K by (rewrite <- Y; left; reflexivity). unfold members in K.
    apply filter_In in K. destruct K as [K1 K2]. apply beq_eq in K2. auto. }
  destruct (teams_divide_proof E qs us IT U) as (_ & NM & _ & _).
  assert (In n (map t_name us)) as K by (apply NM; exists p; auto). apply in_map_iff in K. destruct K as [u [UN K]].
  pose proof (team_in E qs us u IT U K) as B. rewrite UN, <- (M _ _ _ S'), A in B. injection B as <-. exact K.
Qed.

Lemma team_own_members_proof : forall E ps qs n ms o o' ts us, iterates (teams_order E) ->
  splits (fun p => p_team p = n) ps ms o -> splits (fun p => p_team p = n) qs ms o' ->
  teams_from_players E ps = Ret ts -> teams_from_players E qs = Ret us ->
  forall t, t_name t = n -> (In t ts <-> In t us).
Proof. intros E ps qs n ms o o' ts us IT S S' T U t Q. split; [apply (team_only E ps qs n ms o o' ts us IT S S' T U t Q) | apply (team_only E qs ps n ms o' o us ts IT S' S U T t Q)]. Qed.

Lemma splits_members : forall n ps, exists o, splits (fun p => p_team p = n) ps (members n ps) o.
Proof. intros n ps. eexists. apply group_splits. Qed.

Lemma player_leaves_proof : forall E a p b ts us, iterates (teams_order E) ->
  teams_from_players E (a ++ p :: b) = Ret ts -> teams_from_players E (a ++ b) = Ret us ->
  forall t, t_name t <> p_team p -> (In t ts <-> In t us).
Proof.
  intros E a p b ts us IT T U t N. destruct (splits_members (t_name t) (a ++ p :: b)) as [o S]. destruct (splits_members (t_name t) (a ++ b)) as [o' S'].
  replace (members (t_name t) (a ++ p :: b)) with (members (t_name t) (a ++ b)) in S.
  - apply (team_own_members_proof E _ _ _ _ _ _ _ _ IT S S' T U t eq_refl).
  - unfold members. rewrite !filter_app. cbn [filter]. rewrite (proj2 (beq_neq (p_team p) (t_name t))) by congruence. reflexivity.
Qed.
