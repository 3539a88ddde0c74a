(** Recordings with given tables *)
From Coq Require Import Lia ZifyN ZifyNat ZifyBool Permutation.
From Verif.Model Require Import Base Env Serverinfo Clientinfo Clients Prints Frags Flags Ping Players Matchdate Duration Validate Ktxstats.
From Verif.Spec Require Import Order Teams Summary Times Clientlist Occ Mvd Messages Obituary Names Score Flags Pings Stats Texts Utf8 Recording Tables.
From Verif.Proofs Require ScoreProps.
From Verif.Proofs Require Import BaseFacts TextFacts RecordingFacts RecordingTexts.
Open Scope N_scope.

Lemma concat_map_app : forall A B (f : A -> list B) l1 l2,
  concat (map f (l1 ++ l2)) = concat (map f l1) ++ concat (map f l2).
Proof. intros. rewrite map_app, concat_app. reflexivity. Qed.

Lemma concat_map_none : forall A B (f : A -> list B) l, Forall (fun x => f x = []) l -> concat (map f l) = [].
Proof. intros A B f l H. induction H as [| x l H _ IH]; [reflexivity |]. cbn [map concat]. rewrite H, IH. reflexivity. Qed.

Lemma concat_map_repeat1 : forall A B (f : A -> list B) x y n, f x = [y] -> concat (map f (repeat x n)) = repeat y n.
Proof. intros A B f x y n H. induction n as [| n IH]; [reflexivity |]. cbn [repeat map concat]. rewrite H, IH. reflexivity. Qed.

Lemma Forall_repeat : forall A (P : A -> Prop) x n, P x -> Forall P (repeat x n).
Proof. intros A P x n H. induction n; [constructor |]. cbn [repeat]. constructor; assumption. Qed.

Lemma Forall_concat : forall A B (P : B -> Prop) (f : A -> list B) l,
  (forall x, In x l -> Forall P (f x)) -> Forall P (concat (map f l)).
Proof.
  intros A B P f l H. induction l as [| x l IH]; [constructor |]. cbn [map concat]. apply Forall_app.
  split; [apply H; left; reflexivity | apply IH; intros y Y; apply H; right; exact Y].
Qed.

(** What the written frames say *)
Definition score_entries (row : str * Z) : list (str * Z) :=
  repeat (fst row, 1%Z) (S (Z.to_nat (snd row))) ++ repeat (fst row, (-1)%Z) (S (Z.to_nat (- snd row))).
Definition deed_entries (row : str * PlayerFlagEvents) : list (deed * str) :=
  concat (map (fun k => repeat (k, fst row) (N.to_nat (counter k (snd row)))) all_kinds).

Lemma concat_map_concat : forall A B C (g : B -> list C) (f : A -> list B) l,
  concat (map g (concat (map f l))) = concat (map (fun x => concat (map g (f x))) l).
Proof.
  intros A B C g f l. induction l as [| x l IH]; [reflexivity |]. cbn [map concat].
  rewrite concat_map_app, IH. reflexivity.
Qed.

Lemma score_row_scores : forall pen row,
  concat (map (fun e => scores (e_news e)) (score_row pen row)) = score_entries row.
Proof.
  intros pen row. unfold score_row, score_entries. rewrite concat_map_app.
  rewrite (concat_map_repeat1 _ _ _ _ (fst row, 1%Z)) by reflexivity.
  rewrite (concat_map_repeat1 _ _ _ _ (fst row, (-1)%Z)) by reflexivity. reflexivity.
Qed.

Lemma score_row_calm : forall pen row,
  Forall (fun e => deeds (e_news e) = [] /\ reported (e_news e) = []) (score_row pen row).
Proof. intros pen row. unfold score_row. apply Forall_app. split; apply Forall_repeat; split; reflexivity. Qed.

Lemma flag_row_deeds : forall pen row,
  concat (map (fun e => deeds (e_news e)) (flag_row pen row)) = deed_entries row.
Proof.
  intros pen row. unfold flag_row, deed_entries. rewrite concat_map_concat. f_equal. apply map_ext. intros k.
  rewrite (concat_map_repeat1 _ _ _ _ (k, fst row)) by reflexivity. reflexivity.
Qed.

Lemma flag_row_calm : forall pen row,
  Forall (fun e => scores (e_news e) = [] /\ reported (e_news e) = []) (flag_row pen row).
Proof. intros pen row. unfold flag_row. apply Forall_concat. intros k _. apply Forall_repeat. split; reflexivity. Qed.

Lemma forall_left : forall A (P Q : A -> Prop) l, Forall (fun x => P x /\ Q x) l -> Forall P l.
Proof. intros A P Q l H. eapply Forall_impl; [| exact H]. intros x [X _]. exact X. Qed.
Lemma forall_right : forall A (P Q : A -> Prop) l, Forall (fun x => P x /\ Q x) l -> Forall Q l.
Proof. intros A P Q l H. eapply Forall_impl; [| exact H]. intros x [_ X]. exact X. Qed.

Lemma written_scores : forall pen ws fl pg,
  concat (map (fun e => scores (e_news e)) (written pen ws fl pg)) = concat (map score_entries ws).
Proof.
  intros pen ws fl pg. unfold written. rewrite !concat_map_app. cbn [map concat ping_row at_once e_news scores].
  rewrite (concat_map_none _ _ _ (concat (map (flag_row pen) fl))).
  - rewrite concat_map_concat, !app_nil_r. f_equal. apply map_ext. intros row. apply score_row_scores.
  - apply Forall_concat. intros row _. apply (forall_left _ _ _ _ (flag_row_calm pen row)).
Qed.

Lemma written_deeds : forall pen ws fl pg,
  concat (map (fun e => deeds (e_news e)) (written pen ws fl pg)) = concat (map deed_entries fl).
Proof.
  intros pen ws fl pg. unfold written. rewrite !concat_map_app. cbn [map concat ping_row at_once e_news deeds].
  rewrite (concat_map_none _ _ _ (concat (map (score_row pen) ws))).
  - rewrite concat_map_concat, !app_nil_r. cbn [app]. f_equal. apply map_ext. intros row. apply flag_row_deeds.
  - apply Forall_concat. intros row _. apply (forall_left _ _ _ _ (score_row_calm pen row)).
Qed.

Definition nonempty {A} (l : list A) : bool := negb (is_empty l).

Lemma filter_none : forall (l : list entry), Forall (fun e => reported (e_news e) = []) l ->
  filter (fun l => negb (is_empty l)) (map (fun e => reported (e_news e)) l) = [].
Proof. intros l H. induction H as [| e l H _ IH]; [reflexivity |]. cbn [map filter]. rewrite H. exact IH. Qed.

Lemma written_pings : forall pen ws fl pg,
  filter (fun l => negb (is_empty l)) (map (fun e => reported (e_news e)) (written pen ws fl pg)) =
  match pg with [] => [] | _ => [map (fun x => (n_of (fst x), snd x)) pg] end.
Proof.
  intros pen ws fl pg. unfold written. rewrite !map_app, !filter_app.
  rewrite (filter_none (concat (map (score_row pen) ws))), (filter_none (concat (map (flag_row pen) fl))).
  - cbn [app map ping_row at_once e_news reported]. rewrite map_map. cbn [pu_player pu_ping]. destruct pg; reflexivity.
  - apply Forall_concat. intros row _. apply (forall_right _ _ _ _ (flag_row_calm pen row)).
  - apply Forall_concat. intros row _. apply (forall_right _ _ _ _ (score_row_calm pen row)).
Qed.

(** The whole recording *)
Lemma enact_timeline : forall r es, timeline (enact r es) = (r_countdown r ++ date_entry r :: r_match r) ++ es ++ [over_entry r].
Proof.
  intros r es. unfold timeline, enact. cbn [r_countdown r_match]. unfold date_entry, over_entry. cbn [r_date_time r_date r_over_time].
  rewrite <- !app_assoc. cbn [app]. reflexivity.
Qed.

Lemma calm_before : forall r, calm r -> Forall uneventful (r_countdown r ++ date_entry r :: r_match r).
Proof.
  intros r C. apply Forall_app in C. destruct C as [C1 C2]. apply Forall_app. split; [exact C1 |].
  constructor; [repeat split | exact C2].
Qed.

Lemma enact_scores : forall r pen ws fl pg, calm r ->
  all_scores (enact r (written pen ws fl pg)) = concat (map score_entries ws).
Proof.
  intros r pen ws fl pg C. unfold all_scores. rewrite enact_timeline.
  pose proof (calm_before r C) as B. revert B. generalize (r_countdown r ++ date_entry r :: r_match r). intros l B.
  rewrite !concat_map_app, written_scores.
  rewrite concat_map_none, app_nil_r; [reflexivity |].
  eapply Forall_impl; [| exact B]. intros e (X & _). exact X.
Qed.
Lemma enact_deeds : forall r pen ws fl pg, calm r ->
  all_deeds (enact r (written pen ws fl pg)) = concat (map deed_entries fl).
Proof.
  intros r pen ws fl pg C. unfold all_deeds. rewrite enact_timeline.
  pose proof (calm_before r C) as B. revert B. generalize (r_countdown r ++ date_entry r :: r_match r). intros l B.
  rewrite !concat_map_app, written_deeds.
  rewrite concat_map_none, app_nil_r; [reflexivity |].
  eapply Forall_impl; [| exact B]. intros e (_ & X & _). exact X.
Qed.
Lemma enact_pings : forall r pen ws fl pg, calm r ->
  pings_reported (enact r (written pen ws fl pg)) = map (fun x => (n_of (fst x), snd x)) pg.
Proof.
  intros r pen ws fl pg C. unfold pings_reported. rewrite enact_timeline.
  pose proof (calm_before r C) as B. revert B. generalize (r_countdown r ++ date_entry r :: r_match r). intros l B.
  rewrite !map_app, !filter_app, written_pings.
  rewrite filter_none.
  - cbn [app map over_entry e_news reported filter is_empty negb]. rewrite app_nil_r.
    destruct pg as [| x pg]; [reflexivity |]. cbn [firstn concat]. rewrite app_nil_r. reflexivity.
  - eapply Forall_impl; [| exact B]. intros e (_ & _ & X). exact X.
Qed.

(** Sums over the entries *)
Lemma beq_other : forall a b, a <> b -> beq a b = false.
Proof. intros a b. apply beq_neq. Qed.

Lemma fold_add : forall l c, fold_right Z.add c l = (fold_right Z.add 0 l + c)%Z.
Proof. intros l c. induction l as [| z l IH]; cbn [fold_right]; [| rewrite IH]; lia. Qed.
Lemma total_app : forall x a b, total x (a ++ b) = (total x a + total x b)%Z.
Proof. intros x a b. unfold total. rewrite filter_app, map_app, fold_right_app. apply fold_add. Qed.
Lemma total_repeat : forall x v n, total x (repeat (x, v) n) = (v * Z.of_nat n)%Z.
Proof.
  intros x v n. induction n as [| n IH]; [cbn; lia |]. cbn [repeat].
  change ((x, v) :: repeat (x, v) n) with ([(x, v)] ++ repeat (x, v) n). rewrite total_app, IH.
  assert (total x [(x, v)] = v) as ->; [| lia]. unfold total. cbn [filter fst]. rewrite beq_refl. cbn. lia.
Qed.
Lemma total_absent : forall x l, ~ In x (map fst l) -> total x l = 0%Z.
Proof.
  intros x l. induction l as [| [y v] l IH]; intros H; [reflexivity |]. unfold total. cbn [filter fst].
  rewrite beq_other by (intros ->; apply H; left; reflexivity). apply IH. intros I. apply H. right. exact I.
Qed.

Lemma score_entries_total : forall x v, total x (score_entries (x, v)) = v.
Proof. intros x v. unfold score_entries. cbn [fst snd]. rewrite total_app, !total_repeat. lia. Qed.

Lemma score_entries_names : forall row x, In x (map fst (score_entries row)) <-> x = fst row.
Proof.
  intros row x. unfold score_entries. rewrite map_app, in_app_iff. split.
  - intros [I | I]; apply in_map_iff in I; destruct I as [y [<- I]]; apply repeat_spec in I; subst y; reflexivity.
  - intros ->. left. left. reflexivity.
Qed.

Lemma all_score_names : forall ws x, In x (map fst (concat (map score_entries ws))) <-> In x (map fst ws).
Proof.
  intros ws x. induction ws as [| row ws IH]; [reflexivity |]. cbn [map concat]. rewrite map_app, in_app_iff, IH, score_entries_names.
  cbn [In]. split; intros [H | H]; auto.
Qed.

Lemma all_score_total : forall ws x v, NoDup (map fst ws) -> In (x, v) ws -> total x (concat (map score_entries ws)) = v.
Proof.
  induction ws as [| [y w] ws IH]; intros x v N I; [destruct I |]. cbn [map concat] in *. inversion N as [| ? ? N1 N2]. subst.
  rewrite total_app. destruct I as [Q | I].
  - injection Q as -> ->. rewrite score_entries_total, total_absent; [lia |]. rewrite all_score_names. exact N1.
  - rewrite (IH x v N2 I), total_absent; [lia |]. rewrite score_entries_names. cbn [fst] in *. intros ->.
    apply N1. apply in_map_iff. exists (y, v). auto.
Qed.

Lemma times_app : forall k x a b, Flags.times k x (a ++ b) = Flags.times k x a + Flags.times k x b.
Proof. intros k x a b. unfold Flags.times. rewrite filter_app, len_app. reflexivity. Qed.
Lemma times_repeat : forall k x n, Flags.times k x (repeat (k, x) n) = N.of_nat n.
Proof.
  intros k x n. induction n as [| n IH]; [reflexivity |]. cbn [repeat].
  change ((k, x) :: repeat (k, x) n) with ([(k, x)] ++ repeat (k, x) n). rewrite times_app, IH.
  assert (Flags.times k x [(k, x)] = 1) as ->; [| lia]. unfold Flags.times. cbn [filter fst snd]. rewrite beq_refl.
  destruct k; reflexivity.
Qed.
Lemma times_other : forall k j x n, j <> k -> Flags.times k x (repeat (j, x) n) = 0.
Proof.
  intros k j x n H. induction n as [| n IH]; [reflexivity |]. unfold Flags.times in *. cbn [repeat filter fst snd].
  assert (deed_eqb j k = false) as -> by (destruct j, k; try reflexivity; contradiction). exact IH.
Qed.
Lemma times_absent : forall k x l, ~ In x (map snd l) -> Flags.times k x l = 0.
Proof.
  intros k x l. induction l as [| [j y] l IH]; intros H; [reflexivity |]. unfold Flags.times. cbn [filter fst snd].
  rewrite (beq_other y x) by (intros ->; apply H; left; reflexivity). rewrite Bool.andb_false_r. apply IH. intros I. apply H. right. exact I.
Qed.

Lemma deed_entries_times : forall k x p, Flags.times k x (deed_entries (x, p)) = counter k p.
Proof.
  intros k x p. unfold deed_entries. cbn [all_kinds map concat fst snd]. rewrite !times_app.
  assert (forall j, Flags.times k x (repeat (j, x) (N.to_nat (counter j p))) = if deed_eqb j k then counter k p else 0) as G.
  { intros j. destruct (deed_eqb j k) eqn:D.
    - assert (j = k) as -> by (destruct j, k; try discriminate; reflexivity). rewrite times_repeat. lia.
    - apply times_other. intros ->. destruct k; discriminate. }
  rewrite !G. change (Flags.times k x []) with 0. destruct k; cbn [deed_eqb]; lia.
Qed.

Lemma deed_entries_names : forall row x, (exists k, 0 < counter k (snd row)) ->
  In x (map snd (deed_entries row)) <-> x = fst row.
Proof.
  intros row x [k K]. split.
  - intros I. apply in_map_iff in I. destruct I as [y [<- I]]. unfold deed_entries in I. apply in_concat in I.
    destruct I as [l [L I]]. apply in_map_iff in L. destruct L as [j [<- _]]. apply repeat_spec in I. subst y. reflexivity.
  - intros ->. apply in_map_iff. exists (k, fst row). split; [reflexivity |]. unfold deed_entries. apply in_concat.
    exists (repeat (k, fst row) (N.to_nat (counter k (snd row)))). split.
    + apply in_map_iff. exists k. split; [reflexivity |]. destruct k; vm_compute; tauto.
    + destruct (N.to_nat (counter k (snd row))) eqn:Z; [lia | left; reflexivity].
Qed.

Definition rows_live (fl : list (str * PlayerFlagEvents)) : Prop :=
  forall x p, In (x, p) fl -> exists k, 0 < counter k p.

Lemma all_deed_names : forall fl x, rows_live fl -> In x (map snd (concat (map deed_entries fl))) <-> In x (map fst fl).
Proof.
  intros fl x L. induction fl as [| row fl IH]; [reflexivity |]. cbn [map concat]. rewrite map_app, in_app_iff, IH, deed_entries_names.
  - cbn [In]. split; intros [H | H]; auto.
  - destruct row as [y p]. apply (L y p). left. reflexivity.
  - intros y p I. apply (L y p). right. exact I.
Qed.

Lemma all_deed_times : forall fl k x p, NoDup (map fst fl) -> rows_live fl -> In (x, p) fl ->
  Flags.times k x (concat (map deed_entries fl)) = counter k p.
Proof.
  induction fl as [| [y q] fl IH]; intros k x p N L I; [destruct I |]. cbn [map concat] in *. inversion N as [| ? ? N1 N2]. subst.
  assert (rows_live fl) as L2 by (intros a b J; apply (L a b); right; exact J).
  rewrite times_app. destruct I as [Q | I].
  - injection Q as -> ->. rewrite deed_entries_times, times_absent; [lia |]. rewrite all_deed_names by exact L2. exact N1.
  - rewrite (IH k x p N2 L2 I), times_absent; [lia |]. rewrite deed_entries_names by (apply (L y q); left; reflexivity).
    cbn [fst] in *. intros ->. apply N1. apply in_map_iff. exists (y, p). auto.
Qed.

Lemma pings_of_once : forall (l : list (N * N)) p v, NoDup (map fst l) -> In (p, v) l -> pings_of p l = [v].
Proof.
  assert (forall l p, ~ In p (map fst l) -> pings_of p l = []) as A.
  { intros l p. induction l as [| [q w] l IH]; intros H; [reflexivity |]. unfold pings_of. cbn [filter fst].
    destruct (q =? p) eqn:Q; [apply N.eqb_eq in Q; exfalso; apply H; left; exact Q |]. apply IH. intros I. apply H. right. exact I. }
  induction l as [| [q w] l IH]; intros p v N I; [destruct I |]. cbn [map] in N. inversion N as [| ? ? N1 N2]. subst.
  unfold pings_of. cbn [filter fst]. destruct I as [Q | I].
  - injection Q as -> ->. rewrite N.eqb_refl. cbn [map snd]. f_equal. apply (A l p). exact N1.
  - assert (q =? p = false) as ->.
    { apply N.eqb_neq. intros ->. apply N1. apply in_map_iff. exists (p, v). auto. }
    apply (IH p v N2 I).
Qed.

(** Rows of tables with the same keys and the same values *)
Lemma same_rows_by_key : forall A B (a b : list (A * B)), NoDup (map fst a) ->
  (forall x, In x (map fst a) <-> In x (map fst b)) ->
  (forall x v w, In (x, v) a -> In (x, w) b -> v = w) -> same_rows a b.
Proof.
  intros A B a b NA K V. split; [apply (NoDup_map_inv fst); exact NA |]. intros [x v]. split; intros I.
  - assert (In x (map fst b)) as J by (apply K; apply in_map_iff; exists (x, v); auto).
    apply in_map_iff in J. destruct J as [[y w] [Q J]]. cbn [fst] in Q. subst y. rewrite (V x v w I J). exact J.
  - assert (In x (map fst a)) as J by (apply K; apply in_map_iff; exists (x, v); auto).
    apply in_map_iff in J. destruct J as [[y w] [Q J]]. cbn [fst] in Q. subst y. rewrite <- (V x w v J I). exact J.
Qed.

Lemma events_by_counter : forall p q, (forall k, counter k p = counter k q) -> p = q.
Proof.
  intros [a b c d e f g] [a' b' c' d' e' f' g'] H.
  pose proof (H Captures). pose proof (H Defends). pose proof (H DefendsCarrierHard). pose proof (H DefendsCarrier).
  pose proof (H Takes). pose proof (H Returns). pose proof (H Assists). cbn in *. congruence.
Qed.

(** The recording is well formed *)
Lemma lasts_app : forall a b, lasts (a ++ b) = lasts a + lasts b.
Proof.
  intros a b. unfold lasts. rewrite map_app, fold_right_app.
  generalize (fold_right N.add 0 (map (fun e => n_of (e_time e)) b)). intros c.
  induction (map (fun e => n_of (e_time e)) a) as [| n l IH]; cbn [fold_right]; lia.
Qed.
Lemma lasts_written : forall pen ws fl pg, lasts (written pen ws fl pg) = 0.
Proof.
  intros pen ws fl pg.
  assert (Forall (fun e => n_of (e_time e) = 0) (written pen ws fl pg)) as F.
  { unfold written, score_row, flag_row. apply Forall_app. split; [| apply Forall_app; split; [| constructor; [reflexivity | constructor]]];
      apply Forall_concat; intros row _; [apply Forall_app; split; apply Forall_repeat; reflexivity |].
    apply Forall_concat. intros k _. apply Forall_repeat. reflexivity. }
  unfold lasts. induction F as [| e l H _ IH]; [reflexivity |]. cbn [map fold_right]. rewrite H, IH. reflexivity.
Qed.

Lemma enact_lasts : forall r pen ws fl pg, lasts (timeline (enact r (written pen ws fl pg))) = lasts (timeline r).
Proof.
  intros r pen ws fl pg. rewrite enact_timeline, !lasts_app, lasts_written. unfold timeline.
  change (r_countdown r ++ date_entry r :: r_match r ++ [over_entry r]) with (r_countdown r ++ (date_entry r :: r_match r) ++ [over_entry r]).
  rewrite !lasts_app. lia.
Qed.

Lemma encode_app : forall a b, encode (a ++ b) = encode a ++ encode b.
Proof. intros a b. unfold encode. rewrite map_app, concat_app. reflexivity. Qed.

Lemma body_within : forall f fs, In f fs -> len (f_body f) <= len (encode fs).
Proof.
  intros f fs I. apply in_split in I. destruct I as [a [b ->]]. rewrite encode_app, len_app.
  change (encode (f :: b)) with (encode_frame f ++ encode b). rewrite len_app. unfold encode_frame.
  rewrite !len_cons, !len_app. lia.
Qed.

Lemma enact_frames : forall r es, frames (enact r es) =
  (head_frames r ++ map frame_of (r_countdown r ++ date_entry r :: r_match r)) ++ map frame_of es ++ (frame_of (over_entry r) :: tail_frames r).
Proof.
  intros r es. unfold frames. rewrite enact_timeline. unfold head_frames, tail_frames, enact, info_body, users_body. cbn [r_info r_users r_users_rest r_stats].
  rewrite !map_app. cbn [map]. rewrite <- !app_assoc. reflexivity.
Qed.

Lemma readable_ok : In kill_phrase phrases /\ In death_phrase phrases.
Proof. split; vm_compute; tauto. Qed.

Lemma deed_phrase_in : forall k, In (k, deed_phrase k) flag_phrases.
Proof. intros k. destruct k; vm_compute; tauto. Qed.

Lemma written_wf : forall E cs pen ws fl pg, score_table_ok E pen ws -> flag_table_ok E pen fl -> ping_table_ok pg ->
  Forall (fun e => e_type e = x06 /\ e_mask e = [] /\ wf_news E cs (e_news e)) (written pen ws fl pg).
Proof.
  intros E cs pen ws fl pg [_ S] [_ F] [_ P]. destruct readable_ok as [KP DP]. unfold written. apply Forall_app. split; [| apply Forall_app; split].
  - apply Forall_concat. intros [x v] I. destruct (S x v I) as [R T]. unfold score_row. cbn [fst snd].
    destruct (T (kill_text x) (or_introl eq_refl)) as (T1 & T2 & T3). destruct (T (death_text x) (or_intror eq_refl)) as (D1 & D2 & D3).
    apply Forall_app. split; apply Forall_repeat; (split; [reflexivity | split; [reflexivity |]]); cbn [at_once e_news wf_news];
      (split; [assumption | split; [assumption | split; [assumption | split; [discriminate | split; [exact R | split; [reflexivity | assumption]]]]]]).
  - apply Forall_concat. intros [x p] I. destruct (F x p I) as (Q & _ & T). unfold flag_row. cbn [fst snd]. apply Forall_concat.
    intros k _. apply Forall_repeat. destruct (T k) as (_ & T1 & T2 & T3). split; [reflexivity | split; [reflexivity |]].
    cbn [at_once e_news wf_news]. split.
    + intros X. cbv zeta in *. rewrite X in T2. destruct T2 as [a [b T2]]. destruct a; discriminate.
    + split; [exact T1 |]. split; [exact T2 |]. split; [apply deed_phrase_in |]. split; [exact Q | exact T3].
  - constructor; [| constructor]. split; [reflexivity | split; [reflexivity |]]. cbn [ping_row at_once e_news wf_news].
    apply Forall_forall. intros u U. apply in_map_iff in U. destruct U as [[p v] [<- U]]. exact (P p v U).
Qed.

Lemma enact_wf : forall E cs r pen ws fl pg, wf_recording E cs r -> calm r ->
  score_table_ok E pen ws -> flag_table_ok E pen fl -> ping_table_ok pg ->
  len (encode (frames (enact r (written pen ws fl pg)))) < 2147483648 ->
  wf_recording E cs (enact r (written pen ws fl pg)).
Proof.
  intros E cs r pen ws fl pg W C S F P L. pose proof (written_wf E cs pen ws fl pg S F P) as WW.
  pose proof (enact_scores r pen ws fl pg C) as QS. pose proof (enact_deeds r pen ws fl pg C) as QD.
  pose proof (enact_pings r pen ws fl pg C) as QP. pose proof (enact_lasts r pen ws fl pg) as QL.
  pose proof (enact_frames r (written pen ws fl pg)) as QF.
  set (es := written pen ws fl pg) in *. constructor.
  - apply (w_info _ _ _ W).
  - apply (w_users _ _ _ W).
  - apply (w_users_rest _ _ _ W).
  - apply (w_users_body _ _ _ W).
  - apply (w_roster _ _ _ W).
  - destruct (w_timeline _ _ _ W) as [T1 T2]. split; [exact T1 |]. cbn [enact r_match]. apply Forall_app. split; [exact T2 |].
    apply Forall_forall. intros e I. rewrite Forall_forall in WW. destruct (WW e I) as (Y & M & N). split; [| exact N].
    split; cbn [frame_of f_mask f_type f_body].
    + rewrite Y, M. reflexivity.
    + rewrite Y. change (has_length x06) with true. cbv iota.
      assert (In (frame_of e) (frames (enact r es))) as IN.
      { rewrite QF. apply in_or_app. right. apply in_or_app. left. apply in_map. exact I. }
      pose proof (body_within _ _ IN) as B. cbn [frame_of f_body] in B. lia.
  - apply (w_date _ _ _ W).
  - apply (w_stats _ _ _ W).
  - apply (w_blocks _ _ _ W).
  - apply (w_text _ _ _ W).
  - apply (w_version _ _ _ W).
  - apply (w_no_date _ _ _ W).
  - apply (w_no_over _ _ _ W).
  - split; [| exact L]. pose proof (w_size _ _ _ W) as [B _]. pose proof (enact_frames r []) as Q0.
    assert (frames (enact r []) = frames r) as Q1.
    { unfold frames, timeline, enact. cbn [r_match r_countdown]. rewrite app_nil_r. reflexivity. }
    rewrite Q1 in Q0. rewrite Q0 in B. rewrite QF. rewrite !encode_app, !len_app in *. cbn [map] in B. change (len (encode [])) with 0 in B. lia.
  - rewrite QL. apply (w_lasts _ _ _ W).
  - intros k x. rewrite QD. destruct F as [N F].
    assert (rows_live fl) as LV by (intros a b I; destruct (F a b I) as (_ & V & _); exact V).
    destruct (in_dec (list_eq_dec Byte.byte_eq_dec) x (map fst fl)) as [I | I].
    + apply in_map_iff in I. destruct I as [[y p] [Q I]]. cbn [fst] in Q. subst y. rewrite (all_deed_times fl k x p N LV I).
      destruct (F x p I) as (_ & _ & T). apply T.
    + rewrite times_absent; [reflexivity |]. rewrite all_deed_names by exact LV. exact I.
  - intros p I. rewrite QP in *. rewrite map_map in I. cbn [fst] in I.
    apply in_map_iff in I. destruct I as [[b v] [Q I]]. cbn [fst] in Q. destruct P as [N P].
    rewrite (pings_of_once _ p v).
    + cbn [sum fold_right]. pose proof (P b v I). lia.
    + rewrite map_map. cbn [fst]. rewrite <- map_map. apply FinFun.Injective_map_NoDup; [| exact N].
      intros a c H. apply n_of_inj. exact H.
    + apply in_map_iff. exists (b, v). cbn [fst snd]. rewrite Q. auto.
Qed.

Section Written.
  Variables (E : env) (cs : list Client) (r : recording) (pen : str -> bytes) (ws : list (str * Z))
    (fl : list (str * PlayerFlagEvents)) (pg : list (byte * N)).
  Hypotheses (W : wf_recording E cs r) (C : calm r) (S : score_table_ok E pen ws) (F : flag_table_ok E pen fl)
    (P : ping_table_ok pg).
  Let r' := enact r (written pen ws fl pg).
  Hypothesis L : len (encode (frames r')) < 2147483648.

  Lemma written_wf_recording : wf_recording E cs r'.
  Proof. apply enact_wf; assumption. Qed.

  Lemma tables_proof :
    (exists a, frags_per_player_name E (encode (frames r')) = Ret a /\ same_rows a ws) /\
    (exists b, flag_events_per_player_name E (encode (frames r')) = Ret b /\ same_rows b fl) /\
    (if is_empty pg then ping_per_player_number E (encode (frames r')) = Ret (Err "Unable to read pings")
     else exists c, ping_per_player_number E (encode (frames r')) = Ret (Ok c) /\
            same_rows c (map (fun x => (n_of (fst x), snd x)) pg)).
  Proof.
    pose proof written_wf_recording as W'. split; [| split].
    - destruct (recording_scores E cs r' W') as [a [A (N & K & V)]]. exists a. split; [exact A |].
      unfold r' in K, V. rewrite enact_scores in K, V by exact C. destruct S as [NS _].
      apply same_rows_by_key; [exact N | |].
      + intros x. rewrite K. apply all_score_names.
      + intros x v w I J. rewrite (V x v I). apply all_score_total; assumption.
    - destruct (recording_deeds E cs r' W') as [b [B (N & K & V)]]. exists b. split; [exact B |].
      unfold r' in K, V. rewrite enact_deeds in K, V by exact C. destruct F as [NF FF].
      assert (rows_live fl) as LV by (intros x p I; destruct (FF x p I) as (_ & X & _); exact X).
      apply same_rows_by_key; [exact N | |].
      + intros x. rewrite K. apply all_deed_names. exact LV.
      + intros x p q I J. apply events_by_counter. intros k. rewrite (V x p k I), (all_deed_times fl k x q NF LV J).
        destruct (FF x q J) as (_ & _ & T). destruct (T k) as [B1 _]. apply N.mod_small. exact B1.
    - pose proof (recording_pings E cs r' W') as H. unfold r' in H. rewrite enact_pings in H by exact C.
      destruct P as [NP PP].
      assert (is_empty (map (fun x : byte * N => (n_of (fst x), snd x)) pg) = is_empty pg) as Z by (destruct pg; reflexivity).
      rewrite Z in H. destruct (is_empty pg); [exact H |].
      assert (NoDup (map fst (map (fun x : byte * N => (n_of (fst x), snd x)) pg))) as NN.
      { rewrite map_map. cbn [fst]. rewrite <- map_map. apply FinFun.Injective_map_NoDup; [intros a c Q; apply n_of_inj; exact Q | exact NP]. }
      destruct H as [c [A (N & K & V)]]. exists c. split; [exact A |].
      apply same_rows_by_key; [exact N | exact K |].
      intros p v w I J. rewrite (V p v I), (pings_of_once _ p w NN J). cbn [sum fold_right]. change (len [w]) with 1.
      rewrite N.div_1_r. lia.
  Qed.

  Lemma rest_proof :
    let d := encode (frames r) in let d' := encode (frames r') in
    is_valid E d' = is_valid E d /\ serverinfo E d' = serverinfo E d /\ clients E d' = clients E d /\
    matchdate_string d' = matchdate_string d /\ ktxstats_string E d' = ktxstats_string E d /\
    demo_duration E d' = demo_duration E d.
  Proof.
    pose proof written_wf_recording as W'. cbv zeta.
    rewrite (recording_valid E cs r W), (recording_valid E cs r' W').
    rewrite (recording_serverinfo E cs r W), (recording_serverinfo E cs r' W').
    rewrite (recording_clients E cs r W), (recording_clients E cs r' W').
    rewrite (recording_date E cs r W), (recording_date E cs r' W').
    rewrite (recording_stats E cs r W), (recording_stats E cs r' W').
    do 5 (split; [reflexivity |]).
    destruct (recording_demo_duration E cs r W) as [d [D Q]]. destruct (recording_demo_duration E cs r' W') as [d' [D' Q']].
    rewrite D, D'. unfold r' in Q'. rewrite enact_lasts in Q'. assert (d = d') as -> by lia. reflexivity.
  Qed.

  Lemma parts_proof : st_mode (settings_from E (to_utf8 E (r_info r))) <> Some (lit "hoonymode") ->
    let d := encode (frames r) in let d' := encode (frames r') in
    countdown_duration E d' = countdown_duration E d /\
    match_duration_from_seeking E d' = match_duration_from_seeking E d.
  Proof.
    intros H. pose proof written_wf_recording as W'. cbv zeta.
    destruct (recording_countdown E cs r W H) as [a [A QA]]. destruct (recording_countdown E cs r' W' H) as [a' [A' QA']].
    destruct (recording_seeking E cs r W H) as [b [B QB]]. destruct (recording_seeking E cs r' W' H) as [b' [B' QB']].
    rewrite A, A', B, B'. unfold r' in QB'. rewrite enact_lasts in QB'.
    change (r_countdown (enact r (written pen ws fl pg))) with (r_countdown r) in QB'.
    change (date_entry (enact r (written pen ws fl pg))) with (date_entry r) in QB'.
    change (r_countdown r') with (r_countdown r) in QA'. change (date_entry r') with (date_entry r) in QA'.
    assert (a = a') as -> by lia. assert (b = b') as -> by lia. split; reflexivity.
  Qed.

  Lemma tabled_proof : forall m, iterates (players_order E) -> pg <> [] ->
    ktxstats_from E (concat (map snd (r_stats r))) = Err m ->
    exists es l, players E (encode (frames r')) = Ret (Ok l) /\
      Forall2 (tabled ws pg) (filter (fun c => negb (c_is_spectator c)) cs) es /\
      Permutation es l /\ in_order_of better l.
  Proof.
    intros m IT NE K. pose proof written_wf_recording as W'.
    destruct (recording_players_listed E cs r' m W' IT) as (es & l & H1 & H2 & H3 & H4).
    - unfold r'. rewrite enact_pings by exact C. intros X. apply NE. destruct pg; [reflexivity | discriminate].
    - exact K.
    - exists es, l. split; [exact H1 |]. split; [| split; assumption]. eapply ScoreProps.Forall2_weaken; [| exact H2].
      intros c p [Q1 Q2 _ Q4 Q5 _ _ _]. split; [exact Q1 |]. split; [exact Q2 |].
      unfold r' in Q4, Q5. rewrite enact_scores in Q4 by exact C. rewrite enact_pings in Q5 by exact C. cbv zeta in Q5.
      destruct S as [NS _]. destruct P as [NP PP].
      assert (NoDup (map fst (map (fun x : byte * N => (n_of (fst x), snd x)) pg))) as NN.
      { rewrite map_map. cbn [fst]. rewrite <- map_map. apply FinFun.Injective_map_NoDup; [intros a b Q; apply n_of_inj; exact Q | exact NP]. }
      split; [| split; [| split]].
      + intros v I. rewrite Q4. apply all_score_total; assumption.
      + intros I. rewrite Q4. apply total_absent. rewrite all_score_names. exact I.
      + intros b v B I. rewrite (pings_of_once _ (c_number c) v NN) in Q5.
        * cbn [is_empty sum fold_right] in Q5. change (len [v]) with 1 in Q5. rewrite N.div_1_r in Q5. lia.
        * apply in_map_iff. exists (b, v). cbn [fst snd]. rewrite B. auto.
      + intros H. assert (pings_of (c_number c) (map (fun x : byte * N => (n_of (fst x), snd x)) pg) = []) as Z.
        { unfold pings_of. clear - H. induction pg as [| [b v] l IH]; [reflexivity |]. cbn [map filter fst].
          destruct (n_of b =? c_number c) eqn:B; [apply N.eqb_eq in B; exfalso; apply (H b v); [left; reflexivity | exact B] |].
          apply IH. intros b' v' I. apply (H b' v'). right. exact I. }
        rewrite Z in Q5. exact Q5.
  Qed.
End Written.
