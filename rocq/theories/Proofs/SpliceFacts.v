(** Proofs for Properties/Splices.v *)
From Coq Require Import Lia ZifyN ZifyNat ZifyBool.
From Verif.Model Require Import Base Env Serverinfo Clientinfo Clients Matchdate Ktxstats Duration Players Validate.
From Verif.Spec Require Import Occ Mvd Messages Texts Times Stats Clock Splice.
From Verif.Proofs Require Import BaseFacts TextFacts ClientFacts FrameFacts TimeFacts ClockFacts TailFacts GrowFacts LocalFacts.

Lemma encode_pos : forall f, 0 < len (encode_frame f).
Proof. intros f. unfold encode_frame. rewrite len_cons. lia. Qed.

Lemma located_app : forall fs gs i, located i (fs ++ gs) = located i fs ++ located (i + len (encode fs)) gs.
Proof.
  induction fs as [| f fs IH]; intros gs i; cbn [located app].
  - change (len (encode [])) with 0. rewrite N.add_0_r. reflexivity.
  - rewrite IH, encode_cons, len_app, N.add_assoc. reflexivity.
Qed.
Lemma located_shift : forall fs i j, located (i + j) fs = map (fun x => (i + fst x, snd x)) (located j fs).
Proof.
  induction fs as [| f fs IH]; intros i j; cbn [located map fst snd]; [reflexivity |].
  rewrite <- IH, N.add_assoc. reflexivity.
Qed.
Lemma located_from : forall fs i x, In x (located i fs) -> i <= fst x.
Proof.
  induction fs as [| f fs IH]; intros i x H; [contradiction |]. cbn [located] in H.
  destruct H as [<- | H]; [reflexivity |]. apply IH in H. lia.
Qed.
Lemma located_before : forall fs i x, In x (located i fs) -> fst x < i + len (encode fs).
Proof.
  induction fs as [| f fs IH]; intros i x H; [contradiction |]. cbn [located] in H.
  rewrite encode_cons, len_app. pose proof (encode_pos f). destruct H as [<- | H]; [simpl; lia |]. apply IH in H. lia.
Qed.
Lemma located_times : forall fs i, map (fun x => n_of (f_time (snd x))) (located i fs) = map (fun f => n_of (f_time f)) fs.
Proof. induction fs as [| f fs IH]; intros i; cbn [located map snd]; [reflexivity |]. rewrite IH. reflexivity. Qed.

Lemma filter_all : forall A (p : A -> bool) l, (forall x, In x l -> p x = true) -> filter p l = l.
Proof.
  intros A p. induction l as [| x l IH]; intros H; cbn [filter]; [reflexivity |].
  rewrite (H x (or_introl eq_refl)), IH; [reflexivity |]. intros y I. apply H. right. exact I.
Qed.
Lemma filter_none : forall A (p : A -> bool) l, (forall x, In x l -> p x = false) -> filter p l = [].
Proof.
  intros A p. induction l as [| x l IH]; intros H; cbn [filter]; [reflexivity |].
  rewrite (H x (or_introl eq_refl)). apply IH. intros y I. apply H. right. exact I.
Qed.
Lemma sum_app : forall a b, fold_right N.add 0 (a ++ b) = fold_right N.add 0 a + fold_right N.add 0 b.
Proof. induction a as [| x a IH]; intros b; cbn [fold_right app]; [reflexivity |]. rewrite IH. lia. Qed.

Lemma elapsed_first : forall fs gs c, c <= len (encode fs) -> elapsed c (fs ++ gs) = elapsed c fs.
Proof.
  intros fs gs c H. unfold elapsed. rewrite located_app, filter_app.
  rewrite (filter_none _ _ (located (0 + len (encode fs)) gs)); [rewrite app_nil_r; reflexivity |].
  intros x I. apply located_from in I. lia.
Qed.
Lemma elapsed_second : forall fs gs t, elapsed (len (encode fs) + t) (fs ++ gs) = all_time fs + elapsed t gs.
Proof.
  intros fs gs t. unfold elapsed. rewrite located_app, filter_app, map_app, sum_app. f_equal.
  - rewrite filter_all; [rewrite located_times; reflexivity |]. intros x I. apply located_before in I. lia.
  - replace (0 + len (encode fs)) with (len (encode fs) + 0) by lia. rewrite located_shift.
    generalize (located 0 gs) as l. induction l as [| x l IH]; [reflexivity |]. cbn [map filter fst].
    replace (len (encode fs) + fst x <? len (encode fs) + t) with (fst x <? t) by lia.
    destruct (fst x <? t); cbn [map fold_right snd]; rewrite IH; reflexivity.
Qed.

Lemma last_at_second : forall a b p i, last_at b p i -> last_at (a ++ b) p (len a + i).
Proof.
  intros a b p i [O M]. split; [apply occurs_at_app_r; exact O |]. intros j Oj.
  destruct (N.lt_ge_cases j (len a)) as [L | L]; [lia |]. apply occurs_at_right in Oj; [| exact L]. apply M in Oj. lia.
Qed.
Lemma end_told_marker : forall a b t, end_told a b -> end_marker b t -> end_marker (a ++ b) (len a + t).
Proof.
  intros a b t T M. destruct T as [O | [NO [S | NS]]].
  - left. apply last_at_second. destruct M as [M | [[N _] | [N _]]]; [exact M | contradiction | contradiction].
  - assert (N : ~ occurs b match_over) by (intros X; apply NO, occurs_app_r, X).
    right. left. split; [exact NO |]. apply last_at_second.
    destruct M as [M | [[_ M] | [_ [M _]]]]; [exfalso; apply N; exact (last_at_occurs _ _ _ M) | exact M | contradiction].
  - right. right. split; [exact NO |]. split; [exact NS |].
    destruct M as [M | [[_ M] | [_ [_ ->]]]]; [| | rewrite len_app; reflexivity].
    + exfalso. apply NO, occurs_app_r. exact (last_at_occurs _ _ _ M).
    + exfalso. apply NS, occurs_app_r. exact (last_at_occurs _ _ _ M).
Qed.

Lemma encode_both : forall fs gs, encode (fs ++ gs) = encode fs ++ encode gs.
Proof. intros fs gs. unfold encode. rewrite map_app, concat_app. reflexivity. Qed.
Lemma wf_both : forall fs gs, wf fs -> wf gs -> wf (fs ++ gs).
Proof. intros fs gs A B. apply Forall_app. auto. Qed.

Lemma splice_time_proof : forall E fs gs t, wf fs -> wf gs -> end_told (encode fs) (encode gs) -> end_marker (encode gs) t ->
  all_time fs + elapsed t gs < 4294967296 ->
  exists d, demo_duration E (encode fs ++ encode gs) = Ret (Ok d) /\ Z.of_N d = ms_to_ns (all_time fs + elapsed t gs).
Proof.
  intros E fs gs t W V T M L. rewrite <- encode_both, <- (app_nil_r (encode (fs ++ gs))), <- elapsed_second.
  apply demo_duration_proof.
  - apply wf_both; assumption.
  - exact I.
  - rewrite app_nil_r, encode_both. apply end_told_marker; assumption.
  - rewrite elapsed_second. exact L.
Qed.

Lemma clock_first : forall checks fs gs c r, c <= len (encode fs) -> clock checks fs [] c r -> clock checks (fs ++ gs) [] c r.
Proof.
  intros checks fs gs c r L H. inv H.
  - rewrite <- (elapsed_first fs gs c L). apply clock_reads; [left; exact I | rewrite (elapsed_first fs gs c L); assumption].
  - apply clock_overflows; [reflexivity || assumption | rewrite (elapsed_first fs gs c L); assumption].
  - lia.
  - lia.
Qed.

Lemma splice_countdown_proof : forall E fs gs, wf fs -> wf gs -> 1280 <= len (encode fs) ->
  occurs (encode fs) matchdate_marker ->
  countdown_duration E (encode fs ++ encode gs) = countdown_duration E (encode fs).
Proof.
  intros E fs gs W V L O. pose proof (serverinfo_head E (encode fs) (encode gs) L) as S.
  destruct (serverinfo E (encode fs)) as [r | p |] eqn:R.
  2, 3: unfold countdown_duration; rewrite S, R; reflexivity.
  destruct (is_hoonymode r) eqn:H.
  { unfold countdown_duration. rewrite S, R. cbn [bind]. rewrite H. reflexivity. }
  assert (H' : forall s, r = Ok s -> st_mode s <> Some (lit "hoonymode")).
  { intros s -> HM. unfold is_hoonymode in H. cbn [is_ok_and] in H. rewrite HM in H.
    unfold HOONYMODE in H. rewrite beq_refl in H. discriminate. }
  destruct (find (encode fs) matchdate_marker) as [c |] eqn:F; [| apply find_none in F; contradiction].
  apply find_some in F. pose proof (first_at_extend _ (encode gs) _ _ F) as F'.
  pose proof (occurs_at_le _ _ _ (proj1 F)) as LE.
  pose proof (countdown_any_proof E fs [] W I) as [_ A]. rewrite app_nil_r in A.
  destruct (A r R H') as [_ B]. destruct (B c F) as [x [K ->]].
  pose proof (countdown_any_proof E (fs ++ gs) [] (wf_both _ _ W V) I) as [_ A']. rewrite app_nil_r, encode_both in A'.
  destruct (A' r S H') as [_ B']. destruct (B' c F') as [y [K' ->]].
  f_equal. destruct (clock_one_proof (checked E) (fs ++ gs) [] c I) as [z [_ U]].
  rewrite (U x), (U y); [reflexivity | exact K' |]. apply clock_first; [lia | exact K].
Qed.

Lemma splice_match_proof : forall E fs gs r t, wf fs -> wf gs -> 1280 <= len (encode fs) ->
  serverinfo E (encode fs) = Ret r -> occurs (encode fs) matchdate_marker ->
  end_told (encode fs) (encode gs) -> end_marker (encode gs) t -> all_time fs + elapsed t gs < 4294967296 ->
  exists total countdown, demo_duration E (encode fs ++ encode gs) = Ret (Ok total) /\
    countdown_duration E (encode fs) = Ret (Ok countdown) /\ countdown <= total /\
    match_duration_from_seeking E (encode fs ++ encode gs) = Ret (Ok (total - countdown)).
Proof.
  intros E fs gs r t W V L S O T M B.
  pose proof (splice_countdown_proof E fs gs W V L O) as C.
  destruct (find (encode fs) matchdate_marker) as [c |] eqn:F; [| apply find_none in F; contradiction].
  apply find_some in F. pose proof (first_at_extend _ (encode gs) _ _ F) as F'.
  pose proof (occurs_at_le _ _ _ (proj1 F)) as LE.
  destruct (seeking_proof E (fs ++ gs) [] r (len (encode fs) + t)) as [total [cd [D [X [Y Z]]]]].
  - apply wf_both; assumption.
  - exact I.
  - rewrite app_nil_r, encode_both, serverinfo_head by exact L. exact S.
  - rewrite app_nil_r, encode_both. apply end_told_marker; assumption.
  - rewrite elapsed_second. exact B.
  - intros c'. rewrite app_nil_r, encode_both. intros F2. rewrite (first_at_unique _ _ _ _ F2 F'). lia.
  - rewrite app_nil_r, encode_both in *. rewrite C in X. exists total, cd. split; [exact D |].
    destruct X as [X | [e [X _]]]; [auto |]. exfalso.
    destruct (is_hoonymode r) eqn:H.
    { unfold countdown_duration in X. rewrite S in X. cbn [bind] in X. rewrite H in X. discriminate. }
    assert (H' : forall s, r = Ok s -> st_mode s <> Some (lit "hoonymode")).
    { intros s -> HM. unfold is_hoonymode in H. cbn [is_ok_and] in H. rewrite HM in H.
      unfold HOONYMODE in H. rewrite beq_refl in H. discriminate. }
    pose proof (countdown_proof E fs [] r c W I) as P. rewrite app_nil_r in P. destruct (P S H' F) as [d [Q _]]; [| congruence].
    pose proof (elapsed_mono (fs ++ gs) c (len (encode fs) + t)) as EM. rewrite elapsed_second, elapsed_first in EM by lia. lia.
Qed.

(** ** Bytes *)
Lemma splice_head_proof : forall E a b s, 1280 <= len a -> first_at a spawn_mark s -> s + 13050 <= len a ->
  serverinfo_string E (a ++ b) = serverinfo_string E a /\ serverinfo E (a ++ b) = serverinfo E a /\
  filename E (a ++ b) = filename E a /\ timestamp_from_epoch E (a ++ b) = timestamp_from_epoch E a /\
  clientinfo_strings E (a ++ b) = clientinfo_strings E a /\ clients E (a ++ b) = clients E a /\
  player_names E (a ++ b) = player_names E a /\ spectator_names E (a ++ b) = spectator_names E a /\
  team_names E (a ++ b) = team_names E a /\ has_human_players E (a ++ b) = has_human_players E a.
Proof.
  intros E a b s L F B. pose proof (clients_extend E a b s F B) as C.
  rewrite serverinfo_string_head, serverinfo_head, filename_head, epoch_head, (clientinfo_strings_extend E a b s F B) by exact L.
  unfold player_names, spectator_names, team_names, has_human_players, player_clients, spectator_clients. rewrite C. auto 15.
Qed.

Lemma splice_tail_proof : forall E a b k, last_at b version_mark k -> 18 <= k -> len (a ++ b) < 9223372036854775808 ->
  ktxstats_string E (a ++ b) = ktxstats_string E b /\ ktxstats_v3 E (a ++ b) = ktxstats_v3 E b /\
  server E (a ++ b) = server E b /\ match_duration_from_ktxstats E (a ++ b) = match_duration_from_ktxstats E b /\
  (forall s, ktxstats_v3 E b = Ret (Ok s) -> players E (a ++ b) = players E b /\ teams E (a ++ b) = teams E b).
Proof.
  intros E a b k L K B. pose proof (ktxstats_before E a b k L K B) as S.
  assert (V : ktxstats_v3 E (a ++ b) = ktxstats_v3 E b) by (unfold ktxstats_v3; rewrite S; reflexivity).
  split; [exact S |]. split; [exact V |]. split; [unfold server; rewrite V; reflexivity |].
  split; [unfold match_duration_from_ktxstats; rewrite S; reflexivity |].
  intros s R. assert (P : players E (a ++ b) = players E b) by (unfold players; rewrite V, R; reflexivity).
  split; [exact P |]. unfold teams. rewrite P. reflexivity.
Qed.

Lemma splice_valid_proof : forall E a b s, is_valid E a = Ret true -> first_at a spawn_mark s -> s + 13050 <= len a ->
  12 < len b -> is_valid E (a ++ b) = Ret (has_end_of_demo_print b).
Proof.
  intros E a b s V F B L. destruct (valid_guarantees_proof E a V) as [_ [_ [[st S] [H _]]]].
  unfold is_valid. rewrite len_app. replace (MIN_SIZE <=? len a + len b) with true by (change MIN_SIZE with 1024; lia).
  rewrite (end_tail a b L). destruct (has_end_of_demo_print b); cbn [negb]; [| reflexivity].
  rewrite serverinfo_head by lia. rewrite S. cbn [bind is_ok negb].
  rewrite (has_clients_strings E (a ++ b) a); [exact H |]. apply (clientinfo_strings_extend E a b s F B).
Qed.
