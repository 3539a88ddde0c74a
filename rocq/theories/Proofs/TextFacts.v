(** Facts about embedded texts: [offsets_between], the serverinfo, the userinfo strings, the
    clients and the status functions. *)
From Coq Require Import Lia Permutation.
From Verif.Model Require Import Base Env Bytesextra Serverinfo Clientinfo Clients Validate.
From Verif.Spec Require Import Occ Texts.
From Verif.Proofs Require Import BaseFacts.

(** offsets_between *)
Lemma slice_from_mid : forall (x a r : bytes), slice_from (x ++ a ++ r) (len x + len a) = Ret r.
Proof. intros. rewrite app_assoc, <- len_app. apply slice_from_app. Qed.

Lemma offsets_between_some_proof : forall d a b from to,
  offsets_between d a b = Ret (Some (from, to)) <->
  exists y, y <> [] /\ stands_between d a b y from /\ to = from + len y.
Proof.
  intros d a b from to. unfold offsets_between. split.
  - destruct (find d a) as [i |] eqn:F; [| discriminate].
    apply find_some in F. destruct F as [[x [r [-> <-]]] F].
    rewrite slice_from_mid. cbn [bind].
    destruct (find r b) as [j |] eqn:G; [| discriminate].
    apply find_some in G. destruct G as [[y [z [-> <-]]] G].
    destruct (_ <? _) eqn:C; [| discriminate]. intros H. inv H.
    exists y. split. { intros ->. rewrite len_nil in C. lia. }
    split; [| reflexivity]. exists x, z. rewrite len_app. repeat split; auto.
    + exists x, (y ++ b ++ z). auto.
    + exists y, z. auto.
  - intros [y [NE [[x [z [-> [-> [F G]]]]] ->]]].
    apply find_some in F. rewrite F. rewrite slice_from_mid. cbn [bind].
    apply find_some in G. rewrite G. apply len_pos in NE. rewrite len_app.
    replace (_ <? _) with true by lia. reflexivity.
Qed.

Lemma offsets_between_total : forall d a b, exists o, offsets_between d a b = Ret o.
Proof.
  intros d a b. unfold offsets_between.
  destruct (find d a) as [i |] eqn:F; [| eauto].
  apply find_some in F. destruct F as [[x [r [-> <-]]] F].
  rewrite slice_from_mid. cbn [bind].
  destruct (find r b) as [j |] eqn:G; [| eauto]. destruct (_ <? _); eauto.
Qed.

Lemma offsets_between_none_proof : forall d a b,
  offsets_between d a b = Ret None <->
  ~ exists y from, y <> [] /\ stands_between d a b y from.
Proof.
  intros d a b. split.
  - intros H [y [from [NE S]]].
    assert (offsets_between d a b = Ret (Some (from, from + len y))) as K
      by (apply offsets_between_some_proof; eauto).
    congruence.
  - intros H. destruct (offsets_between_total d a b) as [[[from to] |] E]; [| exact E].
    apply offsets_between_some_proof in E. destruct E as [y [NE [S _]]]. exfalso. eauto.
Qed.

Lemma stands_between_clear : forall d a b y from, b <> [] -> stands_between d a b y from -> ~ occurs y b.
Proof.
  intros d a b y from NB [x [z [_ [_ [_ [_ F]]]]]] [u [v ->]].
  assert (len (u ++ b ++ v) <= len u) as L.
  { apply F. exists u, (v ++ b ++ z). rewrite <- !app_assoc. auto. }
  apply len_pos in NB. rewrite !len_app in L. lia.
Qed.

Lemma stands_between_unique : forall d a b y from y' from',
  stands_between d a b y from -> stands_between d a b y' from' -> y = y' /\ from = from'.
Proof.
  intros d a b y from y' from' [x [z [D [-> [F G]]]]] [x' [z' [D' [-> [F' G']]]]].
  pose proof (first_at_unique _ _ _ _ F F') as L.
  rewrite D in D'. apply app_inj_len in D'; [| exact L]. destruct D' as [<- D'].
  apply app_inv_head in D'. rewrite <- D' in G'.
  pose proof (first_at_unique _ _ _ _ G G') as L'.
  apply app_inj_len in D'; [| exact L']. destruct D' as [<- _]. auto.
Qed.

(** serverinfo *)
Lemma slice_to_firstn : forall (d : bytes) n, n <= len d -> slice_to d n = Ret (firstn (N.to_nat n) d).
Proof. intros. unfold slice_to. replace (n <=? len d) with true by lia. reflexivity. Qed.

Lemma slice_of_head : forall (d h t : bytes) from y z x, d = h ++ t -> h = x ++ y ++ z -> from = len x ->
  slice d from (from + len y) = Ret y.
Proof. intros. subst. rewrite <- !app_assoc. apply slice_app. Qed.

Lemma serverinfo_string_found : forall E data info, 1280 <= len data -> has_serverinfo data info ->
  serverinfo_string E data = Ret (Ok (to_utf8 E info)).
Proof.
  intros E data info L [NE [from S]]. unfold serverinfo_string.
  change (MAX_OFFSET + MAX_SIZE) with 1280. rewrite slice_to_firstn by exact L.
  change (N.to_nat 1280) with 1280%nat. cbn [bind].
  assert (offsets_between (firstn 1280 data) FULLSERVERINFO QUOTE = Ret (Some (from, from + len info))) as K.
  { apply offsets_between_some_proof. exists info. split; [exact NE |]. split; [exact S | reflexivity]. }
  rewrite K. cbn [bind]. destruct S as [x [z [D [-> _]]]].
  erewrite (slice_of_head data (firstn 1280 data) (skipn 1280 data)).
  - reflexivity.
  - symmetry. apply firstn_skipn.
  - rewrite D, app_assoc. reflexivity.
  - reflexivity.
Qed.

Lemma serverinfo_string_missing : forall E data, 1280 <= len data ->
  (forall info, ~ has_serverinfo data info) ->
  serverinfo_string E data = Ret (Err "Serverinfo not found").
Proof.
  intros E data L H. unfold serverinfo_string.
  change (MAX_OFFSET + MAX_SIZE) with 1280. rewrite slice_to_firstn by exact L.
  change (N.to_nat 1280) with 1280%nat. cbn [bind].
  assert (offsets_between (firstn 1280 data) FULLSERVERINFO QUOTE = Ret None) as K.
  { apply offsets_between_none_proof. intros [y [from [NE S]]]. apply (H y). split; [exact NE | exists from; exact S]. }
  rewrite K. reflexivity.
Qed.

Lemma serverinfo_string_short : forall E data, len data < 1280 ->
  serverinfo_string E data = Panic PSlice.
Proof.
  intros E data L. unfold serverinfo_string, slice_to. change (MAX_OFFSET + MAX_SIZE) with 1280.
  replace (1280 <=? len data) with false by lia. reflexivity.
Qed.

Lemma has_serverinfo_dec : forall data, (exists info, has_serverinfo data info) \/ (forall info, ~ has_serverinfo data info).
Proof.
  intros data.
  destruct (offsets_between_total (firstn 1280 data) serverinfo_mark (lit """")) as [[[from to] |] E].
  - left. apply offsets_between_some_proof in E. destruct E as [y [NE [S _]]]. exists y. split; eauto.
  - right. intros info [NE [from S]]. apply offsets_between_none_proof in E. apply E. eauto.
Qed.

Lemma has_serverinfo_unique : forall data a b, has_serverinfo data a -> has_serverinfo data b -> a = b.
Proof. intros data a b [_ [i A]] [_ [j B]]. eapply stands_between_unique; eauto. Qed.

Lemma serverinfo_found : forall E data info, 1280 <= len data -> has_serverinfo data info ->
  serverinfo E data = Ret (Ok (settings_from E (to_utf8 E info))).
Proof. intros. unfold serverinfo. erewrite serverinfo_string_found by eauto. reflexivity. Qed.

Lemma serverinfo_missing : forall E data, 1280 <= len data -> (forall info, ~ has_serverinfo data info) ->
  serverinfo E data = Ret (Err "Serverinfo not found").
Proof. intros. unfold serverinfo. rewrite serverinfo_string_missing by auto. reflexivity. Qed.

Lemma serverinfo_short : forall E data, len data < 1280 -> serverinfo E data = Panic PSlice.
Proof. intros. unfold serverinfo. rewrite serverinfo_string_short by auto. reflexivity. Qed.

(** status *)
Lemma finished_proof : forall data, has_end_of_demo_print data = true <-> finished data.
Proof.
  intros data. unfold has_end_of_demo_print, finished. rewrite andb_true_iff, beq_eq.
  change END_OF_DEMO with end_of_demo. split.
  - intros [L H]. exists (firstn (N.to_nat (len data - len end_of_demo)) data). split.
    + intros N. assert (len (firstn (N.to_nat (len data - len end_of_demo)) data) = 0) as Z by (rewrite N; reflexivity).
      rewrite len_firstn in Z. lia.
    + transitivity (firstn (N.to_nat (len data - len end_of_demo)) data ++
                    skipn (N.to_nat (len data - len end_of_demo)) data).
      * symmetry. apply firstn_skipn.
      * f_equal. exact H.
  - intros [a [NE ->]]. apply len_pos in NE. rewrite len_app. split; [lia |].
    replace (len a + len end_of_demo - len end_of_demo) with (len a) by lia. apply skipn_len_app.
Qed.

Lemma aborted_proof : forall data, is_aborted data = true <-> occurs data match_stopped.
Proof. intros data. unfold is_aborted. rewrite is_some_find. reflexivity. Qed.

Lemma paused_proof : forall data, is_paused data = true <->
  ~ finished data /\ (occurs data (lit "Server is paused") \/ occurs data (lit "paused the game")).
Proof.
  intros data. unfold is_paused. rewrite <- finished_proof. destruct (has_end_of_demo_print data).
  - split; [discriminate |]. intros [H _]. congruence.
  - rewrite orb_true_iff, !is_some_rfind. split; [intros H; split; [discriminate | exact H] | tauto].
Qed.

(** is_valid *)
Lemma clientinfo_ret : forall E data r, clientinfo_strings E data = Ret r ->
  clientinfo E data = Ret match r with Ok l => Ok (map (clientinfo_from E) l) | Err e => Err e end.
Proof. intros E data [l | e] H; unfold clientinfo; rewrite H; reflexivity. Qed.

Lemma is_valid_true_proof : forall E data, is_valid E data = Ret true <->
  1280 <= len data /\ finished data /\ (exists info, has_serverinfo data info) /\
  (exists s l, clientinfo_strings E data = Ret (Ok (s :: l))).
Proof.
  intros E data. unfold is_valid, has_clients. change MIN_SIZE with 1024. rewrite <- finished_proof. split.
  - destruct (1024 <=? len data) eqn:L; [| discriminate].
    destruct (has_end_of_demo_print data); [| discriminate]. cbn [negb].
    destruct (N.lt_ge_cases (len data) 1280) as [S | G].
    { rewrite serverinfo_short by exact S. discriminate. }
    destruct (has_serverinfo_dec data) as [[info I] | NI].
    2: { rewrite serverinfo_missing by auto. discriminate. }
    erewrite serverinfo_found by eauto. cbn [bind is_ok negb].
    intros H. apply bind_ret_inv in H. destruct H as [r [C H]].
    unfold clientinfo in C. apply bind_ret_inv in C. destruct C as [r' [C D]].
    destruct r' as [[| s l] | e]; inv D; inv H. repeat split; eauto.
  - intros [L [F [[info I] [s [l C]]]]].
    replace (1024 <=? len data) with true by lia. rewrite F. cbn [negb].
    erewrite serverinfo_found by eauto. cbn [bind is_ok negb].
    rewrite (clientinfo_ret _ _ _ C). reflexivity.
Qed.

Lemma is_valid_false_proof : forall E data, is_valid E data = Ret false <->
  len data < 1024 \/ ~ finished data \/
  (1280 <= len data /\ ((forall info, ~ has_serverinfo data info) \/
   exists r, clientinfo_strings E data = Ret r /\ forall s l, r <> Ok (s :: l))).
Proof.
  intros E data. unfold is_valid, has_clients. change MIN_SIZE with 1024. rewrite <- finished_proof.
  destruct (1024 <=? len data) eqn:L; cbn [negb].
  2: { split; [| reflexivity]. intros _. left. lia. }
  destruct (has_end_of_demo_print data); cbn [negb].
  2: { split; [| reflexivity]. intros _. right. left. discriminate. }
  destruct (N.lt_ge_cases (len data) 1280) as [S | G].
  { rewrite serverinfo_short by exact S. split; [discriminate |].
    intros [X | [X | [X _]]]; [lia | congruence | lia]. }
  destruct (has_serverinfo_dec data) as [[info I] | NI].
  2: { rewrite serverinfo_missing by auto. cbn [bind is_ok negb]. split; [| reflexivity]. auto. }
  erewrite serverinfo_found by eauto. cbn [bind is_ok negb]. split.
  - intros H. apply bind_ret_inv in H. destruct H as [r [C H]].
    unfold clientinfo in C. apply bind_ret_inv in C. destruct C as [r' [C D]].
    right. right. split; [exact G |]. right. exists r'. split; [exact C |].
    intros s l ->. inv D. discriminate.
  - intros [X | [X | [_ [X | [r [C X]]]]]]; [lia | congruence | exfalso; eapply X; eauto |].
    rewrite (clientinfo_ret _ _ _ C). destruct r as [[| s l] | e]; try reflexivity.
    exfalso. eapply X. reflexivity.
Qed.

Lemma is_valid_short_proof : forall E data, 1024 <= len data < 1280 -> finished data ->
  is_valid E data = Panic PSlice.
Proof.
  intros E data [L H] F. unfold is_valid. change MIN_SIZE with 1024. apply finished_proof in F.
  replace (1024 <=? len data) with true by lia. rewrite F. cbn [negb].
  rewrite serverinfo_short by exact H. reflexivity.
Qed.
