(** Data behind the last complete frame, and demos that are cut off. *)
From Coq Require Import Lia ZifyN ZifyNat ZifyBool.
From Verif.Model Require Import Base Env Primitives Prot Frame Message Prints Clientinfo Clients FragEvent Frags Flags Ping Ktxstats Duration.
From Verif.Spec Require Import Occ Mvd Messages Texts Clientlist Score Flags Pings Times.
From Verif.Proofs Require Import BaseFacts FrameFacts PrintFacts PrintProps ScoreFacts FlagFacts PingFacts TimeFacts ClientFacts BuildFacts.
Open Scope N_scope.

Lemma slice_extend : forall A (d r : list A) a b, b <= len d -> slice (d ++ r) a b = slice d a b.
Proof.
  intros A d r a b L. unfold slice. rewrite len_app. replace (b <=? len d + len r) with (b <=? len d) by lia.
  destruct ((a <=? b) && (b <=? len d))%bool eqn:C; [| reflexivity]. f_equal. unfold sub_list.
  rewrite skipn_app, firstn_app.
  replace (N.to_nat (b - a) - length (skipn (N.to_nat a) d))%nat with 0%nat by (rewrite skipn_length; unfold len in *; lia).
  rewrite firstn_O, app_nil_r. reflexivity.
Qed.
Lemma slice_to_extend : forall A (d r : list A) b, b <= len d -> slice_to (d ++ r) b = slice_to d b.
Proof.
  intros A d r b L. unfold slice_to. rewrite len_app. replace (b <=? len d + len r) with (b <=? len d) by lia.
  destruct (b <=? len d) eqn:C; [| reflexivity]. f_equal. rewrite firstn_app.
  replace (N.to_nat b - length d)%nat with 0%nat by (unfold len in *; lia). rewrite firstn_O, app_nil_r. reflexivity.
Qed.
Lemma slice_from_extend : forall A (d r : list A) a, a <= len d ->
  slice_from d a = Ret (skipn (N.to_nat a) d) /\ slice_from (d ++ r) a = Ret (skipn (N.to_nat a) d ++ r).
Proof.
  intros A d r a L. unfold slice_from. rewrite len_app. replace (a <=? len d + len r) with true by lia.
  replace (a <=? len d) with true by lia. split; [reflexivity |]. rewrite skipn_app.
  replace (N.to_nat a - length d)%nat with 0%nat by (unfold len in *; lia). reflexivity.
Qed.

Lemma nth_error_first : forall A n k (l : list A), (k < n)%nat -> nth_error (firstn n l) k = nth_error l k.
Proof.
  intros A n. induction n as [| n IH]; intros k l H; [lia |]. destruct l as [| x l]; [reflexivity |].
  destruct k as [| k]; [reflexivity |]. cbn [firstn nth_error]. apply IH. lia.
Qed.

(** ** The clients *)
Lemma clientinfo_loop_extend : forall E data rest max fuel fuel' offset acc,
  (length data < fuel + N.to_nat offset)%nat -> (length (data ++ rest) < fuel' + N.to_nat offset)%nat ->
  (0 < fuel)%nat -> (0 < fuel')%nat -> offset < max -> max + 762 <= len data ->
  clientinfo_loop E fuel' (data ++ rest) max offset acc = clientinfo_loop E fuel data max offset acc.
Proof.
  intros E data rest max. induction fuel as [| fuel IH]; intros fuel' offset acc F1 F2 P1 P2 O L; [lia |].
  destruct fuel' as [| fuel']; [lia |]. rewrite !clientinfo_loop_S. change MAX_LOOKAHEAD with 512.
  rewrite slice_extend by lia. apply bind_ext. intros window W.
  destruct (find window NAME) as [o |] eqn:N; [| reflexivity].
  assert (LO : o + 6 <= 512).
  { apply find_some in N. destruct N as [[a [b [D <-]]] _]. apply slice_inv in W. destruct W as [p [q [_ [_ [LW _]]]]].
    rewrite D, !len_app in LW. change (len NAME) with 6 in LW. lia. }
  rewrite slice_to_extend by lia. apply bind_ext. intros before B.
  destruct (rfind_byte before x00) as [z |] eqn:Z; [| reflexivity].
  assert (LZ : z + 1 <= offset + o).
  { apply rfind_byte_some in Z. destruct Z as [a [c [D [<- _]]]]. unfold slice_to in B. destruct (_ <=? _); [| discriminate].
    injection B as B. assert (len before <= offset + o) by (rewrite <- B, len_firstn; lia).
    rewrite D, len_app, len_cons in H. lia. }
  destruct (slice_from_extend _ data rest (z + 1)) as [S1 S2]; [lia |]. rewrite S1, S2. cbn [bind].
  set (after := skipn (N.to_nat (z + 1)) data).
  assert (LA : len after = len data - (z + 1)) by (unfold after; rewrite len_skipn; lia).
  destruct (find_byte after x00) as [t |] eqn:T.
  - assert (T' : find_byte (after ++ rest) x00 = Some t).
    { apply find_byte_some in T. destruct T as [a [c [-> [<- NA]]]]. rewrite <- app_assoc. apply find_byte_app. exact NA. }
    rewrite T'. assert (LT : t < len after).
    { apply find_byte_some in T. destruct T as [a [c [-> [<- _]]]]. rewrite len_app, len_cons. lia. }
    destruct ((_ <=? z + 1 + t - (z + 1)) && _)%bool eqn:C; [| reflexivity].
    rewrite slice_extend by lia. apply bind_ext. intros d D.
    destruct (max <=? z + 1 + t) eqn:X; [reflexivity |].
    assert (offset < z + 1 + t).
    { assert (NT : nth_error data (N.to_nat (z + 1 + t)) = Some x00).
      { apply find_byte_some in T. destruct T as [a [c [TA [TL _]]]]. unfold after in TA.
        rewrite <- (firstn_skipn (N.to_nat (z + 1)) data), TA. rewrite nth_error_app2 by (rewrite firstn_length; unfold len in *; lia).
        rewrite firstn_length. replace (N.to_nat (z + 1 + t) - Nat.min (N.to_nat (z + 1)) (length data))%nat with (length a)
          by (unfold len in *; lia). rewrite nth_error_app2, Nat.sub_diag by lia. reflexivity. }
      assert (NN : nth_error data (N.to_nat (offset + o)) = Some x5c).
      { apply find_some in N. destruct N as [[a [b [D' LO']]] _]. apply slice_inv in W. destruct W as [p [q [D2 [LP _]]]].
        rewrite D2, D'. rewrite nth_error_app2 by (unfold len in *; lia). rewrite nth_error_app1 by (rewrite !app_length; change (length NAME) with 6%nat; unfold len in *; lia).
        rewrite nth_error_app2 by (unfold len in *; lia).
        replace (N.to_nat (offset + o) - length p - length a)%nat with 0%nat by (unfold len in *; lia). reflexivity. }
      apply N.lt_nge. intros G. assert (z + 1 + t < offset + o \/ z + 1 + t = offset + o) as [K | K] by lia.
      - apply rfind_byte_some in Z. destruct Z as [a [c [DB [LZ' NC]]]]. unfold slice_to in B. destruct (_ <=? len data); [| discriminate].
        injection B as B. assert (nth_error before (N.to_nat (z + 1 + t)) = Some x00) as NB.
        { rewrite <- B. rewrite nth_error_first by lia. exact NT. }
        rewrite DB, nth_error_app2 in NB by (unfold len in *; lia).
        destruct (N.to_nat (z + 1 + t) - length a)%nat as [| k] eqn:KK; [unfold len in *; lia |]. cbn [nth_error] in NB.
        apply nth_error_In in NB. contradiction.
      - rewrite K, NN in NT. discriminate. }
    rewrite app_length in F2. apply IH; try rewrite app_length; unfold len in *; lia.
  - destruct (find_byte (after ++ rest) x00) as [t |] eqn:T'; [| reflexivity].
    assert (len after <= t).
    { apply find_byte_some in T'. destruct T' as [a [c [D [<- NA]]]]. apply find_byte_none in T.
      destruct (N.le_gt_cases (len after) (len a)) as [G | G]; [exact G | exfalso]. apply T.
      symmetry in D. apply app_eq_prefix in D; [| lia]. destruct D as [e [-> D]]. apply in_or_app. right.
      destruct e as [| y e]; [rewrite app_nil_r in G; lia |]. injection D as <- _. left. reflexivity. }
    replace (z + 1 + t - (z + 1) <=? 256) with false by lia.
    rewrite Bool.andb_false_r. reflexivity.
Qed.

Lemma clientinfo_strings_extend : forall E data rest spawn, first_at data spawn_mark spawn -> spawn + 13050 <= len data ->
  clientinfo_strings E (data ++ rest) = clientinfo_strings E data.
Proof.
  intros E data rest spawn F L. unfold clientinfo_strings. change CMD_SPAWN with spawn_mark.
  rewrite (proj2 (find_some _ _ _) F), (proj2 (find_some _ _ _) (first_at_extend data rest spawn_mark spawn F)).
  rewrite (clientinfo_loop_extend E data rest _ (S (length data))); [reflexivity | lia | lia | lia | lia | |];
    change (MAX_PLAYERS * MAX_LOOKAHEAD) with 12288; lia.
Qed.

Lemma clients_extend : forall E data rest spawn, first_at data spawn_mark spawn -> spawn + 13050 <= len data ->
  clients E (data ++ rest) = clients E data.
Proof. intros. unfold clients, clientinfo. rewrite (clientinfo_strings_extend E data rest spawn) by assumption. reflexivity. Qed.

Lemma clients_none : forall E data rest, ~ occurs (data ++ rest) spawn_mark -> clients E (data ++ rest) = clients E data.
Proof.
  intros E data rest N. assert (N' : ~ occurs data spawn_mark).
  { intros [a [b D]]. apply N. exists a, (b ++ rest). rewrite D, <- !app_assoc. reflexivity. }
  apply (clientinfo_strings_missing_proof E) in N, N'. unfold clients, clientinfo. rewrite N, N'. reflexivity.
Qed.

(** ** Quiet tails *)
Section Tail.
  Context (E : env) (fs : list frame) (rest : bytes) (W : wf fs) (Q : stops (len (encode fs ++ rest)) rest).

  Lemma whole_eq : encode fs = encode fs ++ [].
  Proof. rewrite app_nil_r. reflexivity. Qed.
  Lemma prints_tail : prints E (encode fs ++ rest) = prints E (encode fs).
  Proof. rewrite whole_eq at 2. rewrite !prints_quiet; [reflexivity | exact W | exact I | exact W | exact Q]. Qed.

  Lemma announces_all : forall gs, exists anns, Forall2 (announces E) gs anns.
  Proof.
    induction gs as [| f gs [l H]]; [exists []; constructor |]. destruct (announces_exists_proof E f) as [t T].
    exists (t :: l). constructor; assumption.
  Qed.
  Lemma flags_tail : flag_events_per_player_name E (encode fs ++ rest) = flag_events_per_player_name E (encode fs).
  Proof.
    unfold flag_events_per_player_name. destruct (announces_all fs) as [anns A]. rewrite whole_eq at 2.
    rewrite (flag_prints_quiet E fs rest anns), (flag_prints_quiet E fs [] anns); auto. exact I.
  Qed.

  Lemma pings_tail : ping_per_player_number E (encode fs ++ rest) = ping_per_player_number E (encode fs).
  Proof.
    unfold ping_per_player_number. rewrite whole_eq at 2. destruct (sample_quiet E fs rest W Q) as [n ->].
    destruct (sample_quiet E fs [] W I) as [n' ->]. reflexivity.
  Qed.

  Lemma frags_tail : clients E (encode fs ++ rest) = clients E (encode fs) ->
    frags_per_player_name E (encode fs ++ rest) = frags_per_player_name E (encode fs).
  Proof.
    intros C. transitivity (frags_per_player_name E (encode fs ++ [])); [| rewrite app_nil_r; reflexivity].
    assert (C' : clients E (encode fs ++ rest) = clients E (encode fs ++ [])) by (rewrite app_nil_r; exact C).
    unfold frags_per_player_name. rewrite print_frames_quiet by assumption.
    rewrite print_frames_quiet by (first [assumption | exact I]). cbn [bind]. apply foldM_ext. intros tbl [p idx] H.
    apply in_map_iff in H. destruct H as [[[m i] s] [H1 H2]]. injection H1 as <- <-.
    apply (obits_at_prefix fs []) in H2. destruct H2 as [q [E1 [E2 [E3 E4]]]]. cbn [app] in E1.
    unfold score_print. cbn [fst snd]. destruct (frag_event_from _) as [[] |]; try reflexivity. unfold find_team_killer.
    destruct (nearby_spec E (encode fs ++ rest) q m s rest) as [c1 N1]; auto; [rewrite E1, <- app_assoc; reflexivity |].
    destruct (nearby_spec E (encode fs ++ []) q m s []) as [c2 N2]; auto; [rewrite E1, <- app_assoc; reflexivity | exact I |].
    rewrite <- E2, N1, N2, C'. reflexivity.
  Qed.
End Tail.


(** ** Demos that are cut off *)
Lemma cut_exists : forall fs k, k < len (encode fs) -> exists whole f j, cut_inside fs k whole f j.
Proof.
  intros fs k L. destruct (cut_frames fs k L) as [fs1 [f [fs2 [j [H1 [H2 H3]]]]]]. exists fs1, f, j.
  split; [eauto |]. split; [exact H2 |]. split; [| exact H3].
  apply (f_equal len) in H3. rewrite len_app, !len_firstn in H3. lia.
Qed.

Lemma header_hdr : forall f, wf_frame f -> header_len f = hdr (f_type f).
Proof.
  intros f [M B]. unfold header_len, encode_frame, hdr. rewrite !len_cons, !len_app, M.
  destruct (has_length (f_type f)).
  - change (len (enc32 (len (f_body f)))) with 4. lia.
  - rewrite len_nil. lia.
Qed.

Lemma wf_app_inv : forall (a b : list frame) f, wf (a ++ f :: b) -> wf a /\ wf_frame f.
Proof. intros a b f W. unfold wf in *. apply Forall_app in W. destruct W as [W1 W2]. inversion W2. auto. Qed.

Lemma cut_header : forall fs k whole f j, wf fs -> cut_inside fs k whole f j ->
  let rest := firstn (N.to_nat j) (encode_frame f) in
  wf whole /\ (j < header_len f \/ k < len (encode_frame f) -> stops (len (encode whole ++ rest)) rest) /\
  (header_len f <= j -> len (encode_frame f) <= k -> overruns (len (encode whole ++ rest)) rest).
Proof.
  intros fs k whole f j W [[more ->] [L [-> D]]] rest. apply wf_app_inv in W. destruct W as [W1 W2].
  pose proof (announced_prefix f j W2 L) as A. fold rest in A. rewrite header_hdr by exact W2.
  assert (LR : len rest = j) by (unfold rest; rewrite len_firstn; lia).
  split; [exact W1 |]. split.
  - intros H. unfold stops. rewrite A, len_app, LR. destruct (j <? hdr (f_type f)) eqn:C; [exact I | lia].
  - intros H1 H2. exists (len (encode_frame f)). rewrite len_app, LR. rewrite A. destruct (j <? hdr (f_type f)) eqn:C; [lia |].
    split; [reflexivity | lia].
Qed.

Lemma pings_enough : forall E fs rest, wf fs -> 8 <= len (ping_frames fs) ->
  ping_per_player_number E (encode fs ++ rest) = ping_per_player_number E (encode fs).
Proof.
  intros E fs rest W L. unfold ping_per_player_number. rewrite (whole_eq fs) at 2.
  rewrite (sample_enough E fs rest W L), (sample_enough E fs [] W L). reflexivity.
Qed.
