(** Demos so long that a clock or a score overflows: none of them is ever computed. *)
From Coq Require Import Lia ZifyN ZifyNat ZifyBool.
From Verif.Model Require Import Base Env Prot Frame Bytesextra Serverinfo Clientinfo Clients FragEvent Frags Matchdate Duration.
From Verif.Spec Require Import Occ Mvd Messages Times Clock Obituary Score Wrap Panics Splice.
From Verif.Proofs Require Import BaseFacts TimeFacts SpliceFacts ClockFacts WrapFacts PanicFacts ObituaryFacts TextFacts.
Open Scope N_scope.

Lemma without : forall b d p, In b p -> ~ In b d -> ~ occurs d p.
Proof. intros b d p I NI [x [y E]]. apply NI. rewrite E. apply in_or_app. right. apply in_or_app. left. exact I. Qed.

Lemma encode_repeat_in : forall f n b, In b (encode (repeat f n)) -> In b (encode_frame f).
Proof.
  intros f n b. induction n as [| n IH]; [intros [] |]. cbn [repeat]. unfold encode. cbn [map concat]. intros I.
  apply in_app_or in I. destruct I as [I | I]; [exact I | exact (IH I)].
Qed.

Lemma encode_repeat_len : forall f n, len (encode (repeat f n)) = N.of_nat n * len (encode_frame f).
Proof.
  intros f n. induction n as [| n IH]; [reflexivity |]. cbn [repeat]. unfold encode in *. cbn [map concat]. rewrite len_app, IH. lia.
Qed.

Definition idle : frame := mkFrame xff x06 [] [].
Lemma idle_time : forall n, all_time (repeat idle n) = 255 * N.of_nat n.
Proof.
  intros n. induction n as [| n IH]; [reflexivity |]. unfold all_time in *. cbn [repeat map fold_right]. rewrite IH.
  change (n_of (f_time idle)) with 255. lia.
Qed.
Lemma idle_wf : forall n, wf (repeat idle n).
Proof. intros n. apply Forall_forall. intros f I. apply repeat_spec in I. subst f. split; reflexivity. Qed.
Lemma idle_in : forall n b, In b (encode (repeat idle n)) -> b = xff \/ b = x06 \/ b = x00.
Proof. intros n b I. apply encode_repeat_in in I. vm_compute in I. intuition. Qed.

Section Idle.
  Context (n : nat) (B : 16843010 <= N.of_nat n).

  Lemma idle_end : end_marker (encode (repeat idle n)) (len (encode (repeat idle n))).
  Proof.
    right. right. split; [| split; [| reflexivity]].
    - apply (without x54); [left; reflexivity |]. intros I. apply idle_in in I. intuition discriminate.
    - apply (without x34); [left; reflexivity |]. intros I. apply idle_in in I. intuition discriminate.
  Qed.
  Lemma idle_elapsed : elapsed (len (encode (repeat idle n))) (repeat idle n) = 255 * N.of_nat n.
  Proof.
    pose proof (elapsed_second (repeat idle n) [] 0) as H. rewrite app_nil_r, N.add_0_r in H. rewrite H, idle_time.
    change (elapsed 0 []) with 0. lia.
  Qed.

  Lemma idle_demo : forall E E', checked E = true -> checked E' = false ->
    demo_duration E (encode (repeat idle n)) <> demo_duration E' (encode (repeat idle n)).
  Proof.
    intros E E' C C' EQ.
    assert (O : 4294967296 <= elapsed (len (encode (repeat idle n))) (repeat idle n)) by (rewrite idle_elapsed; lia).
    pose proof (demo_duration_overflow_proof E (repeat idle n) [] (len (encode (repeat idle n))) (idle_wf n)) as A.
    rewrite app_nil_r, C in A. specialize (A I idle_end O).
    rewrite A in EQ. symmetry in EQ. destruct (demo_duration_within E' _ _ EQ) as [_ X]. specialize (X eq_refl). congruence.
  Qed.

  Lemma idle_seeking : forall E E', checked E = true -> checked E' = false ->
    match_duration_from_seeking E (encode (repeat idle n)) <> match_duration_from_seeking E' (encode (repeat idle n)).
  Proof.
    intros E E' C C' EQ.
    assert (O : 4294967296 <= elapsed (len (encode (repeat idle n))) (repeat idle n)) by (rewrite idle_elapsed; lia).
    pose proof (seeking_stops_proof E (repeat idle n) [] (len (encode (repeat idle n))) (idle_wf n) I) as A.
    rewrite app_nil_r in A. destruct (A idle_end) as [S _]. rewrite C in S.
    rewrite (S POverflow) in EQ by (apply clock_overflows; [reflexivity | exact O]).
    symmetry in EQ. destruct (seeking_within E' _ _ EQ) as [_ X]. specialize (X eq_refl). congruence.
  Qed.

  (** and then the match starts *)
  Definition dated_frame : frame := mkFrame x00 x06 [] matchdate_marker.
  Definition waited : list frame := repeat idle n ++ [dated_frame].
  Lemma waited_bytes : encode waited = encode (repeat idle n) ++ [x00; x06; x0d; x00; x00; x00] ++ matchdate_marker.
  Proof. unfold waited, encode. rewrite map_app, concat_app. reflexivity. Qed.
  Lemma waited_at : exists c, first_at (encode waited) matchdate_marker c /\ len (encode (repeat idle n)) <= c.
  Proof.
    destruct (find (encode waited) matchdate_marker) as [c |] eqn:F.
    - apply find_some in F. exists c. split; [exact F |]. destruct F as [[a [b [H L]]] _]. rewrite waited_bytes in H. subst c.
      destruct (N.lt_ge_cases (len a) (len (encode (repeat idle n)))) as [LT |]; [exfalso | assumption].
      assert (In x08 (encode (repeat idle n))).
      { assert (S : firstn (length (encode (repeat idle n))) (a ++ matchdate_marker ++ b) = encode (repeat idle n))
          by (rewrite <- H, firstn_app, Nat.sub_diag, firstn_all, firstn_O, app_nil_r; reflexivity).
        rewrite <- S. rewrite firstn_app. apply in_or_app. right.
        destruct (length (encode (repeat idle n)) - length a)%nat eqn:K; [unfold len in LT; lia |]. left. reflexivity. }
      apply idle_in in H0. intuition discriminate.
    - apply find_none in F. exfalso. apply F. rewrite waited_bytes. rewrite app_assoc. eexists. exists []. rewrite app_nil_r. reflexivity.
  Qed.
  Lemma waited_info : forall E, serverinfo E (encode waited) = Ret (Err "Serverinfo not found").
  Proof.
    intros E.
    assert (NF : ~ In x66 (encode waited)).
    { rewrite waited_bytes. intros I. apply in_app_or in I. destruct I as [I | I]; [apply idle_in in I; intuition discriminate |].
      vm_compute in I. intuition discriminate. }
    unfold serverinfo, serverinfo_string. rewrite slice_to_firstn.
    2: { rewrite waited_bytes, len_app, encode_repeat_len. change (len (encode_frame idle)) with 6. unfold MAX_OFFSET, MAX_SIZE. lia. }
    cbn [bind]. unfold offsets_between.
    match goal with |- context [find ?h ?p] => destruct (find h p) as [o |] eqn:F end; [| reflexivity].
    exfalso. apply find_some in F. destruct F as [[a [b [H _]]] _]. apply NF.
    rewrite <- (firstn_skipn (N.to_nat (MAX_OFFSET + MAX_SIZE)) (encode waited)). apply in_or_app. left.
    rewrite H. apply in_or_app. right. left. reflexivity.
  Qed.
  Lemma waited_wf : wf waited.
  Proof. apply Forall_app. split; [apply idle_wf |]. constructor; [split; reflexivity | constructor]. Qed.
  Lemma waited_countdown : forall E E', checked E = true -> checked E' = false ->
    countdown_duration E (encode waited) <> countdown_duration E' (encode waited).
  Proof.
    intros E E' C C' EQ. destruct waited_at as [c [F L]].
    destruct (countdown_any_proof E waited [] waited_wf I) as [_ A]. rewrite app_nil_r in A.
    destruct (A _ (waited_info E)) as [_ A']; [discriminate |]. destruct (A' c F) as [r [CL V]].
    assert (O : 4294967296 <= elapsed c waited).
    { replace c with (len (encode (repeat idle n)) + (c - len (encode (repeat idle n)))) by lia.
      unfold waited. rewrite elapsed_second, idle_time. lia. }
    rewrite C in CL. inversion CL as [S [S' | S'] | | V' | V']; subst; try lia; try discriminate; try (destruct V').
    all: cbn [in_ns] in V; rewrite V in EQ; symmetry in EQ; destruct (countdown_within E' _ _ EQ) as [_ X]; specialize (X eq_refl); congruence.
  Qed.
End Idle.

(** one player who is killed again and again *)
Definition kill : frame := mkFrame x01 x06 [] (x08 :: x01 :: lit "anna rides bert's rocket" ++ [x00]).
Definition kill_message : message := mkMessage x01 (lit "anna rides bert's rocket").
Lemma kill_wf : forall n, wf (repeat kill n).
Proof. intros n. apply Forall_forall. intros f I. apply repeat_spec in I. subst f. split; reflexivity. Qed.
Lemma kills_read : forall n, exists l, obituaries (repeat kill n) = map (fun s => (kill_message, s)) l /\ length l = n.
Proof.
  induction n as [| n [l [IH L]]]; [exists []; split; reflexivity |].
  exists (repeat kill (S n) :: l). split; [| cbn [length]; rewrite L; reflexivity].
  cbn [repeat map]. rewrite <- IH. reflexivity.
Qed.
Lemma kills_long : forall n E E', 2147483648 <= N.of_nat n -> to_unicode E = (fun s => s) -> checked E = true -> checked E' = false ->
  frags_per_player_name E (encode (repeat kill n)) <> frags_per_player_name E' (encode (repeat kill n)).
Proof.
  intros n E E' B U C C' EQ.
  assert (NC : clients E (encode (repeat kill n)) = Ret (Err "Unable to find clientinfo strings")).
  { unfold clients, clientinfo, clientinfo_strings.
    destruct (find (encode (repeat kill n)) CMD_SPAWN) as [o |] eqn:F; [| reflexivity]. exfalso.
    apply find_some in F. destruct F as [[a [b [H _]]] _].
    apply (without x77 (encode (repeat kill n)) CMD_SPAWN); [vm_compute; intuition | | exists a, b; exact H].
    intros I. apply encode_repeat_in in I. vm_compute in I. intuition discriminate. }
  destruct (kills_read n) as [l [OB L]].
  destruct (scores_any_proof E (repeat kill n) [] (Err "Unable to find clientinfo strings") (map (fun _ => [(lit "bert", 1%Z)]) l) (kill_wf n) I) as [[_ [_ P]] | [NL _]].
  - rewrite app_nil_r. exact NC.
  - rewrite OB. clear - U. induction l as [| s l IH]; [constructor |]. cbn [map]. constructor; [| exact IH].
    exists (lit "anna rides bert's rocket"). rewrite U. cbn [m_text kill_message]. split; [apply trimmed_iff; vm_compute; reflexivity |].
    left. exists (Frag (lit "bert") (lit "anna")). split; [apply reads_iff; vm_compute; reflexivity | reflexivity].
  - rewrite app_nil_r in P. rewrite P in EQ. symmetry in EQ. destruct (frags_within E' _ _ EQ) as [_ X]. specialize (X eq_refl). congruence.
  - apply NL; [exact C |].
    replace (concat (map (fun _ => [(lit "bert", 1%Z)]) l)) with (repeat (lit "bert", 1%Z) n).
    + apply many_kills. lia.
    + rewrite <- L. clear. induction l as [| s l IH]; [reflexivity |]. cbn [map concat length repeat app]. rewrite IH. reflexivity.
Qed.
