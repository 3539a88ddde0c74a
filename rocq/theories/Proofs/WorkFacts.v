(** How much the loops of the source have to do. *)
From Coq Require Import Lia ZifyN ZifyNat ZifyBool.
From Verif.Model Require Import Base Env Primitives Prot Frame Message Prints FlagEvent Flags Frags Float Ping Clientinfo Ktxstats.
From Verif.Spec Require Import Texts Mvd Loops Work.
From Verif.Proofs Require Import BaseFacts FrameFacts PrintFacts PrintProps PingFacts StatsFacts ClientFacts ScoreFacts FlagFacts
  BuildFacts LoopFacts.
Open Scope N_scope.

(** ** Rounds *)
Lemma frame_rounds_from : forall St E data (body : St -> info -> M (St + St) -> Prop) n s o, ends (frame_round E data body) n s o ->
  (2 * n <= length data + 2 - Nat.min (length data) (N.to_nat (fst s)))%nat.
Proof.
  intros St E data body n s o H. induction H as [n s s' o A B IH | s r A | s p A]; [| lia | lia].
  inversion A as [| | index st i st' Q X | |]; subst. cbn [fst] in *. apply fdi_ok in Q. destruct Q as [L [Z _]]. unfold len in L. 
  destruct (Nat.le_gt_cases (length data) (N.to_nat (index + i_size i))) as [G | G]; lia.
Qed.

Lemma frame_rounds : forall St E data (body : St -> info -> M (St + St) -> Prop) n s o, ends (frame_round E data body) n s o ->
  (2 * n <= length data + 2)%nat.
Proof. intros St E data body n s o H. apply frame_rounds_from in H. lia. Qed.

Lemma nth_skip : forall (l : bytes) n i, nth_error (skipn n l) i = nth_error l (n + i).
Proof. induction l as [| a l IH]; intros [| n] i; cbn [skipn Nat.add]; try reflexivity; [destruct i; reflexivity | apply IH]. Qed.
Lemma nth_first : forall (l : bytes) n i, (i < n)%nat -> nth_error (firstn n l) i = nth_error l i.
Proof. induction l as [| a l IH]; intros [| n] [| i] H; try lia; try reflexivity. cbn [firstn nth_error]. apply IH. lia. Qed.

(** One round of the search for clients that goes on. *)
Lemma clientinfo_goes_on : forall E data max offset l offset' l', clientinfo_round E data max (offset, l) = Ret (inl (offset', l')) ->
  offset < offset' < max /\ nth_error data (N.to_nat offset') = Some x00 /\
  (nth_error data (N.to_nat offset) = Some x00 -> offset + 8 <= offset').
Proof.
  intros E data max offset l offset' l' H. unfold clientinfo_round in H.
  destruct (slice data offset (offset + 512)) as [window | p |] eqn:W; [| discriminate | discriminate].
  pose proof (slice_bounds _ _ _ _ _ W) as [_ W2]. rewrite slice_ret in W by lia. injection W as W. unfold sub_list in W.
  destruct (find window (lit "\name\")) as [o |] eqn:FI; [| discriminate]. apply find_some in FI. destruct FI as [[x [y [D L]]] _].
  destruct (rfind_byte (firstn (N.to_nat (offset + o)) data) x00) as [z |] eqn:Z; [| discriminate].
  destruct (find_byte (skipn (N.to_nat (z + 1)) data) x00) as [t |] eqn:T; [| discriminate].
  destruct ((t <? 7) || (256 <? t)) eqn:C; [discriminate |]. destruct (max <=? z + 1 + t) eqn:M; [discriminate |]. injection H as <- _.
  assert (nth_error data (N.to_nat (z + 1 + t)) = Some x00) as N1.
  { apply find_byte_some in T. destruct T as [u [v [X [LU _]]]]. replace (N.to_nat (z + 1 + t)) with (N.to_nat (z + 1) + length u)%nat by (unfold len in LU; lia).
    rewrite <- nth_skip, X. rewrite nth_error_app2, Nat.sub_diag by lia. reflexivity. }
  assert (nth_error data (N.to_nat (offset + o)) = Some x5c) as N3.
  { replace (N.to_nat (offset + o)) with (N.to_nat offset + length x)%nat by (unfold len in L; lia). rewrite <- nth_skip.
    rewrite <- (nth_first _ (N.to_nat (offset + 512 - offset))).
    - rewrite W, D, nth_error_app2, Nat.sub_diag by lia. reflexivity.
    - apply (f_equal (@length byte)) in W. rewrite firstn_length, D, !app_length in W. change (length (lit "\name\")) with 6%nat in W. lia. }
  assert (forall j, z < j -> j < offset + o -> nth_error data (N.to_nat j) <> Some x00) as N2.
  { apply rfind_byte_some in Z. destruct Z as [a [c [X [LA NI]]]]. intros j J1 J2 Y. rewrite <- (nth_first _ (N.to_nat (offset + o))), X in Y by lia.
    unfold len in LA. rewrite nth_error_app2 in Y by lia. destruct (N.to_nat j - length a)%nat as [| k] eqn:K; [lia |]. cbn [nth_error] in Y.
    apply NI. eapply nth_error_In. exact Y. }
  assert (offset + o < z + 1 + t) as G.
  { destruct (N.lt_trichotomy (offset + o) (z + 1 + t)) as [Q | [Q | Q]]; [exact Q | rewrite <- Q, N3 in N1; discriminate |].
    exfalso. apply (N2 (z + 1 + t)); [lia | exact Q | exact N1]. }
  split; [lia |]. split; [exact N1 |]. intros N0.
  assert (offset <= z); [| lia]. destruct (N.le_gt_cases offset z) as [Q | Q]; [exact Q | exfalso].
  assert (o <> 0) as NZ by (intros ->; rewrite N.add_0_r, N0 in N3; discriminate). apply (N2 offset); [exact Q | lia | exact N0].
Qed.

Lemma clientinfo_rounds_from : forall E data max n s o, ends (just (clientinfo_round E data max)) n s o -> fst s < max ->
  nth_error data (N.to_nat (fst s)) = Some x00 -> (8 * N.of_nat n <= max - fst s + 15).
Proof.
  intros E data max n s o H. induction H as [n [offset l] [offset' l'] o A B IH | s r A | s p A]; intros LT NU; [| lia | lia].
  unfold just in A. symmetry in A. apply clientinfo_goes_on in A. destruct A as [A1 [A2 A3]]. cbn [fst] in *. specialize (A3 NU). specialize (IH ltac:(lia) A2). lia.
Qed.

Lemma clientinfo_rounds_proof : forall E data offset n l o, ends (just (clientinfo_round E data (offset + 24 * 512))) n (offset, l) o -> (n <= 1538)%nat.
Proof.
  intros E data offset n l o H. inversion H as [m s [offset' l'] o' A B | s r A | s p A]; subst; [| lia | lia].
  unfold just in A. symmetry in A. apply clientinfo_goes_on in A. destruct A as [A1 [A2 _]]. apply clientinfo_rounds_from in B; cbn [fst] in *; [lia | lia | exact A2].
Qed.

Lemma stats_rounds_proof : forall E data offset l n o, len data < 2 ^ 63 -> ends (stats_round E data) n (offset, l) o -> 18 * N.of_nat n <= len data + 36.
Proof.
  intros E data offset l n o B H.
  assert (forall n s o, ends (stats_round E data) n s o -> fst s <= len data -> 18 * N.of_nat n <= len data - fst s + 18) as G.
  { intros n' s o' X. induction X as [m s s' o' A X IH | s r A | s p A]; intros L; [| lia | lia].
    inversion A as [| | | | | off c b part to K D NB SL TO]; subst. cbn [fst] in *.
    destruct (uadd E usize_bound off 18) as [from | |] eqn:A1; cbn [bind] in *; [| discriminate | discriminate]. rewrite TO in SL. cbn [bind] in SL.
    apply slice_bounds in SL. rewrite uadd_small in A1 by (unfold usize_bound; lia). injection A1 as <-. specialize (IH ltac:(lia)). lia. }
  inversion H as [m s s' o' A X | s r A | s p A]; subst; [| lia | lia].
  inversion A as [| | | | | off c b part to K D NB SL TO]; subst. apply G in X; cbn [fst] in *; [lia |].
  destruct (uadd E usize_bound offset 18) as [from | |] eqn:A1; cbn [bind] in *; [| discriminate | discriminate]. rewrite TO in SL. cbn [bind] in SL.
  apply slice_bounds in SL. lia.
Qed.

(** ** Frames and messages *)
Lemma fdi_body : forall E data index i, from_data_and_index E data index = Ret (Ok i) ->
  i_header_size i + i_body_size i = i_size i /\ 2 <= i_header_size i /\ i_body_range i = (index + i_header_size i, index + i_size i) /\ index + 2 <= len data.
Proof.
  intros E data index i H. pose proof (fdi_ok _ _ _ _ H) as [K _].
  pose proof (firstn_skipn (N.to_nat index) data) as D. set (p := firstn _ data) in *. set (d := skipn _ data) in *.
  assert (LP : len p = index) by (unfold p, len in *; rewrite firstn_length; lia).
  rewrite <- D, <- LP in H. destruct (announced d) as [s |] eqn:A.
  - destruct (announced_inv _ _ A) as [time [t [r [R [HS _]]]]]. rewrite (fdi_some E p d s time t r A R) in H.
    destruct (len (p ++ d) <? s); [discriminate |]. injection H as <-. pose proof (hdr_pos t).
    cbn [info_at i_size i_index i_header_size i_body_size i_body_range]. rewrite LP. repeat split; lia.
  - destruct (fdi_none E p d A) as [e H']. rewrite H' in H. discriminate.
Qed.

Section Frames.
  Context {St : Type} (E : env) (data : bytes) (body : St -> info -> M (St + St) -> Prop) (reads : St -> bytes -> nat -> Prop).
  Hypothesis FEW : forall st b n, reads st b n -> (n <= length b + 1)%nat.
  Hypothesis SOME : forall st b, exists n, reads st b n.

  Lemma cost_small : forall s c, frame_cost E data reads s c ->
    c = 1%nat \/ exists i, from_data_and_index E data (fst s) = Ret (Ok i) /\ N.of_nat c <= i_size i /\ fst s + i_size i <= len data.
  Proof.
    intros s c H. destruct H as [index st i b n Q NZ B R | index st Q]; [right | auto]. exists i. cbn [fst]. split; [exact Q |].
    apply fdi_body in Q. destruct Q as [Q1 [Q2 [Q3 _]]]. unfold body_is in B. rewrite Q3 in B. cbn [fst snd] in B.
    pose proof (slice_bounds _ _ _ _ _ B) as Z. apply FEW in R. rewrite slice_ret in B by lia. injection B as B. apply (f_equal (@length byte)) in B.
    unfold sub_list in B. rewrite firstn_length, skipn_length in B. unfold len, bytes in *. lia.
  Qed.

  Lemma cost_some : forall s, exists c, frame_cost E data reads s c.
  Proof.
    intros [index st]. destruct (from_data_and_index E data index) as [[i | e] | p |] eqn:Q.
    2-4: exists 1%nat; apply cost_no_body; intros; congruence.
    destruct (i_body_size i =? 0) eqn:Z.
    - exists 1%nat. apply cost_no_body. intros j b J NZ. rewrite Q in J. injection J as <-. lia.
    - destruct (slice data (fst (i_body_range i)) (snd (i_body_range i))) as [b | p |] eqn:B.
      + destruct (SOME st b) as [n R]. exists (1 + n)%nat. apply cost_body with i b; [exact Q | lia | exact B | exact R].
      + exists 1%nat. apply cost_no_body. intros j b' J NZ B'. rewrite Q in J. injection J as <-. unfold body_is in B'. congruence.
      + exists 1%nat. apply cost_no_body. intros j b' J NZ B'. rewrite Q in J. injection J as <-. unfold body_is in B'. congruence.
  Qed.

  Lemma work_from : forall n s, total (frame_round E data body) (frame_cost E data reads) n s -> N.of_nat n + N.min (len data) (fst s) <= len data + 2.
  Proof.
    intros n s H. induction H as [n c s s' A C T IH | c s o A NO C].
    - inversion A as [| | index st i st' Q X | |]; subst. cbn [fst] in *. pose proof (fdi_body _ _ _ _ Q) as [Q1 [Q2 [_ Q4]]].
      apply cost_small in C. destruct C as [-> | [j [J C]]]; [lia |]. cbn [fst] in *. rewrite Q in J. injection J as <-. lia.
    - apply cost_small in C. destruct C as [-> | [j [J C]]]; [lia |]. lia.
  Qed.

  Lemma work_some : forall n s o, ends (frame_round E data body) n s o -> exists k, total (frame_round E data body) (frame_cost E data reads) k s.
  Proof.
    intros n s o H. induction H as [n s s' o A B [k IH] | s r A | s p A]; destruct (cost_some s) as [c C].
    - exists (c + k)%nat. eapply total_later; eassumption.
    - exists c. eapply total_last; [exact A | discriminate | exact C].
    - exists c. eapply total_last; [exact A | discriminate | exact C].
  Qed.

  Lemma frames_work : forall bound s o, gives (frame_round E data body) s bound o ->
    costs_at_most (frame_round E data body) (frame_cost E data reads) s (length data + 2).
  Proof.
    intros bound s o [[n H] _]. split; [eapply work_some; exact H |]. intros k T. apply work_from in T. unfold len in *. lia.
  Qed.
End Frames.

Lemma prints_few : forall E st b n, prints_reads E st b n -> (n <= length b + 1)%nat.
Proof.
  intros E st b n [o H]. assert (read_prints E (S (length b)) (cursor_new b) st <> OutOfFuel) as F by (unfold cursor_new; rewrite read_prints_spec by lia; discriminate).
  destruct (print_ends _ _ _ _ F) as [m [L X]]. destruct (ends_one_way _ _ _ (just_one_way _ _ _) _ _ _ X _ _ H) as [-> _]. lia.
Qed.
Lemma prints_some : forall E st b, exists n, prints_reads E st b n.
Proof.
  intros E st b. assert (read_prints E (S (length b)) (cursor_new b) st <> OutOfFuel) as F by (unfold cursor_new; rewrite read_prints_spec by lia; discriminate).
  destruct (print_ends _ _ _ _ F) as [m [L X]]. exists m. eexists. exact X.
Qed.
Lemma pings_few : forall E st b n, pings_reads E st b n -> (n <= length b + 1)%nat.
Proof.
  intros E [k t] b n [o H]. assert (read_pings E (S (length b)) (cursor_new b) t false <> OutOfFuel) as F by (unfold cursor_new; rewrite read_pings_spec by lia; discriminate).
  destruct (ping_ends _ _ _ _ _ F) as [m [L X]]. destruct (ends_one_way _ _ _ (just_one_way _ _ _) _ _ _ X _ _ H) as [-> _]. lia.
Qed.
Lemma pings_some : forall E st b, exists n, pings_reads E st b n.
Proof.
  intros E [k t] b. assert (read_pings E (S (length b)) (cursor_new b) t false <> OutOfFuel) as F by (unfold cursor_new; rewrite read_pings_spec by lia; discriminate).
  destruct (ping_ends _ _ _ _ _ F) as [m [L X]]. exists m. eexists. exact X.
Qed.
Lemma flags_fuel : forall E st b, read_flag_prints E (S (length b)) (cursor_new b) [] st <> OutOfFuel.
Proof. intros E st b. unfold cursor_new. rewrite (read_flag_prints_spec E _ _ (scan_n_scans (length b) b (le_n _))) by lia. discriminate. Qed.
Lemma flags_few : forall E st b n, flags_reads E st b n -> (n <= length b + 1)%nat.
Proof.
  intros E st b n H. unfold flags_reads in H. destruct (find b (lit "flag")); [| lia]. destruct H as [o H].
  destruct (flag_ends _ _ _ _ _ (flags_fuel E st b)) as [m [L X]]. destruct (ends_one_way _ _ _ (just_one_way _ _ _) _ _ _ X _ _ H) as [-> _]. lia.
Qed.
Lemma flags_some : forall E st b, exists n, flags_reads E st b n.
Proof.
  intros E st b. unfold flags_reads. destruct (find b (lit "flag")); [| eauto].
  destruct (flag_ends _ _ _ _ _ (flags_fuel E st b)) as [m [L X]]. exists m. eexists. exact X.
Qed.

Lemma prints_work_proof : forall E data, costs_at_most (frame_round E data (prints_frame E data)) (frame_cost E data (prints_reads E)) (0, []) (length data + 2).
Proof. intros E data. destruct (prints_gives E data) as [o [G _]]. eapply frames_work; [apply prints_few | apply prints_some | exact G]. Qed.
Lemma pings_work_proof : forall E data, costs_at_most (frame_round E data (pings_frame E data)) (frame_cost E data (pings_reads E)) (0, (0, [])) (length data + 2).
Proof. intros E data. eapply frames_work; [apply pings_few | apply pings_some | apply pings_give]. Qed.
Lemma flags_work_proof : forall E data, costs_at_most (frame_round E data (flags_frame E data)) (frame_cost E data (flags_reads E)) (0, []) (length data + 2).
Proof. intros E data. eapply frames_work; [apply flags_few | apply flags_some | apply flags_give]. Qed.

(** ** Deaths *)
Lemma deaths_few : forall E data n s o, ends (frame_round E data (frags_frame E data)) n s o -> forall l, o = Ret l -> (length l + 1 <= length (snd s) + n)%nat.
Proof.
  intros E data n s o H. induction H as [n s s' o A B IH | s r A | s p A]; intros l Q; [| | discriminate].
  - specialize (IH l Q). inversion A as [| | index st i st' F X | |]; subst. cbn [snd] in *. inversion X; subst; rewrite ?app_length in IH; cbn [length] in IH; lia.
  - injection Q as <-. inversion A as [index st e F | | | index st i st' F X |]; subst; cbn [snd]; [lia |]. inversion X.
Qed.

Lemma deaths_work_proof : forall E data n l ns, ends (frame_round E data (frags_frame E data)) n (0, []) (Ret l) ->
  Forall2 (fun x k => exists o, ends (frame_round E data (killer_frame E data)) k (snd x, (1, [])) o) l ns ->
  (n + list_sum ns <= (length data / 2 + 1) * (length data / 2 + 1))%nat.
Proof.
  intros E data n l ns H K. pose proof (deaths_few _ _ _ _ _ H l eq_refl) as L. cbn [snd length] in L. apply frame_rounds in H.
  pose proof (Nat.div_mod (length data) 2 ltac:(lia)) as DM. pose proof (Nat.mod_upper_bound (length data) 2 ltac:(lia)) as MB.
  set (h := (length data / 2)%nat) in *.
  assert (list_sum ns <= length l * (h + 1))%nat as S.
  { clear - K DM MB. induction K as [| x k l ns [o X] K IH]; [cbn; lia |]. apply frame_rounds in X. cbn [list_sum fold_right length] in *. unfold list_sum in IH. nia. }
  assert (n <= h + 1)%nat as A by lia. assert (length l <= h)%nat as B by lia. pose proof (Nat.mul_le_mono_r _ _ (h + 1) B). lia.
Qed.
