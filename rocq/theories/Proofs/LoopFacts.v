(** The fuelled loops of the model are the loops of the source. *)
From Coq Require Import Lia ZifyN ZifyNat ZifyBool.
From Verif.Model Require Import Base Utf8Error Env Primitives Prot Frame Message Prints FlagEvent Flags Frags Float Ping Clients Clientinfo Ktxstats
  Matchdate Duration.
From Verif.Spec Require Import Loops.
From Verif.Proofs Require Import BaseFacts FrameFacts PrintFacts PrintProps PingFacts StatsFacts ClientFacts ScoreFacts FlagFacts
  BuildFacts.
Open Scope N_scope.

(** ** Loops in general *)
Definition one_way {St R : Type} (round : St -> M (St + R) -> Prop) : Prop := forall s o o', round s o -> round s o' -> o = o'.

Lemma ends_one_way : forall St R (round : St -> M (St + R) -> Prop), one_way round ->
  forall n s o, ends round n s o -> forall n' o', ends round n' s o' -> n' = n /\ o' = o.
Proof.
  intros St R round D n s o H. induction H as [n s s' o A B IH | s r A | s p A]; intros n' o' H'; inversion H' as [m t t' q A' B' | t q A' | t q A']; subst;
    pose proof (D _ _ _ A A') as X; try discriminate X; injection X as <-; auto.
  destruct (IH _ _ B') as [-> ->]. auto.
Qed.

Lemma gives_intro : forall St R (round : St -> M (St + R) -> Prop) s bound o n, one_way round -> ends round n s o -> (n <= bound)%nat ->
  gives round s bound o.
Proof.
  intros St R round s bound o n D H L. split; [exists n; exact H |]. intros n' o' H'. destruct (ends_one_way _ _ _ D _ _ _ H _ _ H') as [-> ->]. auto.
Qed.

Lemma just_one_way : forall St R (f : St -> M (St + R)), one_way (just f).
Proof. intros St R f s o o' -> ->. reflexivity. Qed.

(** ** Loops over frames *)
Definition as_round {St} (m : M (step St)) : M (St + St) :=
  match m with Ret (Continue s) => Ret (inl s) | Ret (Break s) => Ret (inr s) | Panic p => Panic p | OutOfFuel => OutOfFuel end.

Definition one_way_body {St} (body : St -> info -> M (St + St) -> Prop) : Prop := forall s i o o', body s i o -> body s i o' -> o = o'.

Lemma frame_round_one_way : forall St E data (body : St -> info -> M (St + St) -> Prop), one_way_body body -> one_way (frame_round E data body).
Proof.
  intros St E data body D s o o' H H'. destruct H; inversion H'; subst; try reflexivity; try congruence;
    match goal with A : from_data_and_index _ _ _ = Ret (Ok _), B : from_data_and_index _ _ _ = Ret (Ok _) |- _ => rewrite A in B; injection B as <- end;
    match goal with A : body _ _ _, B : body _ _ _ |- _ => pose proof (D _ _ _ _ A B) as X end; try discriminate X; injection X as <-; reflexivity.
Qed.

Lemma frame_loop_ends : forall St E data (body : St -> info -> M (step St)) (rel : St -> info -> M (St + St) -> Prop), (forall st i, body st i <> OutOfFuel -> rel st i (as_round (body st i))) ->
  forall fuel index st, frame_loop E fuel data body index st <> OutOfFuel ->
  exists n, (n <= fuel)%nat /\ ends (frame_round E data rel) n (index, st) (frame_loop E fuel data body index st).
Proof.
  intros St E data body rel H fuel. induction fuel as [| fuel IH]; intros index st F; [exfalso; apply F; reflexivity |].
  cbn [frame_loop] in *. destruct (from_data_and_index E data index) as [[i | e] | p |] eqn:Q; cbn [bind] in *.
  - specialize (H st i). destruct (body st i) as [[st' | st'] | p |] eqn:B; cbn [bind as_round] in *.
    + destruct (IH _ _ F) as [n [L X]]. exists (S n). split; [lia |]. eapply ends_later; [| exact X]. apply round_goes_on; [exact Q | apply H; discriminate].
    + exists 1%nat. split; [lia |]. apply ends_now. eapply round_breaks; [exact Q | apply H; discriminate].
    + exists 1%nat. split; [lia |]. apply ends_panic. eapply round_panics; [exact Q | apply H; discriminate].
    + exfalso. apply F. reflexivity.
  - exists 1%nat. split; [lia |]. apply ends_now. eapply round_no_frame. exact Q.
  - exists 1%nat. split; [lia |]. apply ends_panic. apply round_outside. exact Q.
  - exfalso. apply F. reflexivity.
Qed.

Lemma walk_gives : forall St E data (body : St -> info -> M (step St)) (rel : St -> info -> M (St + St) -> Prop), one_way_body rel -> (forall st i, body st i <> OutOfFuel) ->
  (forall st i, rel st i (as_round (body st i))) -> forall index st,
  gives (frame_round E data rel) (index, st) (length data + 2) (frame_loop E (frame_fuel data) data body index st).
Proof.
  intros St E data body rel D F H index st. destruct (frame_loop_ends St E data body rel (fun st i _ => H st i) (frame_fuel data) index st) as [n [L X]].
  - apply walk_terminates. exact F.
  - eapply gives_intro; [apply frame_round_one_way; exact D | exact X | unfold frame_fuel in L; lia].
Qed.

Ltac same_body :=
  repeat match goal with
  | A : body_is ?d ?i _, B : body_is ?d ?i _ |- _ => unfold body_is in A, B; rewrite A in B; injection B as <-; fold (body_is d i) in A
  | A : body_is ?d ?i _, B : body_outside ?d ?i _ |- _ => unfold body_is in A; unfold body_outside in B; congruence
  | A : body_outside ?d ?i _, B : body_outside ?d ?i _ |- _ => unfold body_outside in A, B; rewrite A in B; injection B as <-
  end.

(** ** src/prints.rs *)
Lemma print_ends : forall E fuel c ps, read_prints E fuel c ps <> OutOfFuel ->
  exists n, (n <= fuel)%nat /\ ends (just (print_round E)) n (c, ps) (read_prints E fuel c ps).
Proof.
  intros E fuel. induction fuel as [| fuel IH]; intros c ps F; [exfalso; apply F; reflexivity |]. cbn [read_prints] in *.
  destruct (read_message_type E c) as [[mt | e] c1] eqn:T; cbn [is_ok_and] in *.
  - destruct (is_print mt) eqn:P.
    + destruct (read_print E c1) as [p c2] eqn:R. destruct (IH _ _ F) as [n [L X]]. exists (S n). split; [lia |]. eapply ends_later; [| exact X].
      unfold just, print_round. rewrite T, P, R. destruct p as [p |]; [destruct (pr_content p) |]; reflexivity.
    + exists 1%nat. split; [lia |]. apply ends_now. unfold just, print_round. rewrite T, P. reflexivity.
  - exists 1%nat. split; [lia |]. apply ends_now. unfold just, print_round. rewrite T. reflexivity.
Qed.

Lemma prints_one_way : forall E data, one_way_body (prints_frame E data).
Proof.
  intros E data s i o o' H H'. destruct H; inversion H'; subst; try contradiction; try reflexivity; same_body; try reflexivity.
  match goal with A : ends _ _ _ _, B : ends _ _ _ _ |- _ => destruct (ends_one_way _ _ _ (just_one_way _ _ _) _ _ _ A _ _ B) as [_ X] end. congruence.
Qed.

Lemma prints_gives : forall E data, exists o, gives (frame_round E data (prints_frame E data)) (0, []) (length data + 2) o /\
  prints E data = let! ps := o in Ret (dedup print_eqb ps).
Proof.
  intros E data. eexists. split; [| reflexivity]. apply walk_gives; [apply prints_one_way | |].
  - intros st i. destruct (0 <? i_body_size i); [| discriminate].
    apply bind_fuel; [apply body_of_fuel |]. intros body _. unfold cursor_new. rewrite read_prints_spec by lia. fuel.
  - intros st i. destruct (0 <? i_body_size i) eqn:B; [| apply prints_no_body; lia].
    destruct (body_of data i) as [body | p |] eqn:SL; cbn [bind as_round].
    + assert (read_prints E (S (length body)) (cursor_new body) st <> OutOfFuel) as F by (unfold cursor_new; rewrite read_prints_spec by lia; discriminate).
      destruct (print_ends _ _ _ _ F) as [n [_ X]]. destruct (read_prints E (S (length body)) (cursor_new body) st) as [ps | p |] eqn:R.
      * cbn [bind as_round]. apply Loops.prints_body with body n; [lia | exact SL | exact X].
      * unfold cursor_new in R. rewrite read_prints_spec in R by lia. discriminate.
      * contradiction.
    + apply prints_outside; [lia | exact SL].
    + exfalso. exact (body_of_fuel _ _ SL).
Qed.

(** ** src/ping.rs *)
Lemma ping_ends : forall E fuel c total did, read_pings E fuel c total did <> OutOfFuel ->
  exists n, (n <= fuel)%nat /\ ends (just (ping_round E)) n (c, total, did) (read_pings E fuel c total did).
Proof.
  intros E fuel. induction fuel as [| fuel IH]; intros c total did F; [exfalso; apply F; reflexivity |]. cbn [read_pings] in *.
  destruct (read_message_type E c) as [[mt | e] c1] eqn:T; cbn [is_ok_and] in *.
  - destruct (is_update_ping mt) eqn:P.
    + destruct (read_update_ping E c1) as [[u | e] c2] eqn:R; destruct (IH _ _ _ F) as [n [L X]]; exists (S n); (split; [lia |]); (eapply ends_later; [| exact X]);
        unfold just, ping_round; rewrite T, P, R; reflexivity.
    + exists 1%nat. split; [lia |]. apply ends_now. unfold just, ping_round. rewrite T, P. reflexivity.
  - exists 1%nat. split; [lia |]. apply ends_now. unfold just, ping_round. rewrite T. reflexivity.
Qed.

Lemma pings_one_way : forall E data, one_way_body (pings_frame E data).
Proof.
  intros E data s i o o' H H'. destruct H; inversion H'; subst; try contradiction; try reflexivity; same_body; try reflexivity;
  match goal with A : ends _ _ _ _, B : ends _ _ _ _ |- _ => destruct (ends_one_way _ _ _ (just_one_way _ _ _) _ _ _ A _ _ B) as [_ X] end; congruence.
Qed.

Lemma pings_give : forall E data, gives (frame_round E data (pings_frame E data)) (0, (0, [])) (length data + 2) (sample_pings E data).
Proof.
  intros E data. unfold sample_pings. apply walk_gives; [apply pings_one_way | |].
  - intros [c t] i. apply bind_fuel.
    + destruct (0 <? _); [| discriminate]. apply bind_fuel; [apply body_of_fuel |]. intros body _. unfold cursor_new.
      rewrite read_pings_spec by lia. discriminate.
    + intros st _. destruct (_ <=? _); discriminate.
  - intros [k t] i. destruct (0 <? i_body_size i) eqn:B.
    + destruct (body_of data i) as [body | p |] eqn:SL; cbn [bind].
      * assert (exists x, read_pings E (S (length body)) (cursor_new body) t false = Ret x) as [[t' did] F]
          by (unfold cursor_new; rewrite read_pings_spec by lia; eexists; reflexivity).
        assert (read_pings E (S (length body)) (cursor_new body) t false <> OutOfFuel) as F' by (rewrite F; discriminate).
        destruct (ping_ends _ _ _ _ _ F') as [n [_ X]]. rewrite F in *. cbn [bind].
        destruct did; [pose proof (pings_some E data k t i body n t') as Y | pose proof (pings_none E data k t i body n t') as Y];
          specialize (Y ltac:(lia) SL X); unfold unless_enough in Y; unfold MAX_SAMPLES; cbn [fst] in *;
          match goal with |- context [8 <=? ?x] => destruct (8 <=? x) end; exact Y.
      * cbn [as_round]. apply pings_outside; [lia | exact SL].
      * exfalso. exact (body_of_fuel _ _ SL).
    + cbn [bind fst]. pose proof (pings_no_body E data (k, t) i ltac:(lia)) as Y. unfold unless_enough in Y. unfold MAX_SAMPLES. cbn [fst] in *.
      destruct (8 <=? k); exact Y.
Qed.

(** ** src/flags.rs *)
Lemma flag_ends : forall E fuel c cur ps, read_flag_prints E fuel c cur ps <> OutOfFuel ->
  exists n, (n <= fuel)%nat /\ ends (just (flag_round E)) n (c, cur, ps) (read_flag_prints E fuel c cur ps).
Proof.
  intros E fuel. induction fuel as [| fuel IH]; intros c cur ps F; [exfalso; apply F; reflexivity |].
  assert (forall c' cur' ps', flag_round E (c, cur, ps) = Ret (inl (c', cur', ps')) ->
            read_flag_prints E (S fuel) c cur ps = read_flag_prints E fuel c' cur' ps' ->
            exists n, (n <= S fuel)%nat /\ ends (just (flag_round E)) n (c, cur, ps) (read_flag_prints E (S fuel) c cur ps)) as GO.
  { intros c' cur' ps' A B. rewrite B in *. destruct (IH _ _ _ F) as [n [L X]]. exists (S n). split; [lia |]. eapply ends_later; [| exact X].
    unfold just. symmetry. exact A. }
  unfold flag_round in GO. cbn [read_flag_prints] in *. destruct (read_message_type E c) as [[mt | e] c1] eqn:T.
  - destruct (is_print mt) eqn:P; [| eapply GO; reflexivity]. destruct (read_print E c1) as [[p | e] c2] eqn:R; [| eapply GO; reflexivity].
    destruct (pr_id p) eqn:I; cbn [print_id_eqb andb] in *; try (eapply GO; reflexivity).
    destruct (pr_content p) as [| b t] eqn:C; cbn [is_empty negb] in *; [eapply GO; reflexivity |].
    destruct cur; cbn [is_empty] in *; eapply GO; reflexivity.
  - exists 1%nat. split; [lia |]. apply ends_now. unfold just, flag_round. rewrite T. reflexivity.
Qed.

Lemma flags_one_way : forall E data, one_way_body (flags_frame E data).
Proof.
  intros E data s i o o' H H'. destruct H; inversion H'; subst; try contradiction; try reflexivity; same_body; try reflexivity; try congruence;
  match goal with A : ends _ _ _ _, B : ends _ _ _ _ |- _ => destruct (ends_one_way _ _ _ (just_one_way _ _ _) _ _ _ A _ _ B) as [_ X] end; congruence.
Qed.

Lemma flags_give : forall E data, gives (frame_round E data (flags_frame E data)) (0, []) (length data + 2) (flag_prints E data).
Proof.
  intros E data. unfold flag_prints. apply walk_gives; [apply flags_one_way | |].
  - intros st i. destruct (_ =? 0); [discriminate |]. apply bind_fuel; [apply body_of_fuel |]. intros body _.
    destruct (negb _); [discriminate |]. unfold cursor_new.
    rewrite (read_flag_prints_spec E _ _ (scan_n_scans (length body) body (le_n _))) by lia. cbn [bind]. fuel.
  - intros ps i. destruct (i_body_size i =? 0) eqn:B; [apply flags_no_body; lia |].
    destruct (body_of data i) as [body | p |] eqn:SL; cbn [bind].
    + destruct (find body FLAG) as [at_ |] eqn:FI; cbn [is_some negb].
      * assert (exists x, read_flag_prints E (S (length body)) (cursor_new body) [] ps = Ret x) as [[cur ps'] F].
        { unfold cursor_new. rewrite (read_flag_prints_spec E _ _ (scan_n_scans (length body) body (le_n _))) by lia. eexists. reflexivity. }
        assert (read_flag_prints E (S (length body)) (cursor_new body) [] ps <> OutOfFuel) as F' by (rewrite F; discriminate).
        destruct (flag_ends _ _ _ _ _ F') as [n [_ X]]. rewrite F in *. cbn [bind]. destruct cur as [| b cur]; cbn [is_empty negb as_round].
        -- eapply flags_closed; [lia | exact SL | exact FI | exact X].
        -- eapply flags_open; [lia | exact SL | exact FI | exact X | discriminate].
      * eapply flags_not_here; [lia | exact SL | exact FI].
    + cbn [as_round]. apply flags_outside; [lia | exact SL].
    + exfalso. exact (body_of_fuel _ _ SL).
Qed.

(** ** src/frags.rs *)
Lemma frags_one_way : forall E data, one_way_body (frags_frame E data).
Proof.
  intros E data s i o o' H H'. destruct H; inversion H'; subst; try contradiction; try reflexivity; same_body; try reflexivity;
    repeat match goal with A : ?x = _, B : ?x = _ |- _ => rewrite A in B; injection B as B; subst end; try congruence; try reflexivity;
    match goal with A : _ \/ _ |- _ => destruct A; contradiction end.
Qed.

Lemma frags_give : forall E data, gives (frame_round E data (frags_frame E data)) (0, []) (length data + 2) (print_frames E data).
Proof.
  intros E data. unfold print_frames. apply walk_gives; [apply frags_one_way | |].
  - intros st i. destruct (i_body_size i =? 0); [discriminate |]. apply bind_fuel; [apply body_of_fuel |]. intros body _. fuel.
  - intros l i. destruct (i_body_size i =? 0) eqn:B; [apply frags_no_body; lia |]. apply N.eqb_neq in B.
    destruct (body_of data i) as [body | p |] eqn:SL; cbn [bind].
    + destruct (read_message_type E (cursor_new body)) as [[mt | e] c] eqn:T; cbn [is_ok_and].
      * destruct (is_print mt) eqn:P; [| eapply frags_other_message; eassumption].
        destruct (read_print E c) as [[p | e] c'] eqn:R; cbn [fst]; [| eapply frags_cut_print; eassumption].
        destruct (pr_content p) as [| b t] eqn:C; cbn [is_empty negb andb].
        -- eapply frags_other_print; try eassumption. right. exact C.
        -- destruct (pr_id p) eqn:I; cbn [print_id_eqb as_round];
             try (eapply frags_other_print; try eassumption; left; rewrite I; discriminate).
           eapply frags_print; try eassumption. rewrite C. discriminate.
      * eapply frags_no_message; eassumption.
    + cbn [as_round]. apply frags_outside; [exact B | exact SL].
    + exfalso. exact (body_of_fuel _ _ SL).
Qed.

Lemma killer_one_way : forall E data, one_way_body (killer_frame E data).
Proof.
  intros E data s i o o' H H'. destruct H; inversion H'; subst; try contradiction; try lia; try reflexivity; same_body; reflexivity.
Qed.

Lemma killer_gives : forall E data index,
  gives (frame_round E data (killer_frame E data)) (index, (1, [])) (length data + 2) (nearby_frag_updates E data index).
Proof.
  intros E data index. unfold nearby_frag_updates. apply walk_gives; [apply killer_one_way | |].
  - intros [c nums] i'. destruct (_ <=? _); [discriminate |]. destruct (_ =? 0); [discriminate |].
    apply bind_fuel; [apply body_of_fuel |]. intros body _. cbv zeta. destruct (read_message_type _ _). discriminate.
  - intros [k l] i. unfold MAX_FRAME_COUNT. destruct (4 <=? k) eqn:K; [apply killer_enough; lia |].
    destruct (i_body_size i =? 0) eqn:B; [apply killer_no_body; lia |]. apply N.eqb_neq in B.
    destruct (body_of data i) as [body | p |] eqn:SL; cbn [bind].
    + pose proof (killer_body E data k l i body ltac:(lia) B SL) as Y. unfold update_here in Y. cbv zeta in *.
      destruct (read_message_type E _) as [[mt | e] c]; cbn [is_ok_and as_round] in *; [| rewrite app_nil_r in Y; exact Y].
      destruct (is_update_frags mt); [| rewrite app_nil_r in Y; exact Y].
      destruct (read_update_frags E c) as [[u | e] c']; cbn [fst] in *; [exact Y | rewrite app_nil_r in Y; exact Y].
    + cbn [as_round]. apply killer_outside; [lia | exact B | exact SL].
    + exfalso. exact (body_of_fuel _ _ SL).
Qed.

(** ** src/duration.rs *)
Lemma clock_one_way : forall E target, one_way_body (clock_frame E target).
Proof. intros E target s i o o' H H'. destruct H; inversion H'; subst; try lia; try congruence; reflexivity. Qed.

Lemma clock_gives : forall E data target,
  gives (frame_round E data (clock_frame E target)) (0, 0) (length data + 2) (total_ms_until E data target).
Proof.
  intros E data target. unfold total_ms_until. apply walk_gives; [apply clock_one_way | |].
  - intros st i. destruct (_ <=? _); [discriminate |]. apply bind_fuel; [apply uadd_fuel | discriminate].
  - intros ms i. destruct (target <=? i_index i) eqn:T; [apply clock_reached; lia |]. unfold uadd, u32_bound.
    destruct (ms + i_duration i <? _) eqn:C; [apply clock_runs; lia |]. destruct (checked E) eqn:K.
    + apply clock_overflows; [lia | lia | exact K].
    + apply clock_wraps; [lia | lia | exact K].
Qed.

(** ** src/clientinfo.rs *)
Lemma clientinfo_ends : forall E data max fuel offset l, clientinfo_loop E fuel data max offset l <> OutOfFuel ->
  exists n, (n <= fuel)%nat /\ ends (just (clientinfo_round E data max)) n (offset, l) (clientinfo_loop E fuel data max offset l).
Proof.
  intros E data max fuel. induction fuel as [| fuel IH]; intros offset l F; [exfalso; apply F; reflexivity |].
  assert (forall o' l', clientinfo_round E data max (offset, l) = Ret (inl (o', l')) ->
            clientinfo_loop E (S fuel) data max offset l = clientinfo_loop E fuel data max o' l' ->
            exists n, (n <= S fuel)%nat /\ ends (just (clientinfo_round E data max)) n (offset, l) (clientinfo_loop E (S fuel) data max offset l)) as GO.
  { intros o' l' A B. rewrite B in *. destruct (IH _ _ F) as [n [L X]]. exists (S n). split; [lia |]. eapply ends_later; [| exact X].
    unfold just. symmetry. exact A. }
  assert (forall r, clientinfo_round E data max (offset, l) = Ret (inr r) -> clientinfo_loop E (S fuel) data max offset l = Ret r ->
            exists n, (n <= S fuel)%nat /\ ends (just (clientinfo_round E data max)) n (offset, l) (clientinfo_loop E (S fuel) data max offset l)) as STOP.
  { intros r A B. rewrite B. exists 1%nat. split; [lia |]. apply ends_now. unfold just. symmetry. exact A. }
  unfold clientinfo_round in GO at 1. unfold clientinfo_round in STOP at 1. cbn [clientinfo_loop] in *.
  unfold MAX_LOOKAHEAD, CI_MIN_LEN, CI_MAX_LEN in *.
  destruct (slice data offset (offset + 512)) as [window | p |] eqn:W; cbn [bind] in *; [| | exfalso; apply F; reflexivity].
  2:{ exists 1%nat. split; [lia |]. apply ends_panic. unfold just, clientinfo_round. rewrite W. reflexivity. }
  change NAME with (lit "\name\") in *. destruct (find window (lit "\name\")) as [o |] eqn:FI; [| eapply STOP; reflexivity].
  pose proof (slice_bounds _ _ _ _ _ W) as [W1 W2]. assert (offset + o <= len data) as W3.
  { rewrite slice_ret in W by lia. injection W as W. apply (f_equal (@length byte)) in W. unfold sub_list in W.
    rewrite firstn_length, skipn_length in W. apply find_some in FI. destruct FI as [[a [c [D L]]] _]. subst window. rewrite !app_length in W. unfold len, bytes in *. lia. }
  unfold slice_to in *. replace (offset + o <=? len data) with true in * by lia. cbn [bind] in *.
  destruct (rfind_byte (firstn (N.to_nat (offset + o)) data) x00) as [z |] eqn:Z; [| eapply STOP; reflexivity].
  assert (z + 1 <= len data) as Z1.
  { apply rfind_byte_some in Z. destruct Z as [a [c [D [L _]]]]. apply (f_equal (@length byte)) in D. rewrite firstn_length, app_length in D.
    cbn [length] in D. unfold len, bytes in *. lia. }
  unfold slice_from in *. replace (z + 1 <=? len data) with true in * by lia. cbn [bind] in *.
  destruct (find_byte (skipn (N.to_nat (z + 1)) data) x00) as [t |] eqn:T; [| eapply STOP; reflexivity].
  assert (z + 1 + t <= len data) as T1.
  { apply find_byte_some in T. destruct T as [a [c [D [L _]]]]. apply (f_equal (@length byte)) in D. rewrite skipn_length, app_length in D.
    cbn [length] in D. unfold len, bytes in *. lia. }
  replace (z + 1 + t - (z + 1)) with t in * by lia.
  replace ((7 <=? t) && (t <=? 256)) with (negb ((t <? 7) || (256 <? t))) in * by lia.
  destruct ((t <? 7) || (256 <? t)); cbn [negb] in *; [eapply STOP; reflexivity |].
  unfold slice in GO, STOP, F |- *. replace ((z + 1 <=? z + 1 + t) && (z + 1 + t <=? len data)) with true in * by lia. cbn [bind] in *.
  unfold sub_list in *. replace (N.to_nat (z + 1 + t - (z + 1))) with (N.to_nat t) in * by lia.
  destruct (max <=? z + 1 + t); [eapply STOP; reflexivity | eapply GO; reflexivity].
Qed.

Lemma clientinfo_gives : forall E data offset, gives (just (clientinfo_round E data (offset + 12288))) (offset, []) (length data + 2)
  (clientinfo_loop E (S (length data)) data (offset + MAX_PLAYERS * MAX_LOOKAHEAD) offset []).
Proof.
  intros E data offset. change (MAX_PLAYERS * MAX_LOOKAHEAD) with 12288.
  destruct (clientinfo_ends E data (offset + 12288) (S (length data)) offset []) as [n [L X]]; [apply loop_fuel; lia |].
  eapply gives_intro; [apply just_one_way | exact X | lia].
Qed.

(** ** src/ktxstats.rs *)
Lemma stats_one_way : forall E data, one_way (stats_round E data).
Proof.
  intros E data s o o' H H'. destruct H; inversion H'; subst;
    repeat match goal with A : (let! _ := _ in _) = ?x, B : (let! _ := _ in _) = ?y |- _ => rewrite A in B; first [discriminate B | injection B as B; subst] end;
    try congruence; reflexivity.
Qed.

Lemma bind_assoc : forall A B C (m : M A) (f : A -> M B) (g : B -> M C), (let! b := (let! a := m in f a) in g b) = (let! a := m in let! b := f a in g b).
Proof. intros A B C [a | p |] f g; reflexivity. Qed.

Lemma stats_ends : forall E data fuel offset content, ktxstats_loop E fuel data offset content <> OutOfFuel ->
  exists n, (n <= fuel)%nat /\ ends (stats_round E data) n (offset, content) (ktxstats_loop E fuel data offset content).
Proof.
  intros E data fuel. induction fuel as [| fuel IH]; intros offset content F; [exfalso; apply F; reflexivity |].
  cbn [ktxstats_loop] in *. change MULTI_HEADER_SIZE with 10 in *. change TOTAL_HEADER_SIZE with 18 in *.
  remember (let! a := uadd E usize_bound offset 10 in let! d := slice_from data a in block_try_from E d) as blk eqn:K.
  match goal with |- exists n, _ /\ ends _ n _ ?x =>
    assert (x = let! b := blk in match b with
      | Err _ => Ret content
      | Ok info => if negb (is_demoinfo (b_hidden_message info)) then Ret content
          else let! offset := uadd E usize_bound offset 18 in let! to := uadd E usize_bound offset (b_body_size info) in
               let! part := slice data offset to in
               if b_number info =? 0 then Ret (content ++ part)
               else let! offset := uadd E usize_bound offset (b_body_size info) in ktxstats_loop E fuel data offset (content ++ part)
      end) as Q by (rewrite K, !bind_assoc; destruct (uadd E usize_bound offset 10) as [a | |]; [| reflexivity | reflexivity]; cbn [bind];
                    rewrite bind_assoc; reflexivity) end.
  rewrite Q in *. clear Q. symmetry in K. destruct blk as [[b | e] | p |]; cbn [bind] in *.
  4:{ exfalso. apply F. reflexivity. }
  3:{ exists 1%nat. split; [lia |]. apply ends_panic, stats_panics, K. }
  2:{ exists 1%nat. split; [lia |]. apply ends_now. eapply stats_no_block, K. }
  destruct (is_demoinfo (b_hidden_message b)) eqn:D; cbn [negb] in *.
  2:{ exists 1%nat. split; [lia |]. apply ends_now. eapply stats_other_block; [exact K | exact D]. }
  destruct (uadd E usize_bound offset 18) as [from | p |] eqn:A1; cbn [bind] in *.
  3:{ exfalso. apply F. reflexivity. }
  2:{ exists 1%nat. split; [lia |]. apply ends_panic. eapply stats_outside; [exact K | exact D | rewrite A1; reflexivity]. }
  destruct (uadd E usize_bound from (b_body_size b)) as [to | p |] eqn:A2; cbn [bind] in *.
  3:{ exfalso. apply F. reflexivity. }
  2:{ exists 1%nat. split; [lia |]. apply ends_panic. eapply stats_outside; [exact K | exact D | rewrite A1; cbn [bind]; rewrite A2; reflexivity]. }
  destruct (slice data from to) as [part | p |] eqn:SL; cbn [bind] in *.
  3:{ exfalso. apply F. reflexivity. }
  2:{ exists 1%nat. split; [lia |]. apply ends_panic. eapply stats_outside; [exact K | exact D | rewrite A1; cbn [bind]; rewrite A2; exact SL]. }
  destruct (b_number b =? 0) eqn:B.
  - exists 1%nat. split; [lia |]. apply ends_now. eapply stats_last; [exact K | exact D | lia | rewrite A1; cbn [bind]; rewrite A2; exact SL].
  - destruct (IH _ _ F) as [n [L X]]. exists (S n). split; [lia |]. eapply ends_later; [| exact X].
    eapply stats_more; [exact K | exact D | lia | rewrite A1; cbn [bind]; rewrite A2; exact SL | rewrite A1; exact A2].
Qed.

Lemma stats_gives : forall E data offset o, len data < 2 ^ 63 -> rfind data (lit "{""version"": ") = Some o ->
  usub E usize_bound o 18 = Ret offset -> exists r, gives (stats_round E data) (offset, []) (length data + 2) r /\
  ktxstats_string E data = let! content := r in if utf8_valid content then Ret (Ok content) else Ret (Err (utf8_error_text content)).
Proof.
  intros E data offset o B R O. assert (ktxstats_loop E (S (length data)) data offset [] <> OutOfFuel) as F.
  { apply ktxstats_step; [exact B |]. intros to c _ T. assert (0 < len data) by (destruct data; [discriminate R | rewrite len_cons; lia]).
    apply ktxstats_loop_terminates; unfold len in *; lia. }
  exists (ktxstats_loop E (S (length data)) data offset []). split.
  - destruct (stats_ends _ _ _ _ _ F) as [n [L X]]. eapply gives_intro; [apply stats_one_way | exact X | lia].
  - unfold ktxstats_string. change VERSION with (lit "{""version"": "). rewrite R. change TOTAL_HEADER_SIZE with 18. rewrite O. reflexivity.
Qed.

(** ** The functions around the loops *)
Lemma ping_function : forall E data, exists o, gives (frame_round E data (pings_frame E data)) (0, (0, [])) (length data + 2) o /\
  ping_per_player_number E data =
    let! st := o in
    match snd st with
    | [] => Ret (Err "Unable to read pings")
    | total => let! avg := foldM (fun m '(pnum, l) => let! a := average E l in Ret (aset N.eqb pnum a m)) total [] in Ret (Ok avg)
    end.
Proof.
  intros E data. exists (sample_pings E data). split; [apply pings_give |]. unfold ping_per_player_number.
  destruct (sample_pings E data) as [[k t] | |]; [| reflexivity | reflexivity]. cbn [bind snd]. destruct t; reflexivity.
Qed.

Lemma flag_function : forall E data, exists o, gives (frame_round E data (flags_frame E data)) (0, []) (length data + 2) o /\
  flag_events_per_player_name E data = let! ps := o in foldM (count_flag_print E) ps [].
Proof. intros E data. exists (flag_prints E data). split; [apply flags_give | reflexivity]. Qed.

Lemma frag_function : forall E data, exists o, gives (frame_round E data (frags_frame E data)) (0, []) (length data + 2) o /\
  frags_per_player_name E data = let! l := o in foldM (score_print E data) l [].
Proof. intros E data. exists (print_frames E data). split; [apply frags_give | reflexivity]. Qed.

Lemma killer_function : forall E data index victim, exists o,
  gives (frame_round E data (killer_frame E data)) (index, (1, [])) (length data + 2) o /\
  (forall p, o = Panic p -> find_team_killer E data index victim = Panic p) /\
  (forall k, o = Ret (k, []) -> find_team_killer E data index victim = Ret (Err "Unable to find nearby frag updates")) /\
  (forall k nums cs v, o = Ret (k, nums) -> nums <> [] -> clients E data = Ret (Ok cs) ->
     List.find (fun c => beq (c_name c) victim) cs = Some v ->
     find_team_killer E data index victim =
       Ret (match List.find (fun c => beq (c_team c) (c_team v) && negb (beq (c_name c) (c_name v)))
                    (flat_map (fun n => match List.find (fun c => c_number c =? n) cs with Some c => [c] | None => [] end) nums) with
            | Some killer => Ok (c_name killer)
            | None => Err "Unable to find team killer"
            end)).
Proof.
  intros E data index victim. exists (nearby_frag_updates E data index). split; [apply killer_gives |]. unfold find_team_killer.
  split; [intros p -> ; reflexivity |]. split; [intros k ->; reflexivity |].
  intros k nums cs v -> NE C V. cbn [bind snd]. destruct nums as [| a nums]; [contradiction |]. cbn [is_empty]. rewrite C. cbn [bind]. rewrite V.
  assert (forall l, filter_map (fun n => List.find (fun c => c_number c =? n) cs) l =
            flat_map (fun n => match List.find (fun c => c_number c =? n) cs with Some c => [c] | None => [] end) l) as ->.
  { induction l as [| x l IH]; [reflexivity |]. cbn [filter_map flat_map]. destruct (List.find (fun c : Client => c_number c =? x) cs); cbn [app]; rewrite IH; reflexivity. }
  clear V. destruct (List.find _ (flat_map _ _)); reflexivity.
Qed.

Lemma clock_function : forall E data target, exists o, gives (frame_round E data (clock_frame E target)) (0, 0) (length data + 2) o /\
  duration_until_offset E data target = let! ms := o in from_secs (f32_div (f32_of_N ms) (f32_of_N 1000)).
Proof. intros E data target. exists (total_ms_until E data target). split; [apply clock_gives | reflexivity]. Qed.

Lemma clientinfo_function : forall E data offset, find data (x09 :: lit "cmd spawn") = Some offset ->
  exists o, gives (just (clientinfo_round E data (offset + 24 * 512))) (offset, []) (length data + 2) o /\
  clientinfo_strings E data = let! l := o in Ret (Ok l).
Proof.
  intros E data offset H. eexists. split; [apply clientinfo_gives |]. unfold clientinfo_strings. change CMD_SPAWN with (x09 :: lit "cmd spawn"). rewrite H. reflexivity.
Qed.
