(** Durations on any bytes *)
From Coq Require Import Lia ZifyN ZifyNat ZifyBool.
From Verif.Model Require Import Base Env Frame Serverinfo Matchdate Float Duration.
From Verif.Spec Require Import Occ Mvd Messages Times Texts Clock.
From Verif.Proofs Require Import BaseFacts TextFacts FrameFacts PrintFacts WalkProps TimeFacts ServerFacts.

Lemma crash_time : forall St E data body (g : St -> N -> frame -> M (step St)) fs rest st,
  data = encode fs ++ rest -> wf fs -> overruns (len data) rest ->
  (forall st p' f r, data = p' ++ encode_frame f ++ r -> wf_frame f ->
     body st (info_of (len p') f) = g st (len p') f) ->
  exists i, i_index i = len (encode fs) /\ i_duration i = head_time rest /\
  frame_loop E (frame_fuel data) data body 0 st =
  let! r := walk g 0 fs st in
  match r with
  | Break st' => Ret st'
  | Continue st' =>
      let! r' := body st' i in
      match r' with Break st'' => Ret st'' | Continue _ => Panic PSlice end
  end.
Proof.
  intros St E data body g fs rest st D W [s [A [L1 L2]]] B.
  assert (NF : no_frame rest) by (unfold no_frame; rewrite A; exact L1).
  destruct (announced_inv _ _ A) as [time [t [r [R [H1 [H2 _]]]]]].
  exists (info_at (len (encode fs)) time t s). unfold info_at. cbn [i_index i_duration].
  split; [reflexivity |]. split; [rewrite R; reflexivity |].
  destruct (frame_loop_total St E data body g fs rest st D W NF B) as [fuel' [F ->]].
  destruct (walk g 0 fs st) as [[st' | st'] | |]; simpl; try reflexivity.
  rewrite (frame_loop_overrun E data body (encode fs) rest s time t r); auto.
Qed.

Lemma total_clock : forall E fs rest target, wf fs -> no_frame rest ->
  clock (checked E) fs rest target (total_ms_until E (encode fs ++ rest) target).
Proof.
  intros E fs rest target W NF.
  assert (elapsed target fs < 4294967296 -> elapsed target fs mod 4294967296 = elapsed target fs) as MS by (intros; apply N.mod_small; assumption).
  assert (stops (len (encode fs ++ rest)) rest \/ target <= len (encode fs) ->
    clock (checked E) fs rest target (ms_total E (elapsed target fs))) as READ.
  { intros S. unfold ms_total, u32_bound. destruct (elapsed target fs <? 4294967296) eqn:L.
    - rewrite <- (MS ltac:(lia)) at 1. apply clock_reads; [exact S | left; lia].
    - destruct (checked E) eqn:C; [apply clock_overflows; [reflexivity | lia] |].
      apply clock_reads; [exact S | right; reflexivity]. }
  destruct (rest_cases (len (encode fs ++ rest)) rest) as [S | O]; [rewrite len_app; lia | exact NF | |].
  - rewrite total_ms_quiet by assumption. apply READ. left. exact S.
  - pose proof (total_ms_crash E fs rest target W O) as T. destruct (target <=? len (encode fs)) eqn:X.
    + rewrite T. apply READ. right. lia.
    + clear T. unfold total_ms_until. fold (ms_loop E target).
      destruct (crash_time _ E (encode fs ++ rest) (ms_loop E target) (ms_g E target) fs rest 0)
        as [i [I [T ->]]]; [reflexivity | exact W | exact O | intros; apply ms_body |].
      rewrite walk_ms, sum_times.
      replace (existsb (fun x => target <=? fst x) (located 0 fs)) with false.
      2: { symmetry. apply Bool.not_true_iff_false. intros Y. apply existsb_exists in Y. destruct Y as [x [Y1 Y2]].
           apply located_bound in Y1. lia. }
      unfold ms_loop. rewrite I, T, X. unfold ms_total, u32_bound.
      assert (head_time rest < 256) as HB by (unfold head_time; destruct rest as [| b ?]; [lia | apply n_of_lt]).
      destruct (elapsed target fs <? 4294967296) eqn:L.
      * cbn [bind]. unfold uadd. destruct (elapsed target fs + head_time rest <? 4294967296) eqn:Y.
        -- cbn [bind]. apply clock_short; [exact O | lia | right; lia].
        -- destruct (checked E) eqn:C; cbn [bind]; [apply clock_short_overflows; auto; lia | apply clock_short; [exact O | lia | left; reflexivity]].
      * destruct (checked E) eqn:C; cbn [bind]; [apply clock_overflows; [reflexivity | lia] |].
        unfold uadd. rewrite C. destruct (elapsed target fs mod 4294967296 + head_time rest <? 4294967296); cbn [bind]; (apply clock_short; [exact O | lia | left; reflexivity]).
Qed.

Lemma stops_overruns : forall total rest, stops total rest -> overruns total rest -> False.
Proof. intros total rest S [s [A [_ L]]]. unfold stops in S. rewrite A in S. lia. Qed.

Lemma clock_one_proof : forall checks fs rest target, no_frame rest ->
  exists r, clock checks fs rest target r /\ forall r', clock checks fs rest target r' -> r' = r.
Proof.
  intros checks fs rest target NF.
  assert (forall r r', clock checks fs rest target r -> clock checks fs rest target r' -> r' = r) as U.
  { intros r r' H H'. destruct H as [S L | C L | O T L | O T C L]; destruct H' as [S' L' | C' L' | O' T' L' | O' T' C' L']; try reflexivity;
      try (destruct S as [S | ?]; [exfalso; eapply stops_overruns; [exact S | first [exact O | exact O']] | lia]);
      try (destruct S' as [S' | S']; [exfalso; eapply stops_overruns; [exact S' | first [exact O | exact O']] | lia]);
      try (destruct L as [L | L]; [lia | congruence]); try (destruct L' as [L' | L']; [lia | congruence]);
      try (destruct L as [L | L]; [congruence | lia]); try (destruct L' as [L' | L']; [congruence | lia]). }
  assert (exists r, clock checks fs rest target r) as [r H].
  { destruct (N.lt_ge_cases (elapsed target fs) 4294967296) as [L | L].
    2: { destruct checks eqn:C; [eexists; apply clock_overflows; auto |].
         destruct (rest_cases (len (encode fs ++ rest)) rest) as [S | O]; [rewrite len_app; lia | exact NF | |].
         - eexists. apply clock_reads; auto.
         - destruct (N.le_gt_cases target (len (encode fs))) as [T | T]; eexists; [apply clock_reads; auto | apply clock_short; auto]. }
    destruct (rest_cases (len (encode fs ++ rest)) rest) as [S | O]; [rewrite len_app; lia | exact NF | |].
    - eexists. apply clock_reads; auto.
    - destruct (N.le_gt_cases target (len (encode fs))) as [T | T]; [eexists; apply clock_reads; auto |].
      destruct (N.lt_ge_cases (elapsed target fs + head_time rest) 4294967296) as [Y | Y]; [eexists; apply clock_short; auto |].
      destruct checks eqn:C; eexists; [apply clock_short_overflows; auto | apply clock_short; auto]. }
  exists r. split; [exact H |]. intros r' H'. exact (U r r' H H').
Qed.

Lemma clock_small : forall checks fs rest target ms, clock checks fs rest target (Ret ms) -> ms < 4294967296.
Proof. intros checks fs rest target ms H. inversion H. apply N.mod_lt. discriminate. Qed.

Lemma until_clock : forall E fs rest target, wf fs -> no_frame rest ->
  exists r, clock (checked E) fs rest target r /\
    (let! d := duration_until_offset E (encode fs ++ rest) target in Ret (Ok d)) = in_ns r.
Proof.
  intros E fs rest target W NF. pose proof (total_clock E fs rest target W NF) as H.
  unfold duration_until_offset. destruct (total_ms_until E (encode fs ++ rest) target) as [ms | p |] eqn:T; cbn [bind].
  - exists (Ret ms). split; [exact H |]. destruct (ms_to_ns_value ms (clock_small _ _ _ _ _ H)) as [-> _]. reflexivity.
  - exists (Panic p). split; [exact H | reflexivity].
  - inversion H.
Qed.

Lemma demo_duration_any_proof : forall E fs rest t, wf fs -> no_frame rest -> end_marker (encode fs ++ rest) t ->
  exists r, clock (checked E) fs rest t r /\ demo_duration E (encode fs ++ rest) = in_ns r.
Proof. intros E fs rest t W NF M. rewrite (demo_duration_offset E _ t M). apply until_clock; assumption. Qed.

Lemma countdown_any_proof : forall E fs rest, wf fs -> no_frame rest ->
  (len (encode fs ++ rest) < 1280 -> countdown_duration E (encode fs ++ rest) = Panic PSlice) /\
  (forall r, serverinfo E (encode fs ++ rest) = Ret r -> (forall s, r = Ok s -> st_mode s <> Some (lit "hoonymode")) ->
     (~ occurs (encode fs ++ rest) matchdate_marker -> countdown_duration E (encode fs ++ rest) = Ret (Err "Countdown not found")) /\
     (forall c, first_at (encode fs ++ rest) matchdate_marker c ->
        exists r, clock (checked E) fs rest c r /\ countdown_duration E (encode fs ++ rest) = in_ns r)).
Proof.
  intros E fs rest W NF. split; [| intros r S H; split].
  - intros L. unfold countdown_duration, serverinfo. rewrite serverinfo_string_short by exact L. reflexivity.
  - apply (countdown_missing_proof E _ r S H).
  - intros c F. unfold countdown_duration. rewrite S. cbn [bind]. rewrite (hoony_false r H).
    apply find_some in F. change matchdate_marker with MATCHDATE_NEEDLE in F. rewrite F. apply until_clock; assumption.
Qed.

(** The subtraction *)
Lemma seeking_any_proof : forall E fs rest r t c ms cs, wf fs -> no_frame rest ->
  serverinfo E (encode fs ++ rest) = Ret r -> (forall s, r = Ok s -> st_mode s <> Some (lit "hoonymode")) ->
  end_marker (encode fs ++ rest) t -> first_at (encode fs ++ rest) matchdate_marker c ->
  clock (checked E) fs rest t (Ret ms) -> clock (checked E) fs rest c (Ret cs) ->
  ((ms_to_ns cs <= ms_to_ns ms)%Z ->
     match_duration_from_seeking E (encode fs ++ rest) = Ret (Ok (Z.to_N (ms_to_ns ms - ms_to_ns cs)))) /\
  ((ms_to_ns ms < ms_to_ns cs)%Z -> match_duration_from_seeking E (encode fs ++ rest) = Panic PDurationSub).
Proof.
  intros E fs rest r t c ms cs W NF S H M F CM CC.
  destruct (demo_duration_any_proof E fs rest t W NF M) as [r1 [K1 D1]].
  destruct (countdown_any_proof E fs rest W NF) as [_ X]. destruct (X r S H) as [_ Y]. destruct (Y c F) as [r2 [K2 D2]].
  destruct (clock_one_proof (checked E) fs rest t NF) as [u1 [_ U1]].
  destruct (clock_one_proof (checked E) fs rest c NF) as [u2 [_ U2]].
  assert (r1 = Ret ms) as -> by (rewrite (U1 _ K1), <- (U1 _ CM); reflexivity).
  assert (r2 = Ret cs) as -> by (rewrite (U2 _ K2), <- (U2 _ CC); reflexivity).
  unfold match_duration_from_seeking. rewrite D1, D2. cbn [in_ns bind]. unfold duration_sub.
  destruct (ms_to_ns_value ms (clock_small _ _ _ _ _ CM)) as [_ P1]. destruct (ms_to_ns_value cs (clock_small _ _ _ _ _ CC)) as [_ P2].
  split; intros L.
  - replace (Z.to_N (ms_to_ns cs) <=? Z.to_N (ms_to_ns ms)) with true by (symmetry; apply N.leb_le; apply Z2N.inj_le; assumption).
    cbn [bind]. rewrite Z2N.inj_sub by exact P2. reflexivity.
  - replace (Z.to_N (ms_to_ns cs) <=? Z.to_N (ms_to_ns ms)) with false; [reflexivity |].
    symmetry. apply N.leb_gt. apply Z2N.inj_lt; assumption.
Qed.

Lemma seeking_stops_proof : forall E fs rest t, wf fs -> no_frame rest -> end_marker (encode fs ++ rest) t ->
  (forall p, clock (checked E) fs rest t (Panic p) -> match_duration_from_seeking E (encode fs ++ rest) = Panic p) /\
  (forall ms, clock (checked E) fs rest t (Ret ms) ->
     (len (encode fs ++ rest) < 1280 -> match_duration_from_seeking E (encode fs ++ rest) = Panic PSlice) /\
     (forall s, serverinfo E (encode fs ++ rest) = Ret (Ok s) -> st_mode s = Some (lit "hoonymode") ->
        match_duration_from_seeking E (encode fs ++ rest) = in_ns (Ret ms)) /\
     (forall r, serverinfo E (encode fs ++ rest) = Ret r -> ~ occurs (encode fs ++ rest) matchdate_marker ->
        match_duration_from_seeking E (encode fs ++ rest) = in_ns (Ret ms)) /\
     (forall r c p, serverinfo E (encode fs ++ rest) = Ret r -> (forall s, r = Ok s -> st_mode s <> Some (lit "hoonymode")) ->
        first_at (encode fs ++ rest) matchdate_marker c -> clock (checked E) fs rest c (Panic p) ->
        match_duration_from_seeking E (encode fs ++ rest) = Panic p)).
Proof.
  intros E fs rest t W NF M.
  destruct (demo_duration_any_proof E fs rest t W NF M) as [r1 [K1 D1]].
  destruct (clock_one_proof (checked E) fs rest t NF) as [u1 [_ U1]]. rewrite (U1 _ K1) in D1.
  assert (forall d, duration_sub d 0 = Ret d) as SUB0.
  { intros d. unfold duration_sub. replace (0 <=? d) with true by lia. f_equal. lia. }
  split; [| intros ms CM; split; [| split; [| split]]].
  - intros p CP. unfold match_duration_from_seeking. rewrite D1, <- (U1 _ CP). reflexivity.
  - intros L. unfold match_duration_from_seeking. rewrite D1, <- (U1 _ CM). cbn [in_ns bind].
    destruct (countdown_any_proof E fs rest W NF) as [X _]. rewrite (X L). reflexivity.
  - intros s S H. unfold match_duration_from_seeking. rewrite D1, <- (U1 _ CM). cbn [in_ns bind].
    rewrite (countdown_hoony_proof E _ s S H). cbn [bind]. rewrite SUB0. reflexivity.
  - intros r S F. unfold match_duration_from_seeking. rewrite D1, <- (U1 _ CM). cbn [in_ns bind].
    destruct (is_hoonymode r) eqn:H.
    + destruct (hoony_cases r H) as [s [-> HM]]. rewrite (countdown_hoony_proof E _ s S HM). cbn [bind]. rewrite SUB0. reflexivity.
    + unfold countdown_duration. rewrite S. cbn [bind]. rewrite H. apply find_none in F.
      change matchdate_marker with MATCHDATE_NEEDLE in F. rewrite F. cbn [bind]. rewrite SUB0. reflexivity.
  - intros r c p S H F CP. unfold match_duration_from_seeking. rewrite D1, <- (U1 _ CM). cbn [in_ns bind].
    destruct (countdown_any_proof E fs rest W NF) as [_ X]. destruct (X r S H) as [_ Y]. destruct (Y c F) as [r2 [K2 D2]].
    destruct (clock_one_proof (checked E) fs rest c NF) as [u2 [_ U2]]. rewrite D2, (U2 _ K2), <- (U2 _ CP). reflexivity.
Qed.
