(** Durations (C06 - C09). *)
From Coq Require Import Lia ZifyN ZifyNat ZifyBool.
From Coq Require Import Reals Lra.
From Flocq Require Import Core.Core.
From Verif.Model Require Import Base Env Frame Bytesextra Serverinfo Ktxstats Matchdate Float Duration.
From Verif.Spec Require Import Occ Mvd Messages Pings Times.
From Verif.Proofs Require Import BaseFacts FrameFacts PrintFacts RoundFacts PingFacts.
Open Scope N_scope.

(** The walk *)
Definition ms_loop (E : env) (target : N) (total : N) (i : info) : M (step N) :=
  if target <=? i_index i then Ret (Break total)
  else
    let! total := uadd E u32_bound total (i_duration i) in
    Ret (Continue total).

Definition ms_g (E : env) (target : N) (total : N) (idx : N) (f : frame) : M (step N) :=
  if target <=? idx then Ret (Break total)
  else
    let! total := uadd E u32_bound total (n_of (f_time f)) in
    Ret (Continue total).

Lemma ms_body : forall E target st idx f,
  ms_loop E target st (info_of idx f) = ms_g E target st idx f.
Proof. reflexivity. Qed.

Definition times (target idx : N) (fs : list frame) : list N :=
  map (fun x => n_of (f_time (snd x))) (filter (fun x => fst x <? target) (located idx fs)).

Lemma times_late : forall fs idx target, target <= idx -> times target idx fs = [].
Proof.
  induction fs as [| f fs IH]; intros idx target H; [reflexivity |].
  unfold times. cbn [located filter fst]. replace (idx <? target) with false by lia.
  apply IH. lia.
Qed.

Lemma walk_ms : forall E target fs idx st,
  walk (ms_g E target) idx fs st =
  let! s := foldM (fun s t => uadd E u32_bound s t) (times target idx fs) st in
  Ret (if existsb (fun x => target <=? fst x) (located idx fs) then Break s else Continue s).
Proof.
  intros E target. induction fs as [| f fs IH]; intros idx st; [reflexivity |].
  cbn [walk]. unfold ms_g at 1. cbn [located existsb fst].
  destruct (target <=? idx) eqn:C.
  - cbn [bind orb]. rewrite times_late by lia. reflexivity.
  - unfold times. cbn [located filter fst]. replace (idx <? target) with true by lia.
    cbn [map foldM snd orb]. fold (times target (idx + len (encode_frame f)) fs).
    destruct (uadd E u32_bound st (n_of (f_time f))) as [s | p |]; cbn [bind]; [| reflexivity | reflexivity].
    apply IH.
Qed.

Definition ms_total (E : env) (ms : N) : M N :=
  if ms <? u32_bound then Ret ms else if checked E then Panic POverflow else Ret (ms mod u32_bound).

Lemma sum_times : forall E target fs,
  foldM (fun s t => uadd E u32_bound s t) (times target 0 fs) 0 = ms_total E (elapsed target fs).
Proof. intros. rewrite sum_fold by reflexivity. rewrite N.add_0_l. reflexivity. Qed.

Lemma total_ms_quiet : forall E fs rest target, wf fs -> stops (len (encode fs ++ rest)) rest ->
  total_ms_until E (encode fs ++ rest) target = ms_total E (elapsed target fs).
Proof.
  intros E fs rest target W Q. unfold total_ms_until. fold (ms_loop E target).
  rewrite (frame_loop_quiet _ E (encode fs ++ rest) _ (ms_g E target) fs rest);
    [| reflexivity | exact W | exact Q | intros; apply ms_body].
  rewrite walk_ms, sum_times. destruct (ms_total E (elapsed target fs)) as [s | |]; cbn [bind]; try reflexivity.
  destruct (existsb _ _); reflexivity.
Qed.

Lemma located_bound : forall fs idx x, In x (located idx fs) -> fst x <= idx + len (encode fs).
Proof.
  induction fs as [| f fs IH]; intros idx x H; [contradiction |]. cbn [located] in H.
  rewrite encode_cons, len_app. destruct H as [<- | H]; [simpl; lia |].
  apply IH in H. lia.
Qed.

Lemma total_ms_crash : forall E fs rest target, wf fs -> overruns (len (encode fs ++ rest)) rest ->
  if target <=? len (encode fs)
  then total_ms_until E (encode fs ++ rest) target = ms_total E (elapsed target fs)
  else exists p, total_ms_until E (encode fs ++ rest) target = Panic p.
Proof.
  intros E fs rest target W Q. unfold total_ms_until. fold (ms_loop E target).
  destruct (frame_loop_crash _ E (encode fs ++ rest) (ms_loop E target) (ms_g E target) fs rest 0)
    as [i [_ [_ [I ->]]]]; [reflexivity | exact W | exact Q | intros; apply ms_body |].
  rewrite walk_ms, sum_times.
  destruct (existsb (fun x => target <=? fst x) (located 0 fs)) eqn:X.
  - apply existsb_exists in X. destruct X as [x [X1 X2]]. apply located_bound in X1.
    replace (target <=? len (encode fs)) with true by lia.
    destruct (ms_total E (elapsed target fs)); reflexivity.
  - unfold ms_loop. rewrite I. destruct (target <=? len (encode fs)).
    + destruct (ms_total E (elapsed target fs)); reflexivity.
    + unfold ms_total. destruct (elapsed target fs <? u32_bound); [| destruct (checked E)]; cbn [bind]; eauto;
        (destruct (uadd E u32_bound _ _) as [? | ? |] eqn:U; cbn [bind]; eauto;
         unfold uadd in U; destruct (_ <? _); try destruct (checked E); discriminate).
Qed.

Lemma elapsed_mono : forall fs a b, a <= b -> elapsed a fs <= elapsed b fs.
Proof.
  intros fs a b H. unfold elapsed. generalize (located 0 fs) as l. induction l as [| x l IH]; [reflexivity |].
  cbn [filter]. destruct (fst x <? a) eqn:A.
  - replace (fst x <? b) with true by lia. cbn [map fold_right]. lia.
  - destruct (fst x <? b); cbn [map fold_right]; lia.
Qed.

(** The conversion *)
Lemma single_r32 : forall x, single x = r32 x.
Proof. reflexivity. Qed.

Lemma ms_to_ns_value : forall ms, ms < 4294967296 ->
  duration_of_ms ms = Ret (Z.to_N (ms_to_ns ms)) /\ (0 <= ms_to_ns ms)%Z.
Proof.
  intros ms H. destruct (duration_of_ms_value ms H) as [d [D V]].
  change (Z.of_N d = ms_to_ns ms) in V. rewrite <- V, N2Z.id. split; [exact D | lia].
Qed.

Lemma ms_to_ns_mono_proof : forall a b, a <= b -> (ms_to_ns a <= ms_to_ns b)%Z.
Proof.
  intros a b H. unfold ms_to_ns. apply ZnearestE_le. apply Rmult_le_compat_r; [lra |].
  apply (secs_of_ms_mono (Z.of_N a) (Z.of_N b)). lia.
Qed.

Lemma ms_to_ns_close_proof : forall ms, ms < 16384000 ->
  (2 * Z.abs (ms_to_ns ms - 1000000 * Z.of_N ms) < 1000000)%Z.
Proof.
  intros ms H. destruct (duration_of_ms_error ms H) as [d [D V]].
  destruct (ms_to_ns_value ms) as [D' P]; [lia |]. rewrite D in D'. inv D'.
  rewrite Z2N.id in V by exact P. exact V.
Qed.

Lemma ms_to_ns_seconds_proof : forall ms, ms < 16777216 ->
  (ms_to_ns ms / 1000000000 = Z.of_N (ms / 1000))%Z.
Proof.
  intros ms H. destruct (duration_of_ms_secs ms H) as [d [D V]].
  destruct (ms_to_ns_value ms) as [D' P]; [lia |]. rewrite D in D'. inv D'.
  rewrite <- V, N2Z.inj_div, Z2N.id by exact P. reflexivity.
Qed.

Lemma ms_to_ns_whole_proof : forall s, s <= 16777 -> ms_to_ns (1000 * s) = (Z.of_N s * 1000000000)%Z.
Proof.
  intros s H. pose proof (duration_of_ms_whole s H) as D.
  destruct (ms_to_ns_value (1000 * s)) as [D' P]; [lia |]. rewrite D in D'. injection D' as E.
  rewrite <- (Z2N.id (ms_to_ns (1000 * s))) by exact P. rewrite <- E. lia.
Qed.

(** demo_duration *)
Lemma end_marker_offset : forall data,
  end_marker data (match rfind data NEEDLE_MATCH_OVER with
                   | Some o => o
                   | None => match rfind data NEEDLE_STANDBY with Some o => o | None => len data end
                   end).
Proof.
  intros data. unfold end_marker. change match_over with NEEDLE_MATCH_OVER. change standby with NEEDLE_STANDBY.
  destruct (rfind data NEEDLE_MATCH_OVER) as [o |] eqn:R1.
  - left. apply rfind_some. exact R1.
  - apply rfind_none in R1. destruct (rfind data NEEDLE_STANDBY) as [o |] eqn:R2.
    + right; left. split; [exact R1 | apply rfind_some; exact R2].
    + apply rfind_none in R2. right; right. auto.
Qed.

Lemma last_at_occurs : forall d p i, last_at d p i -> occurs d p.
Proof. intros d p i [H _]. apply occurs_iff. eauto. Qed.

Lemma end_marker_unique : forall data i j, end_marker data i -> end_marker data j -> i = j.
Proof.
  intros data i j [A | [[A B] | [A [B C]]]] [A' | [[A' B'] | [A' [B' C']]]];
    try (exfalso; match goal with
      | H : ~ occurs ?d ?p, L : last_at ?d ?p _ |- _ => apply H; eapply last_at_occurs; exact L
      end); try (eapply last_at_unique; eassumption); congruence.
Qed.

Lemma demo_duration_offset : forall E data t, end_marker data t ->
  demo_duration E data = let! d := duration_until_offset E data t in Ret (Ok d).
Proof.
  intros E data t H. unfold demo_duration.
  rewrite (end_marker_unique data t _ H (end_marker_offset data)). reflexivity.
Qed.

Lemma duration_until_quiet : forall E fs rest t, wf fs -> stops (len (encode fs ++ rest)) rest ->
  elapsed t fs < 4294967296 ->
  duration_until_offset E (encode fs ++ rest) t = Ret (Z.to_N (ms_to_ns (elapsed t fs))).
Proof.
  intros E fs rest t W Q L. unfold duration_until_offset. rewrite total_ms_quiet by assumption.
  unfold ms_total, u32_bound. replace (elapsed t fs <? 4294967296) with true by lia. cbn [bind].
  apply ms_to_ns_value. exact L.
Qed.

Lemma demo_duration_proof : forall E fs rest t, wf fs -> stops (len (encode fs ++ rest)) rest ->
  end_marker (encode fs ++ rest) t -> elapsed t fs < 4294967296 ->
  exists d, demo_duration E (encode fs ++ rest) = Ret (Ok d) /\ Z.of_N d = ms_to_ns (elapsed t fs).
Proof.
  intros E fs rest t W Q M L. exists (Z.to_N (ms_to_ns (elapsed t fs))). split.
  - rewrite (demo_duration_offset E _ t M), duration_until_quiet by assumption. reflexivity.
  - apply Z2N.id. apply ms_to_ns_value. exact L.
Qed.

(** The same for a truncated demo whose end marker lies before the truncated frame, and the
    panic otherwise. *)
Lemma demo_duration_truncated_proof : forall E fs rest t, wf fs -> overruns (len (encode fs ++ rest)) rest ->
  end_marker (encode fs ++ rest) t -> elapsed t fs < 4294967296 ->
  (t <= len (encode fs) ->
   exists d, demo_duration E (encode fs ++ rest) = Ret (Ok d) /\ Z.of_N d = ms_to_ns (elapsed t fs)) /\
  (len (encode fs) < t -> exists p, demo_duration E (encode fs ++ rest) = Panic p).
Proof.
  intros E fs rest t W Q M L. rewrite (demo_duration_offset E _ t M). unfold duration_until_offset.
  pose proof (total_ms_crash E fs rest t W Q) as C. split; intros H.
  - replace (t <=? len (encode fs)) with true in C by lia. rewrite C. unfold ms_total, u32_bound.
    replace (elapsed t fs <? 4294967296) with true by lia. cbn [bind].
    destruct (ms_to_ns_value (elapsed t fs) L) as [D P]. rewrite D. cbn [bind].
    eexists. split; [reflexivity |]. apply Z2N.id. exact P.
  - replace (t <=? len (encode fs)) with false in C by lia. destruct C as [p ->]. exists p. reflexivity.
Qed.

Lemma demo_duration_overflow_proof : forall E fs rest t, wf fs -> stops (len (encode fs ++ rest)) rest ->
  end_marker (encode fs ++ rest) t -> 4294967296 <= elapsed t fs ->
  if checked E then demo_duration E (encode fs ++ rest) = Panic POverflow
  else exists d, demo_duration E (encode fs ++ rest) = Ret (Ok d) /\
       Z.of_N d = ms_to_ns (elapsed t fs mod 4294967296).
Proof.
  intros E fs rest t W Q M L. rewrite (demo_duration_offset E _ t M). unfold duration_until_offset.
  rewrite total_ms_quiet by assumption. unfold ms_total, u32_bound.
  replace (elapsed t fs <? 4294967296) with false by lia. destruct (checked E); cbn [bind]; [reflexivity |].
  assert (B : elapsed t fs mod 4294967296 < 4294967296) by (apply N.mod_lt; lia).
  destruct (ms_to_ns_value _ B) as [D P]. rewrite D. cbn [bind].
  eexists. split; [reflexivity |]. apply Z2N.id. exact P.
Qed.

(** countdown_duration and match_duration_from_seeking *)
Lemma countdown_hoony_proof : forall E data s, serverinfo E data = Ret (Ok s) ->
  st_mode s = Some (lit "hoonymode") -> countdown_duration E data = Ret (Ok 0).
Proof.
  intros E data s H M. unfold countdown_duration. rewrite H. cbn [bind is_hoonymode is_ok_and].
  rewrite M. unfold HOONYMODE. rewrite beq_refl. reflexivity.
Qed.

Lemma hoony_false : forall r, (forall s, r = Ok s -> st_mode s <> Some (lit "hoonymode")) ->
  is_hoonymode r = false.
Proof.
  intros [s | e] H; [| reflexivity]. unfold is_hoonymode. cbn [is_ok_and].
  specialize (H s eq_refl). destruct (st_mode s) as [m |]; [| reflexivity].
  apply beq_neq. intros C. apply H. f_equal. exact C.
Qed.

Lemma hoony_cases : forall r, is_hoonymode r = true ->
  exists s, r = Ok s /\ st_mode s = Some (lit "hoonymode").
Proof.
  intros [s | e] H; [| discriminate]. unfold is_hoonymode in H. cbn [is_ok_and] in H.
  exists s. split; [reflexivity |]. destruct (st_mode s) as [m |]; [| discriminate].
  apply beq_eq in H. f_equal. exact H.
Qed.

Lemma countdown_proof : forall E fs rest r c, wf fs -> stops (len (encode fs ++ rest)) rest ->
  serverinfo E (encode fs ++ rest) = Ret r ->
  (forall s, r = Ok s -> st_mode s <> Some (lit "hoonymode")) ->
  first_at (encode fs ++ rest) matchdate_marker c -> elapsed c fs < 4294967296 ->
  exists d, countdown_duration E (encode fs ++ rest) = Ret (Ok d) /\ Z.of_N d = ms_to_ns (elapsed c fs).
Proof.
  intros E fs rest r c W Q S H F L. exists (Z.to_N (ms_to_ns (elapsed c fs))). split.
  - unfold countdown_duration. rewrite S. cbn [bind]. rewrite (hoony_false r H).
    apply find_some in F. change matchdate_marker with MATCHDATE_NEEDLE in F. rewrite F.
    rewrite duration_until_quiet by assumption. reflexivity.
  - apply Z2N.id. apply ms_to_ns_value. exact L.
Qed.

Lemma countdown_missing_proof : forall E data r, serverinfo E data = Ret r ->
  (forall s, r = Ok s -> st_mode s <> Some (lit "hoonymode")) ->
  ~ occurs data matchdate_marker -> countdown_duration E data = Ret (Err "Countdown not found").
Proof.
  intros E data r S H F. unfold countdown_duration. rewrite S. cbn [bind]. rewrite (hoony_false r H).
  apply find_none in F. change matchdate_marker with MATCHDATE_NEEDLE in F. rewrite F. reflexivity.
Qed.

(** begin of the match as seeking sees it *)
Lemma seeking_proof : forall E fs rest r t, wf fs -> stops (len (encode fs ++ rest)) rest ->
  serverinfo E (encode fs ++ rest) = Ret r ->
  end_marker (encode fs ++ rest) t -> elapsed t fs < 4294967296 ->
  (forall c, first_at (encode fs ++ rest) matchdate_marker c -> c <= t) ->
  exists total countdown,
    demo_duration E (encode fs ++ rest) = Ret (Ok total) /\
    (countdown_duration E (encode fs ++ rest) = Ret (Ok countdown) \/
     exists e, countdown_duration E (encode fs ++ rest) = Ret (Err e) /\ countdown = 0) /\
    countdown <= total /\
    match_duration_from_seeking E (encode fs ++ rest) = Ret (Ok (total - countdown)).
Proof.
  intros E fs rest r t W Q S M L C.
  destruct (demo_duration_proof E fs rest t W Q M L) as [d [D V]].
  unfold match_duration_from_seeking. rewrite D. cbn [bind].
  assert (K : exists cd, (countdown_duration E (encode fs ++ rest) = Ret (Ok cd) /\ cd <= d) \/
                         (cd = 0 /\ exists e, countdown_duration E (encode fs ++ rest) = Ret (Err e))).
  { destruct (is_hoonymode r) eqn:H.
    - destruct (hoony_cases r H) as [s [-> HM]]. exists 0. left. split; [| lia].
      apply (countdown_hoony_proof E _ s S HM).
    - assert (H' : forall s, r = Ok s -> st_mode s <> Some (lit "hoonymode")).
      { intros s -> HM. unfold is_hoonymode in H. cbn [is_ok_and] in H. rewrite HM in H.
        unfold HOONYMODE in H. rewrite beq_refl in H. discriminate. }
      destruct (find (encode fs ++ rest) matchdate_marker) as [c |] eqn:F.
      + apply find_some in F. pose proof (C c F) as CT. pose proof (elapsed_mono fs c t CT) as EM.
        destruct (countdown_proof E fs rest r c W Q S H' F) as [cd [CD VC]]; [lia |].
        exists cd. left. split; [exact CD |]. apply N2Z.inj_le. rewrite VC, V. apply ms_to_ns_mono_proof. exact EM.
      + apply find_none in F. exists 0. right. split; [reflexivity |]. eexists.
        apply (countdown_missing_proof E _ r S H' F). }
  destruct K as [cd [[K1 K2] | [K1 [e K2]]]].
  - exists d, cd. rewrite K1. cbn [bind]. unfold duration_sub. replace (cd <=? d) with true by lia.
    cbn [bind]. repeat split; auto.
  - subst cd. exists d, 0. rewrite K2. cbn [bind]. unfold duration_sub. replace (0 <=? d) with true by lia.
    cbn [bind]. split; [reflexivity |]. split; [right; exists e; auto |]. split; [lia | reflexivity].
Qed.
