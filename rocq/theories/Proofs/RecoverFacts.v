(** The milliseconds behind a duration *)
From Coq Require Import Lia ZifyN ZifyNat ZifyBool.
From Coq Require Import Reals Lra.
From Flocq Require Import Core.Core.
From Verif.Model Require Import Base Env Frame Serverinfo Matchdate Float Duration.
From Verif.Spec Require Import Occ Mvd Messages Times Splice.
From Verif.Proofs Require Import BaseFacts RoundFacts TimeFacts SpliceFacts LongFacts.
Open Scope N_scope.

Lemma ms_to_ns_closer : forall ms, ms < 8192000 ->
  (4 * Z.abs (ms_to_ns ms - 1000000 * Z.of_N ms) < 1000000)%Z.
Proof.
  intros ms H. destruct (duration_of_ms_value ms ltac:(lia)) as [d [D V]].
  change (Z.of_N d = ms_to_ns ms) in V. rewrite <- V. unfold ms_to_ns in V. rewrite !single_r32 in V.
  rewrite r32_int in V by lia. set (x := (IZR (Z.of_N ms) / 1000)%R) in V.
  assert (X0 : (0 <= IZR (Z.of_N ms))%R) by (apply IZR_le; lia).
  assert (X1 : (IZR (Z.of_N ms) <= 8191999)%R) by (apply IZR_le; lia).
  assert (Er : (Rabs (r32 x - x) <= / 2 * bpow radix2 (13 - 24))%R).
  { apply (rnd_error 24 128 Hp32); [| vm_compute; discriminate].
    unfold x. simpl. unfold Z.pow_pos; simpl. lra. }
  simpl in Er. unfold Z.pow_pos in Er; simpl in Er.
  pose proof (Znearest_near (r32 x * 1000000000)) as Nr. rewrite <- V in Nr.
  apply Rabs_le_inv in Er. apply Rabs_le_inv in Nr.
  assert (B : (-249999 < IZR (Z.of_N d - 1000000 * Z.of_N ms) < 249999)%R).
  { rewrite minus_IZR, mult_IZR. unfold x in Er, Nr. lra. }
  destruct B as [B1 B2]. apply lt_IZR in B1. apply lt_IZR in B2. lia.
Qed.

Lemma nearest_ms : forall d m, (2 * Z.abs (Z.of_N d - 1000000 * Z.of_N m) < 1000000)%Z -> (d + 500000) / 1000000 = m.
Proof. intros d m H. symmetry. apply (N.div_unique _ _ _ (d + 500000 - 1000000 * m)); lia. Qed.

Lemma demo_time_proof : forall E fs rest t d, wf fs -> stops (len (encode fs ++ rest)) rest ->
  end_marker (encode fs ++ rest) t -> elapsed t fs < 16384000 ->
  demo_duration E (encode fs ++ rest) = Ret (Ok d) -> (d + 500000) / 1000000 = elapsed t fs.
Proof.
  intros E fs rest t d W Q M L D. destruct (demo_duration_proof E fs rest t W Q M) as [d' [D' V]]; [lia |].
  rewrite D in D'. injection D' as <-. apply nearest_ms. rewrite V. apply ms_to_ns_close_proof. exact L.
Qed.

Lemma seeking_value : forall E fs rest r t c d, wf fs -> stops (len (encode fs ++ rest)) rest ->
  serverinfo E (encode fs ++ rest) = Ret r -> (forall s, r = Ok s -> st_mode s <> Some (lit "hoonymode")) ->
  end_marker (encode fs ++ rest) t -> first_at (encode fs ++ rest) matchdate_marker c -> c <= t -> elapsed t fs < 4294967296 ->
  match_duration_from_seeking E (encode fs ++ rest) = Ret (Ok d) ->
  Z.of_N d = (ms_to_ns (elapsed t fs) - ms_to_ns (elapsed c fs))%Z /\ elapsed c fs <= elapsed t fs.
Proof.
  intros E fs rest r t c d W Q S H M F CT L D. pose proof (elapsed_mono fs c t CT) as EM. split; [| exact EM].
  destruct (demo_duration_proof E fs rest t W Q M L) as [dt [DT VT]].
  destruct (countdown_proof E fs rest r c W Q S H F) as [dc [DC VC]]; [lia |].
  destruct (seeking_proof E fs rest r t W Q S M L) as [total [cd [A [B [LE R]]]]].
  { intros c' F'. destruct (first_at_unique _ _ _ _ F F'). exact CT. }
  rewrite DT in A. injection A as <-. destruct B as [B | [e [B _]]]; [| congruence].
  rewrite DC in B. injection B as <-. rewrite D in R. injection R as ->. lia.
Qed.

Lemma match_time_close : forall E fs rest r t c d, wf fs -> stops (len (encode fs ++ rest)) rest ->
  serverinfo E (encode fs ++ rest) = Ret r -> (forall s, r = Ok s -> st_mode s <> Some (lit "hoonymode")) ->
  end_marker (encode fs ++ rest) t -> first_at (encode fs ++ rest) matchdate_marker c -> c <= t ->
  elapsed t fs < 16384000 ->
  match_duration_from_seeking E (encode fs ++ rest) = Ret (Ok d) ->
  (Z.abs (Z.of_N d - 1000000 * Z.of_N (elapsed t fs - elapsed c fs)) < 1000000)%Z.
Proof.
  intros E fs rest r t c d W Q S H M F CT L D.
  destruct (seeking_value E fs rest r t c d) as [V LE]; try assumption; [lia |].
  pose proof (ms_to_ns_close_proof (elapsed t fs) L). pose proof (ms_to_ns_close_proof (elapsed c fs)). lia.
Qed.

Lemma match_time_proof : forall E fs rest r t c d, wf fs -> stops (len (encode fs ++ rest)) rest ->
  serverinfo E (encode fs ++ rest) = Ret r -> (forall s, r = Ok s -> st_mode s <> Some (lit "hoonymode")) ->
  end_marker (encode fs ++ rest) t -> first_at (encode fs ++ rest) matchdate_marker c -> c <= t ->
  elapsed t fs < 8192000 ->
  match_duration_from_seeking E (encode fs ++ rest) = Ret (Ok d) -> (d + 500000) / 1000000 = elapsed t fs - elapsed c fs.
Proof.
  intros E fs rest r t c d W Q S H M F CT L D.
  destruct (seeking_value E fs rest r t c d) as [V LE]; try assumption; [lia |].
  apply nearest_ms. pose proof (ms_to_ns_closer (elapsed t fs) L). pose proof (ms_to_ns_closer (elapsed c fs)). lia.
Qed.

(** Demos that only wait, the last frame for [b] milliseconds *)
Definition waits (n : nat) (b : byte) : list frame := repeat idle n ++ [mkFrame b x06 [] []].
Lemma waits_wf : forall n b, wf (waits n b).
Proof. intros n b. apply Forall_app. split; [apply idle_wf |]. constructor; [split; reflexivity | constructor]. Qed.
Lemma waits_bytes : forall n b, encode (waits n b) = encode (repeat idle n) ++ [b; x06; x00; x00; x00; x00].
Proof. intros n b. unfold waits, encode. rewrite map_app, concat_app. reflexivity. Qed.
Lemma waits_end : forall n b, b <> x54 -> b <> x34 -> end_marker (encode (waits n b)) (len (encode (waits n b))).
Proof.
  intros n b T F. right. right. split; [| split; [| reflexivity]].
  - apply (without x54); [left; reflexivity |]. rewrite waits_bytes. intros I. apply in_app_or in I. destruct I as [I | I].
    + apply idle_in in I. intuition discriminate.
    + destruct I as [I | I]; [congruence |]. vm_compute in I. intuition discriminate.
  - apply (without x34); [left; reflexivity |]. rewrite waits_bytes. intros I. apply in_app_or in I. destruct I as [I | I].
    + apply idle_in in I. intuition discriminate.
    + destruct I as [I | I]; [congruence |]. vm_compute in I. intuition discriminate.
Qed.
Lemma waits_elapsed : forall n b, elapsed (len (encode (waits n b))) (waits n b) = 255 * N.of_nat n + n_of b.
Proof.
  intros n b. rewrite waits_bytes, len_app. unfold waits. rewrite elapsed_second, idle_time. f_equal.
  destruct b; reflexivity.
Qed.
Lemma waits_duration : forall E n b, b <> x54 -> b <> x34 -> 255 * N.of_nat n + n_of b < 4294967296 ->
  exists d, demo_duration E (encode (waits n b)) = Ret (Ok d) /\ duration_of_ms (255 * N.of_nat n + n_of b) = Ret d.
Proof.
  intros E n b T F L.
  destruct (demo_duration_proof E (waits n b) [] (len (encode (waits n b)))) as [d [D V]].
  - apply waits_wf.
  - exact Logic.I.
  - rewrite app_nil_r. apply waits_end; assumption.
  - rewrite waits_elapsed. exact L.
  - rewrite app_nil_r in D. exists d. split; [exact D |]. rewrite waits_elapsed in V.
    destruct (ms_to_ns_value _ L) as [-> _]. rewrite <- V, N2Z.id. reflexivity.
Qed.
