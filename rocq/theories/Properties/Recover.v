(** C96: the frame times behind the durations *)
From Coq Require Import Lia ZifyN ZifyNat ZifyBool.
From Verif.Model Require Import Base Env Serverinfo Matchdate Float Duration.
From Verif.Spec Require Import Occ Mvd Messages Times.
From Verif.Proofs Require Import BaseFacts LongFacts RecoverFacts.
From Verif.Properties Require Import Sample Times.
Open Scope N_scope.

(** Rounded to milliseconds, demo_duration is the sum of the frame times, up to four and a half hours. *)
Theorem demo_time_recovered : forall E fs rest t d, wf fs -> stops (len (encode fs ++ rest)) rest ->
  end_marker (encode fs ++ rest) t -> elapsed t fs < 16384000 ->
  demo_duration E (encode fs ++ rest) = Ret (Ok d) -> (d + 500000) / 1000000 = elapsed t fs.
Proof. exact demo_time_proof. Qed.

(** Two milliseconds later demos of different length have the same duration. *)
Theorem demo_time_recovered_refuted : forall E, exists fs gs t u, wf fs /\ wf gs /\
  end_marker (encode fs) t /\ end_marker (encode gs) u /\ elapsed t fs = 16384001 /\ elapsed u gs = 16384002 /\
  demo_duration E (encode fs) = demo_duration E (encode gs).
Proof.
  intros E. assert (X : exists n, N.of_nat n = 64250) by (exists (N.to_nat 64250); apply N2Nat.id).
  destruct X as [n NE].
  exists (waits n xfb), (waits n xfc), (len (encode (waits n xfb))), (len (encode (waits n xfc))).
  split; [apply waits_wf |]. split; [apply waits_wf |].
  split; [apply waits_end; discriminate |]. split; [apply waits_end; discriminate |].
  split; [rewrite waits_elapsed, NE; reflexivity |]. split; [rewrite waits_elapsed, NE; reflexivity |].
  destruct (waits_duration E n xfb) as [d [D V]]; [discriminate | discriminate | rewrite NE; reflexivity |].
  destruct (waits_duration E n xfc) as [e [D' V']]; [discriminate | discriminate | rewrite NE; reflexivity |].
  rewrite D, D'. rewrite NE in V, V'. vm_compute in V. vm_compute in V'. congruence.
Qed.

(** The time between the date and the end of the match: within a millisecond, and up to two hours and a
    quarter exact after rounding *)
Theorem match_time_near : forall E fs rest r t c d, wf fs -> stops (len (encode fs ++ rest)) rest ->
  serverinfo E (encode fs ++ rest) = Ret r -> (forall s, r = Ok s -> st_mode s <> Some (lit "hoonymode")) ->
  end_marker (encode fs ++ rest) t -> first_at (encode fs ++ rest) matchdate_marker c -> c <= t ->
  elapsed t fs < 16384000 ->
  match_duration_from_seeking E (encode fs ++ rest) = Ret (Ok d) ->
  (Z.abs (Z.of_N d - 1000000 * Z.of_N (elapsed t fs - elapsed c fs)) < 1000000)%Z.
Proof. exact match_time_close. Qed.

Theorem match_time_recovered : forall E fs rest r t c d, wf fs -> stops (len (encode fs ++ rest)) rest ->
  serverinfo E (encode fs ++ rest) = Ret r -> (forall s, r = Ok s -> st_mode s <> Some (lit "hoonymode")) ->
  end_marker (encode fs ++ rest) t -> first_at (encode fs ++ rest) matchdate_marker c -> c <= t ->
  elapsed t fs < 8192000 ->
  match_duration_from_seeking E (encode fs ++ rest) = Ret (Ok d) -> (d + 500000) / 1000000 = elapsed t fs - elapsed c fs.
Proof. exact match_time_proof. Qed.

(** Cut off instead of rounded it can be a second short: a match of exactly one second *)
Definition second_demo : list frame :=
  [ info_frame "\mode\1on1"; frame_all x02 (say x02 "ready"); frame_all x00 (say x02 "matchdate: 2024-01-01 10:00:00 UTC");
    frame_all xfa []; frame_all xfa (say x02 "fight"); frame_all xfa []; frame_all xfa [];
    frame_all x00 (say x02 "The match is over") ].
Theorem match_seconds_refuted : exists t c, wf second_demo /\ end_marker (encode second_demo) t /\
  first_at (encode second_demo) matchdate_marker c /\ c <= t /\
  elapsed t second_demo - elapsed c second_demo = 1000 /\
  match_duration (sample true) (encode second_demo) = Ret (Ok 999999974) /\
  match_duration_from_seeking (sample true) (encode second_demo) = Ret (Ok 999999974).
Proof.
  eexists. eexists. split; [repeat constructor |].
  split; [left; apply rfind_some; vm_compute; reflexivity |].
  split; [apply find_some; vm_compute; reflexivity |]. vm_compute. repeat split; discriminate.
Qed.
(** and past two hours and a quarter a millisecond wrong after rounding *)
Theorem match_time_recovered_refuted : exists a b da db, a <= b < 16384000 /\
  duration_of_ms a = Ret da /\ duration_of_ms b = Ret db /\ (db - da + 500000) / 1000000 <> b - a.
Proof. exists 8192021, 8200001, 8192021484375, 8200000976562. vm_compute. repeat split; discriminate. Qed.

Example recovered_example : (654999971 + 500000) / 1000000 = 655 /\ (404999971 + 500000) / 1000000 = 655 - 250.
Proof. vm_compute. auto. Qed.

Print Assumptions demo_time_recovered.
Print Assumptions demo_time_recovered_refuted.
Print Assumptions match_time_near.
Print Assumptions match_time_recovered.
Print Assumptions match_seconds_refuted.
Print Assumptions match_time_recovered_refuted.
