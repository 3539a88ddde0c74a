(** C60: durations on any bytes. *)
From Verif.Model Require Import Base Env Frame Serverinfo Float Duration.
From Verif.Spec Require Import Occ Mvd Messages Times Clock.
From Verif.Proofs Require Import BaseFacts TimeFacts ClockFacts.
From Verif.Properties Require Import Sample Times.

(** C60.  [walk_split] (Properties/Walk.v) splits any bytes into complete frames and a rest
    without one. *)
Theorem clock_one : forall checks fs rest target, no_frame rest ->
  exists r, clock checks fs rest target r /\ forall r', clock checks fs rest target r' -> r' = r.
Proof. exact clock_one_proof. Qed.

Theorem demo_duration_any : forall E fs rest t, wf fs -> no_frame rest -> end_marker (encode fs ++ rest) t ->
  exists r, clock (checked E) fs rest t r /\ demo_duration E (encode fs ++ rest) = in_ns r.
Proof. exact demo_duration_any_proof. Qed.

Theorem countdown_any : forall E fs rest, wf fs -> no_frame rest ->
  (len (encode fs ++ rest) < 1280 -> countdown_duration E (encode fs ++ rest) = Panic PSlice) /\
  (forall r, serverinfo E (encode fs ++ rest) = Ret r -> (forall s, r = Ok s -> st_mode s <> Some (lit "hoonymode")) ->
     (~ occurs (encode fs ++ rest) matchdate_marker -> countdown_duration E (encode fs ++ rest) = Ret (Err "Countdown not found")) /\
     (forall c, first_at (encode fs ++ rest) matchdate_marker c ->
        exists r, clock (checked E) fs rest c r /\ countdown_duration E (encode fs ++ rest) = in_ns r)).
Proof. exact countdown_any_proof. Qed.

Theorem seeking_any : forall E fs rest r t c ms cs, wf fs -> no_frame rest ->
  serverinfo E (encode fs ++ rest) = Ret r -> (forall s, r = Ok s -> st_mode s <> Some (lit "hoonymode")) ->
  end_marker (encode fs ++ rest) t -> first_at (encode fs ++ rest) matchdate_marker c ->
  clock (checked E) fs rest t (Ret ms) -> clock (checked E) fs rest c (Ret cs) ->
  ((ms_to_ns cs <= ms_to_ns ms)%Z ->
     match_duration_from_seeking E (encode fs ++ rest) = Ret (Ok (Z.to_N (ms_to_ns ms - ms_to_ns cs)))) /\
  ((ms_to_ns ms < ms_to_ns cs)%Z -> match_duration_from_seeking E (encode fs ++ rest) = Panic PDurationSub).
Proof. exact seeking_any_proof. Qed.

Theorem seeking_stops : forall E fs rest t, wf fs -> no_frame rest -> end_marker (encode fs ++ rest) t ->
  (forall p, clock (checked E) fs rest t (Panic p) -> match_duration_from_seeking E (encode fs ++ rest) = Panic p) /\
  (forall ms, clock (checked E) fs rest t (Ret ms) ->
     (len (encode fs ++ rest) < 1280 -> match_duration_from_seeking E (encode fs ++ rest) = Panic PSlice) /\
     (forall s, serverinfo E (encode fs ++ rest) = Ret (Ok s) -> st_mode s = Some (lit "hoonymode") ->
        match_duration_from_seeking E (encode fs ++ rest) = in_ns (Ret ms)) /\
     (forall r, serverinfo E (encode fs ++ rest) = Ret r -> ~ occurs (encode fs ++ rest) matchdate_marker ->
        match_duration_from_seeking E (encode fs ++ rest) = in_ns (Ret ms)) /\
     (forall r c p, serverinfo E (encode fs ++ rest) = Ret r -> (forall s, r = Ok s -> st_mode s <> Some (lit "hoonymode")) ->
        first_at (encode fs ++ rest) matchdate_marker c -> clock (checked E) fs rest c (Panic p) ->
        match_duration_from_seeking E (encode fs ++ rest) = Panic p)).
Proof. exact seeking_stops_proof. Qed.

(** A frame that lacks its last bytes, behind the end of the match and with the end of the
    match in it *)
Definition cut_frame (text : string) : bytes := [x05; x06] ++ enc32 100 ++ say x02 text.

Example cut_frame_rest : no_frame (cut_frame "bye") /\ no_frame (cut_frame "The match is over") /\
  overruns (len (encode (time_demo "\mode\1on1") ++ cut_frame "bye")) (cut_frame "bye").
Proof.
  split; [vm_compute; reflexivity |]. split; [vm_compute; reflexivity |].
  exists 106. vm_compute. repeat split; discriminate.
Qed.

Example cut_frame_results :
  clock true (time_demo "\mode\1on1") (cut_frame "bye") 1421 (Ret 655) /\
  demo_duration (sample true) (encode (time_demo "\mode\1on1") ++ cut_frame "bye") = Ret (Ok 654999971) /\
  match_duration_from_seeking (sample true) (encode (time_demo "\mode\1on1") ++ cut_frame "bye") = Ret (Ok 404999971) /\
  clock true (time_demo "\mode\1on1") (cut_frame "The match is over") 1453 (Panic PSlice) /\
  end_marker (encode (time_demo "\mode\1on1") ++ cut_frame "The match is over") 1453 /\
  demo_duration (sample true) (encode (time_demo "\mode\1on1") ++ cut_frame "The match is over") = Panic PSlice.
Proof.
  split; [change 655 with (655 mod 4294967296); replace 655 with (elapsed 1421 (time_demo "\mode\1on1")) by (vm_compute; reflexivity);
          apply clock_reads; [right; vm_compute; discriminate | left; vm_compute; reflexivity] |].
  split; [vm_compute; reflexivity |]. split; [vm_compute; reflexivity |].
  split; [apply clock_short; [exists 106; vm_compute; repeat split; discriminate | vm_compute; reflexivity | right; vm_compute; reflexivity] |].
  split; [left; apply rfind_some; vm_compute; reflexivity | vm_compute; reflexivity].
Qed.

Print Assumptions clock_one.
Print Assumptions demo_duration_any.
Print Assumptions countdown_any.
Print Assumptions seeking_any.
Print Assumptions seeking_stops.
