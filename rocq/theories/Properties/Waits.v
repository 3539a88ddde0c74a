(** C91: an empty frame lets time pass and changes nothing else *)
From Coq Require Import Lia ZifyN ZifyNat ZifyBool.
From Verif.Model Require Import Base Env Prot Message Serverinfo Clientinfo Clients Frags Flags Ping Ktxstats Matchdate
  Duration Validate Players Prints.
From Verif.Spec Require Import Occ Mvd Messages Texts Times Stats Obituary Score Join Chat Wait.
From Verif.Proofs Require Import BaseFacts FrameFacts SpliceFacts ChatFacts WaitFacts.
From Verif.Properties Require Import Sample Times Chat.

(** What is searched for in the whole demo, *)
Theorem wait_marks : forall fs gs t, place fs gs ->
  let data := encode (fs ++ gs) in
  let data' := encode (fs ++ wait t :: gs) in
  has_end_of_demo_print data' = has_end_of_demo_print data /\ is_paused data' = is_paused data /\
  is_aborted data' = is_aborted data.
Proof. exact wait_marks_proof. Qed.

(** what is counted frame by frame, *)
Theorem wait_counts : forall E fs gs t, place fs gs ->
  let data := encode (fs ++ gs) in
  let data' := encode (fs ++ wait t :: gs) in
  prints E data' = prints E data /\
  flag_events_per_player_name E data' = flag_events_per_player_name E data /\
  ping_per_player_number E data' = ping_per_player_number E data /\
  (all_named E (fs ++ gs) \/ clients_before_place fs -> frags_per_player_name E data' = frags_per_player_name E data).
Proof. exact wait_counts_proof. Qed.

(** what is read from the head, *)
Theorem wait_head : forall E fs gs t, 1280 <= len (encode fs) ->
  let data := encode (fs ++ gs) in
  let data' := encode (fs ++ wait t :: gs) in
  serverinfo_string E data' = serverinfo_string E data /\ serverinfo E data' = serverinfo E data /\
  filename E data' = filename E data /\ timestamp_from_epoch E data' = timestamp_from_epoch E data.
Proof. exact wait_head_proof. Qed.

(** the clients and the validity, *)
Theorem wait_clients : forall E fs gs t, place fs gs -> clients_before_place fs ->
  let data := encode (fs ++ gs) in
  let data' := encode (fs ++ wait t :: gs) in
  clientinfo_strings E data' = clientinfo_strings E data /\ clientinfo E data' = clientinfo E data /\
  clients E data' = clients E data /\ player_clients E data' = player_clients E data /\
  spectator_clients E data' = spectator_clients E data /\ player_names E data' = player_names E data /\
  spectator_names E data' = spectator_names E data /\ team_names E data' = team_names E data /\
  has_human_players E data' = has_human_players E data /\ has_bot_players E data' = has_bot_players E data /\
  is_valid E data' = is_valid E data.
Proof. exact wait_clients_proof. Qed.

(** the date, *)
Theorem wait_date_same : forall E fs gs t, place fs gs -> 1280 <= len (encode fs) -> date_beside_place fs gs ->
  let data := encode (fs ++ gs) in
  let data' := encode (fs ++ wait t :: gs) in
  matchdate_string data' = matchdate_string data /\ matchdate E data' = matchdate E data /\ timestamp E data' = timestamp E data.
Proof. exact wait_date_proof. Qed.

(** the statistics, *)
Theorem wait_stats_same : forall E fs gs t, place fs gs -> stats_after_place fs gs ->
  len (encode (fs ++ wait t :: gs)) < 9223372036854775808 ->
  let data := encode (fs ++ gs) in
  let data' := encode (fs ++ wait t :: gs) in
  ktxstats_string E data' = ktxstats_string E data /\ ktxstats_v3 E data' = ktxstats_v3 E data /\ server E data' = server E data /\
  match_duration_from_ktxstats E data' = match_duration_from_ktxstats E data.
Proof. exact wait_stats_proof. Qed.

(** and the players and teams stay. *)
Theorem wait_players : forall E fs gs t, place fs gs -> clients_before_place fs -> stats_after_place fs gs ->
  len (encode (fs ++ wait t :: gs)) < 9223372036854775808 ->
  let data := encode (fs ++ gs) in
  let data' := encode (fs ++ wait t :: gs) in
  players_from_parsing E data' = players_from_parsing E data /\ players E data' = players E data /\ teams E data' = teams E data.
Proof. exact wait_players_proof. Qed.

(** The demo becomes longer by the time waited, unless the end of the match stands before the place; *)
Theorem wait_demo_duration : forall E fs gs t, place fs gs -> forall i,
  end_marker (encode (fs ++ gs)) i -> elapsed i (fs ++ gs) + n_of t < 4294967296 ->
  exists d d', demo_duration E (encode (fs ++ gs)) = Ret (Ok d) /\ demo_duration E (encode (fs ++ wait t :: gs)) = Ret (Ok d') /\
    Z.of_N d = ms_to_ns (elapsed i (fs ++ gs)) /\
    Z.of_N d' = ms_to_ns (elapsed i (fs ++ gs) + (if i <? len (encode fs) then 0 else n_of t)).
Proof. exact wait_demo_proof. Qed.

(** the countdown becomes longer unless it is over; *)
Theorem wait_countdown : forall E fs gs t, place fs gs -> forall r c, 1280 <= len (encode fs) ->
  serverinfo E (encode (fs ++ gs)) = Ret r -> (forall s, r = Ok s -> st_mode s <> Some (lit "hoonymode")) ->
  first_at (encode (fs ++ gs)) matchdate_marker c -> elapsed c (fs ++ gs) + n_of t < 4294967296 ->
  exists d d', countdown_duration E (encode (fs ++ gs)) = Ret (Ok d) /\
    countdown_duration E (encode (fs ++ wait t :: gs)) = Ret (Ok d') /\
    Z.of_N d = ms_to_ns (elapsed c (fs ++ gs)) /\
    Z.of_N d' = ms_to_ns (elapsed c (fs ++ gs) + (if c <? len (encode fs) then 0 else n_of t)).
Proof. exact wait_countdown_proof. Qed.

(** the match becomes longer by the time waited, to the millisecond, if it is waited during the match;
    it is the same, to two milliseconds, if it is waited before and exactly the same if after. *)
Theorem wait_match : forall E fs gs t r i c, place fs gs -> 1280 <= len (encode fs) ->
  serverinfo E (encode (fs ++ gs)) = Ret r -> (forall s, r = Ok s -> st_mode s <> Some (lit "hoonymode")) ->
  end_marker (encode (fs ++ gs)) i -> first_at (encode (fs ++ gs)) matchdate_marker c -> c <= i ->
  elapsed i (fs ++ gs) + n_of t < 16384000 ->
  exists m m', match_duration_from_seeking E (encode (fs ++ gs)) = Ret (Ok m) /\
    match_duration_from_seeking E (encode (fs ++ wait t :: gs)) = Ret (Ok m') /\
    (len (encode fs) <= c -> (Z.abs (Z.of_N m' - Z.of_N m) < 2000000)%Z) /\
    (c < len (encode fs) <= i -> (Z.abs (Z.of_N m' - Z.of_N m - 1000000 * Z.of_N (n_of t)) < 1000000)%Z) /\
    (i < len (encode fs) -> m' = m).
Proof. exact wait_match_proof. Qed.

(** The demo of C89 has such a place. *)
Example wait_example : forall n t, 13050 <= n < 100000 ->
  place (fore n) aft /\ clients_before_place (fore n) /\ date_beside_place (fore n) aft /\
  stats_after_place (fore n) aft /\ 1280 <= len (encode (fore n)) /\
  len (encode (fore n ++ wait t :: aft)) < 9223372036854775808.
Proof.
  intros n t B. destruct (chat_example n B) as [P [_ [C [D [S [_ [L M]]]]]]]. do 5 (split; [assumption |]).
  rewrite encode_both, encode_cons, !len_app in *. change (len (encode_frame (wait t))) with 6.
  assert (6 <= len (encode_frame (chat remark))) by (vm_compute; discriminate). lia.
Qed.

(** 50 ms before, during and after a match of 405 ms *)
Definition slow (k : nat) : list frame :=
  firstn k (time_demo "\mode\1on1") ++ wait x32 :: skipn k (time_demo "\mode\1on1").
Example wait_times :
  map (fun k => (demo_duration (sample true) (encode (slow k)), countdown_duration (sample true) (encode (slow k)),
                 match_duration (sample true) (encode (slow k)))) [2; 5; 6]%nat =
  [ (Ret (Ok 704999983), Ret (Ok 300000012), Ret (Ok 404999971));
    (Ret (Ok 704999983), Ret (Ok 250000000), Ret (Ok 454999983));
    (Ret (Ok 654999971), Ret (Ok 250000000), Ret (Ok 404999971)) ].
Proof. vm_compute. reflexivity. Qed.
Example wait_places : forall k, In k [2; 5; 6]%nat -> place (firstn k (time_demo "\mode\1on1")) (skipn k (time_demo "\mode\1on1")).
Proof.
  intros k [<- | [<- | [<- | []]]]; (eapply place_test; [repeat constructor | repeat constructor | discriminate | vm_compute; reflexivity | discriminate]).
Qed.

(** It need not be exactly the same if it is waited before. *)
Theorem wait_match_exact_refuted : exists fs gs t, place fs gs /\
  exists i c, end_marker (encode (fs ++ gs)) i /\ first_at (encode (fs ++ gs)) matchdate_marker c /\ len (encode fs) <= c /\ c <= i /\
  match_duration_from_seeking (sample true) (encode (fs ++ gs)) = Ret (Ok 404999971) /\
  match_duration_from_seeking (sample true) (encode (fs ++ wait t :: gs)) = Ret (Ok 405000001).
Proof.
  exists (firstn 2 (time_demo "\mode\1on1")), (skipn 2 (time_demo "\mode\1on1")), x64.
  split; [apply (wait_places 2); left; reflexivity |]. exists 1421, 1356.
  split; [left; apply rfind_some; vm_compute; reflexivity |].
  split; [apply find_some; vm_compute; reflexivity |]. split; [vm_compute; discriminate |]. split; [discriminate |].
  split; vm_compute; reflexivity.
Qed.

Print Assumptions wait_marks.
Print Assumptions wait_counts.
Print Assumptions wait_head.
Print Assumptions wait_clients.
Print Assumptions wait_date_same.
Print Assumptions wait_stats_same.
Print Assumptions wait_players.
Print Assumptions wait_demo_duration.
Print Assumptions wait_countdown.
Print Assumptions wait_match.
Print Assumptions wait_match_exact_refuted.
