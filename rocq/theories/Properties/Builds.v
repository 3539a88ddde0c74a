(** C01, C42 and C43: termination, and what differs between builds. *)
From Coq Require Import Lia.
From Verif.Model Require Import Base Env Prot Message Prints Serverinfo Clientinfo Clients Frags Flags Ping Ktxstats Matchdate
  Duration Validate Players.
From Verif.Spec Require Import Mvd Pings Builds.
From Verif.Proofs Require Import BaseFacts EnvFacts TeamFacts BuildFacts.
From Verif.Properties Require Import Sample Pings Flags Scores Players Teams.

(** C01.  [OutOfFuel] is what the model yields for a loop that runs more than
    [length data + 2] rounds. *)
Theorem all_terminate : forall E data, len data < 2 ^ 63 ->
  each_function (fun A m _ => terminates m) E E data.
Proof. exact everything_terminates. Qed.

(** The bound is used for the stats only: offsets of 64 bits do not wrap around. *)
Theorem most_terminate : forall E data,
  terminates (is_valid E data) /\ terminates (clients E data) /\ terminates (prints E data) /\
  terminates (frags_per_player_name E data) /\ terminates (flag_events_per_player_name E data) /\
  terminates (ping_per_player_number E data) /\ terminates (demo_duration E data) /\
  terminates (countdown_duration E data) /\ terminates (match_duration_from_seeking E data) /\
  terminates (timestamp E data) /\ terminates (players_from_parsing E data).
Proof.
  intros E data. repeat match goal with |- _ /\ _ => split end; first
    [ apply is_valid_terminates | apply clients_terminates | apply prints_terminates | apply frags_terminates | apply flags_terminates
    | apply pings_terminates | apply demo_duration_terminates | apply countdown_terminates | apply seeking_terminates
    | apply timestamp_terminates | apply parsing_terminates ].
Qed.

(** a chain of two blocks, stats that follow no block header, and frames without content *)
Example terminates_examples :
  ktxstats_string (sample true) (encode [stats_frame 1 (lit "{""version"": 3"); stats_frame 0 (lit "}")]) =
    Ret (Ok (lit "{""version"": 3}")) /\
  ktxstats_string (sample false) (lit "12345678901234567890{""version"": ") = Ret (Ok []) /\
  prints (sample true) (repeat x00 40) = Ret [].
Proof. split; [vm_compute; reflexivity |]. split; vm_compute; reflexivity. Qed.

(** C42.  With overflow checks every function yields what it yields without them, or stops at
    an overflow. *)
Theorem checks_only_stop : forall E E' data, checked E = true -> same_libraries E E' -> same_orders E E' ->
  each_function (@same_unless_overflow) E E' data.
Proof. intros E E' data C. apply stops_at_overflow. left. exact C. Qed.

(** No overflow is possible here, for data of the given size. *)
Theorem checks_irrelevant : forall E E' data, same_libraries E E' ->
  (is_valid E data = is_valid E' data /\ serverinfo E data = serverinfo E' data /\ clients E data = clients E' data /\
   has_bot_players E data = has_bot_players E' data /\ has_human_players E data = has_human_players E' data /\
   player_names E data = player_names E' data /\ spectator_names E data = spectator_names E' data /\
   team_names E data = team_names E' data /\ prints E data = prints E' data /\
   matchdate E data = matchdate E' data /\ timestamp E data = timestamp E' data) /\
  (len data < 2147483648 -> frags_per_player_name E data = frags_per_player_name E' data) /\
  (len data < 33554432 -> demo_duration E data = demo_duration E' data /\
     countdown_duration E data = countdown_duration E' data /\
     match_duration_from_seeking E data = match_duration_from_seeking E' data).
Proof.
  intros E E' data L. split; [repeat split | split; [apply (frags_same E E' L) |]].
  - apply (is_valid_same E E' L).
  - apply (serverinfo_same E E' L).
  - apply (clients_same E E' L).
  - apply (has_bot_players_same E E' L).
  - apply (has_human_players_same E E' L).
  - apply (player_names_same E E' L).
  - apply (spectator_names_same E E' L).
  - apply (team_names_same E E' L).
  - apply (prints_same E E').
  - apply (matchdate_same E E' L).
  - apply (timestamp_same E E' L).
  - intros B. split; [apply (demo_duration_same E E'); exact B |]. split; [apply (countdown_same E E' L); exact B |].
    apply (seeking_same E E' L); exact B.
Qed.

(** Where the builds do differ: more than 255 equal flag deeds, sums of pings above 65535,
    stats near the start of the data.  (Sums of scores and pings of teams, and colours of more
    than 255 players: [teams_exact_refuted], [team_color_refuted].) *)
Theorem checks_matter :
  (exists data, len data < 33554432 /\ flag_events_per_player_name (sample true) data = Panic POverflow /\
     exists t, flag_events_per_player_name (sample false) data = Ret t) /\
  (exists data, len data < 33554432 /\ ping_per_player_number (sample true) data = Panic POverflow /\
     exists t, ping_per_player_number (sample false) data = Ret (Ok t)) /\
  (exists data, len data < 33554432 /\ ktxstats_string (sample true) data = Panic POverflow /\
     exists t, ktxstats_string (sample false) data = Ret (Ok t)).
Proof.
  split; [| split].
  - exists (encode many_pickups). split; [vm_compute; reflexivity |]. split; [apply flags_counted_refuted |].
    eexists. apply flags_counted_refuted.
  - exists (encode (repeat (ping_frame [mkPingUpdate x00 65535 x00]) 2)). split; [vm_compute; reflexivity |].
    split; [vm_compute; reflexivity |]. eexists. vm_compute. reflexivity.
  - exists (enc32 14 ++ enc16 3 ++ enc16 0 ++ lit "{""version"": "). split; [vm_compute; reflexivity |].
    split; [vm_compute; reflexivity |]. eexists. vm_compute. reflexivity.
Qed.

Example two_builds : same_libraries (sample true) (sample false) /\ same_orders (sample true) (sample false) /\
  checked (sample true) = true.
Proof. repeat split. Qed.

(** C43.  The position of a cursor after a failed read has no influence. *)
Theorem cursor_position_irrelevant : forall E E' data,
  checked E = checked E' -> same_libraries E E' -> same_orders E E' -> each_function (@same_outcome) E E' data.
Proof. exact same_checks_same_results. Qed.

Definition older (E : env) : env :=
  mkEnv (checked E) false (to_unicode E) (to_utf8 E) (unicode_sort E) (clientinfo_from E)
    (settings_from E) (ktxstats_from E) (parse_datetime E) (to_lowercase E) (players_order E) (teams_order E) (colors_order E).
Example older_library : same_libraries (sample true) (older (sample true)) /\ same_orders (sample true) (older (sample true)) /\
  eof_on_short_read (sample true) <> eof_on_short_read (older (sample true)) /\
  (* a failed read of a 16-bit number leaves different cursors *)
  Primitives.read_u16 (sample true) (Primitives.cursor_new [x01]) <> Primitives.read_u16 (older (sample true)) (Primitives.cursor_new [x01]) /\
  ping_per_player_number (older (sample true)) (encode (ping_demo ++ [frame_all x00 [x24; x01; x02]])) =
  ping_per_player_number (sample true) (encode ping_demo).
Proof. split; [repeat split |]. split; [repeat split |]. split; [discriminate |]. split; [vm_compute; discriminate |]. vm_compute. reflexivity. Qed.

Print Assumptions all_terminate.
Print Assumptions most_terminate.
Print Assumptions checks_only_stop.
Print Assumptions checks_irrelevant.
Print Assumptions checks_matter.
Print Assumptions cursor_position_irrelevant.
