(** Builds of the library *)
From Verif.Model Require Import Base Env Prints Serverinfo Clientinfo Clients Frags Flags Ping Ktxstats Matchdate
  Duration Validate Players.

(** Two environments with the same libraries; they may differ in the overflow checks, in the
    standard library's cursor, and in the order hash maps iterate in. *)
Record same_libraries (E E' : env) : Prop := {
  sl_unicode : to_unicode E = to_unicode E';
  sl_utf8 : to_utf8 E = to_utf8 E';
  sl_sort : unicode_sort E = unicode_sort E';
  sl_clientinfo : clientinfo_from E = clientinfo_from E';
  sl_settings : settings_from E = settings_from E';
  sl_ktxstats : ktxstats_from E = ktxstats_from E';
  sl_datetime : parse_datetime E = parse_datetime E';
  sl_lowercase : to_lowercase E = to_lowercase E';
}.
Record same_orders (E E' : env) : Prop := {
  so_players : players_order E = players_order E';
  so_teams : teams_order E = teams_order E';
  so_colors : colors_order E = colors_order E';
}.

(** [E] checks for overflow whenever [E'] does. *)
Definition stricter (E E' : env) : Prop := checked E = true \/ checked E = checked E'.

(** The stricter build gives the same outcome or stops at an overflow. *)
Definition same_unless_overflow {A} (strict lenient : M A) : Prop :=
  strict = lenient \/ strict = Panic POverflow.

Definition same_outcome {A} (m m' : M A) : Prop := m = m'.

(** [R] holds between the outcomes of every public function that takes a demo, in two builds.
    (is_paused(), is_aborted(), has_end_of_demo_print() and matchdate_string() do not depend on
    the build at all.) *)
Definition each_function (R : forall A, M A -> M A -> Prop) (E E' : env) (data : bytes) : Prop :=
  R _ (is_valid E data) (is_valid E' data) /\
  R _ (has_clients E data) (has_clients E' data) /\
  R _ (serverinfo_string E data) (serverinfo_string E' data) /\
  R _ (serverinfo E data) (serverinfo E' data) /\
  R _ (filename E data) (filename E' data) /\
  R _ (clientinfo_strings E data) (clientinfo_strings E' data) /\
  R _ (clientinfo E data) (clientinfo E' data) /\
  R _ (clients E data) (clients E' data) /\
  R _ (player_clients E data) (player_clients E' data) /\
  R _ (spectator_clients E data) (spectator_clients E' data) /\
  R _ (player_names E data) (player_names E' data) /\
  R _ (spectator_names E data) (spectator_names E' data) /\
  R _ (team_names E data) (team_names E' data) /\
  R _ (has_bot_players E data) (has_bot_players E' data) /\
  R _ (has_human_players E data) (has_human_players E' data) /\
  R _ (prints E data) (prints E' data) /\
  R _ (frags_per_player_name E data) (frags_per_player_name E' data) /\
  R _ (flag_events_per_player_name E data) (flag_events_per_player_name E' data) /\
  R _ (ping_per_player_number E data) (ping_per_player_number E' data) /\
  R _ (ktxstats_string E data) (ktxstats_string E' data) /\
  R _ (ktxstats_v3 E data) (ktxstats_v3 E' data) /\
  R _ (server E data) (server E' data) /\
  R _ (demo_duration E data) (demo_duration E' data) /\
  R _ (countdown_duration E data) (countdown_duration E' data) /\
  R _ (match_duration E data) (match_duration E' data) /\
  R _ (match_duration_from_seeking E data) (match_duration_from_seeking E' data) /\
  R _ (match_duration_from_ktxstats E data) (match_duration_from_ktxstats E' data) /\
  R _ (matchdate E data) (matchdate E' data) /\
  R _ (timestamp_from_epoch E data) (timestamp_from_epoch E' data) /\
  R _ (timestamp E data) (timestamp E' data) /\
  R _ (players_from_parsing E data) (players_from_parsing E' data) /\
  R _ (players E data) (players E' data) /\
  R _ (teams E data) (teams E' data).

(** No loop runs longer than its bound: a number of rounds that depends on the length of the
    data only. *)
Definition terminates {A} (m : M A) : Prop := m <> OutOfFuel.
