(** Targets: how many values a [usize] has *)
From Verif.Model Require Import Base Env Frame Bytesextra Clientinfo Prints Frags Flags Ping Ktxstats Matchdate Duration Players Width.
From Verif.Spec Require Import Mvd.

Definition wide : N := 2 ^ 64.
Definition narrow : N := 2 ^ 32.

(** Data that a target with [w] values can hold: its offsets can be doubled. *)
Definition holds (w : N) (data : bytes) : Prop := 2 * len data + 16384 < w.

(** [rest] announces a frame whose size is no [usize] of the target. *)
Definition vast (w : N) (rest : bytes) : Prop := exists s, announced rest = Some s /\ w <= s.

(** [R] between the outcomes on the target and those in the rest of the model: the functions that
    search, that walk over the frames, that read the statistics, and that do several of these.
    [fuel] bounds the rounds of the clock. *)
Section Related.
  Context (R : forall A, M A -> M A -> Prop) (w : N) (E : env) (fuel : nat) (data : bytes).
  Definition searches_on : Prop :=
    (forall a b, R _ (offsets_between_on w E data a b) (offsets_between data a b)) /\
    R _ (clientinfo_strings_on w E data) (clientinfo_strings E data) /\
    R _ (matchdate_string_on w E data) (matchdate_string data).
  Definition walks_on : Prop :=
    R _ (prints_on w E data) (prints E data) /\
    R _ (frags_per_player_name_on w E data) (frags_per_player_name E data) /\
    R _ (flag_events_per_player_name_on w E data) (flag_events_per_player_name E data) /\
    R _ (ping_per_player_number_on w E data) (ping_per_player_number E data) /\
    R _ (players_from_parsing_on w E data) (players_from_parsing E data).
  Definition clocks_on : Prop :=
    R _ (demo_duration_on w E fuel data) (demo_duration E data) /\
    R _ (countdown_duration_on w E fuel data) (countdown_duration E data) /\
    R _ (match_duration_from_seeking_on w E fuel data) (match_duration_from_seeking E data).
  Definition stats_on : Prop :=
    R _ (ktxstats_string_on w E data) (ktxstats_string E data) /\
    R _ (ktxstats_v3_on w E data) (ktxstats_v3 E data) /\
    R _ (server_on w E data) (server E data) /\
    R _ (match_duration_from_ktxstats_on w E data) (match_duration_from_ktxstats E data).
  Definition others_on : Prop :=
    R _ (match_duration_on w E fuel data) (match_duration E data) /\
    R _ (players_on w E data) (players E data) /\
    R _ (teams_on w E data) (teams E data).
End Related.

(** A frame of [fs] starts at [target] or later. *)
Definition passes (target : N) (fs : list frame) : Prop := exists x, In x (located 0 fs) /\ target <= fst x.
