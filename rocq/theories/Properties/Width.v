(** C75: targets of 64 and of 32 bits. *)
From Coq Require Import Lia.
From Verif.Model Require Import Base Env Prot Message Frame Bytesextra Clientinfo Prints Frags Flags Ping Serverinfo Ktxstats Matchdate Duration Players Width.
From Verif.Spec Require Import Occ Mvd Pings Times Builds Width.
From Verif.Proofs Require Import BaseFacts WidthFacts.
From Verif.Properties Require Import Sample Pings Players.

(** On 64 bits no offset wraps around: the functions with wrapping offsets are those of the
    rest of the model, in both build profiles. *)
Theorem wide_target : forall E data fuel, holds wide data -> (frame_fuel data <= fuel)%nat ->
  searches_on (@same_outcome) wide E data /\ walks_on (@same_outcome) wide E data /\ clocks_on (@same_outcome) wide E fuel data /\
  stats_on (@same_outcome) wide E data /\ others_on (@same_outcome) wide E fuel data.
Proof. exact wide_target_proof. Qed.

(** On 32 bits neither, unless a frame after the complete ones announces 4 GiB or more. *)
Theorem narrow_target : forall E fs rest fuel, wf fs -> no_frame rest -> ~ vast narrow rest -> holds narrow (encode fs ++ rest) ->
  (frame_fuel (encode fs ++ rest) <= fuel)%nat ->
  searches_on (@same_outcome) narrow E (encode fs ++ rest) /\
  walks_on (@same_outcome) narrow E (encode fs ++ rest) /\
  clocks_on (@same_outcome) narrow E fuel (encode fs ++ rest).
Proof.
  intros E fs rest fuel W NF V H F. split; [apply searches_same; exact H |].
  split; [apply walks_same | apply clocks_same]; auto; apply N.le_refl.
Qed.

(** The statistics: with overflow checks a block that announces nearly 4 GiB stops the program. *)
Theorem narrow_stats : forall E data, holds narrow data ->
  stats_on (@same_unless_overflow) narrow E data /\ (checked E = false -> stats_on (@same_outcome) narrow E data).
Proof. exact narrow_stats_proof. Qed.

Theorem narrow_others : forall E fs rest fuel, wf fs -> no_frame rest -> ~ vast narrow rest -> holds narrow (encode fs ++ rest) ->
  (frame_fuel (encode fs ++ rest) <= fuel)%nat ->
  others_on (@same_unless_overflow) narrow E fuel (encode fs ++ rest) /\
  (checked E = false -> others_on (@same_outcome) narrow E fuel (encode fs ++ rest)).
Proof. exact narrow_others_proof. Qed.

(** A frame that announces 4 GiB or more stops the walks on 32 bits, where they end normally on
    64 bits; the pings are unaffected if eight frames of pings come first. *)
Theorem narrow_vast : forall E fs rest, wf fs -> vast narrow rest -> holds narrow (encode fs ++ rest) ->
  let data := encode fs ++ rest in
  let refusal := if checked E then POverflow else PSlice in
  prints_on narrow E data = Panic refusal /\
  frags_per_player_name_on narrow E data = Panic refusal /\
  flag_events_per_player_name_on narrow E data = Panic refusal /\
  ping_per_player_number_on narrow E data =
    (if len (ping_frames fs) <? 8 then Panic refusal else ping_per_player_number E data) /\
  (exists ps, prints E data = Ret ps).
Proof. exact narrow_vast_proof. Qed.

(** The clock does not look at the contents: it is unaffected if it stops before that frame. *)
Theorem narrow_clock : forall E fs rest t fuel, wf fs -> vast narrow rest -> holds narrow (encode fs ++ rest) ->
  end_marker (encode fs ++ rest) t -> (frame_fuel (encode fs ++ rest) <= fuel)%nat ->
  (passes t fs \/ (checked E = false /\ t <= len (encode fs)) ->
     demo_duration_on narrow E fuel (encode fs ++ rest) = demo_duration E (encode fs ++ rest)) /\
  (checked E = true -> ~ passes t fs ->
     demo_duration_on narrow E fuel (encode fs ++ rest) = Panic POverflow /\
     match_duration_from_seeking_on narrow E fuel (encode fs ++ rest) = Panic POverflow).
Proof. exact narrow_clock_proof. Qed.

(** Without overflow checks a frame that announces exactly 4 GiB leaves the offset where it is. *)
Theorem narrow_hangs : forall E fs rest t, wf fs -> checked E = false -> announced rest = Some narrow ->
  holds narrow (encode fs ++ rest) -> end_marker (encode fs ++ rest) t -> len (encode fs) < t ->
  forall fuel, demo_duration_on narrow E fuel (encode fs ++ rest) = OutOfFuel /\
    match_duration_from_seeking_on narrow E fuel (encode fs ++ rest) = OutOfFuel.
Proof. exact narrow_hangs_proof. Qed.

Theorem narrow_countdown_hangs : forall E fs rest r c, wf fs -> checked E = false -> announced rest = Some narrow ->
  holds narrow (encode fs ++ rest) -> serverinfo E (encode fs ++ rest) = Ret r ->
  (forall s, r = Ok s -> st_mode s <> Some (lit "hoonymode")) ->
  first_at (encode fs ++ rest) matchdate_marker c -> len (encode fs) < c ->
  forall fuel, countdown_duration_on narrow E fuel (encode fs ++ rest) = OutOfFuel.
Proof. exact narrow_countdown_hangs_proof. Qed.

(** Nothing else makes them run forever. *)
Theorem narrow_hangs_only : forall E data fuel t, holds narrow data -> end_marker data t -> (frame_fuel data <= fuel)%nat ->
  demo_duration_on narrow E fuel data = OutOfFuel ->
  (forall fuel', demo_duration_on narrow E fuel' data = OutOfFuel) /\
  checked E = false /\ exists p d, data = p ++ d /\ announced d = Some narrow /\ len p < t.
Proof. exact narrow_hangs_only_proof. Qed.

Theorem narrow_clocks_hang_only : forall E data fuel, holds narrow data -> (frame_fuel data <= fuel)%nat ->
  (checked E = true \/ forall p d, data = p ++ d -> announced d <> Some narrow) ->
  terminates (demo_duration_on narrow E fuel data) /\ terminates (countdown_duration_on narrow E fuel data) /\
  terminates (match_duration_from_seeking_on narrow E fuel data) /\ terminates (match_duration_on narrow E fuel data).
Proof. exact narrow_clocks_hang_only_proof. Qed.

Theorem narrow_terminates : forall E data, holds narrow data ->
  terminates (prints_on narrow E data) /\ terminates (frags_per_player_name_on narrow E data) /\
  terminates (flag_events_per_player_name_on narrow E data) /\ terminates (ping_per_player_number_on narrow E data) /\
  terminates (ktxstats_string_on narrow E data) /\ terminates (server_on narrow E data) /\
  terminates (match_duration_from_ktxstats_on narrow E data) /\
  terminates (players_on narrow E data) /\ terminates (teams_on narrow E data).
Proof. exact narrow_terminates_proof. Qed.

(** a frame of 6 bytes that announces [2 ^ 32 - 6] bytes of content *)
Definition huge : bytes := [x00; x01; xfa; xff; xff; xff].

(** C01 does not hold on 32 bits without overflow checks. *)
Theorem terminates_narrow_refuted :
  exists data, len data = 6 /\ holds narrow data /\
    (forall fuel, demo_duration_on narrow (sample false) fuel data = OutOfFuel) /\
    demo_duration (sample false) data = Ret (Ok 0) /\
    demo_duration_on narrow (sample true) 8 data = Panic POverflow.
Proof.
  exists huge. split; [reflexivity |]. split; [reflexivity |]. split; [| split; vm_compute; reflexivity].
  intros fuel. apply (narrow_hangs (sample false) [] huge 6); try reflexivity; [constructor |].
  right; right. split; [apply rfind_none; vm_compute; reflexivity |]. split; [apply rfind_none; vm_compute; reflexivity | reflexivity].
Qed.

(** 2 GiB less 8 KiB *)
Example holds_narrow : forall data, holds narrow data <-> len data < 2147483648 - 8192.
Proof. intros data. unfold holds, narrow. lia. Qed.

(** A print, and then that frame: on 64 bits the print is read, on 32 bits the program stops;
    with the end of the match before that frame the clock does not notice it. *)
Example huge_results :
  vast narrow huge /\ ~ vast wide huge /\ no_frame huge /\
  prints (sample false) (encode [frame_all x05 (say x02 "hello")] ++ huge) = Ret [mkPrint PiHigh (lit "hello")] /\
  prints_on wide (sample false) (encode [frame_all x05 (say x02 "hello")] ++ huge) = Ret [mkPrint PiHigh (lit "hello")] /\
  prints_on narrow (sample false) (encode [frame_all x05 (say x02 "hello")] ++ huge) = Panic PSlice /\
  prints_on narrow (sample true) (encode [frame_all x05 (say x02 "hello")] ++ huge) = Panic POverflow /\
  (let data := encode [frame_all x05 (say x02 "The match is over"); frame_all x09 []] ++ huge in
   passes 8 [frame_all x05 (say x02 "The match is over"); frame_all x09 []] /\ end_marker data 8 /\
   demo_duration_on narrow (sample true) 100 data = Ret (Ok 5000000)).
Proof.
  split; [eexists; split; [vm_compute; reflexivity | vm_compute; discriminate] |].
  split; [apply not_vast_wide |].
  repeat (split; [vm_compute; reflexivity |]).
  split; [exists (26, frame_all x09 []); split; [right; left; vm_compute; reflexivity | vm_compute; discriminate] |].
  split; [left; apply rfind_some |]; vm_compute; reflexivity.
Qed.

(** A matchdate inside that frame *)
Definition huge_date : bytes := huge ++ [x08; x02] ++ lit "matchdate: ".
Example huge_countdown :
  (exists r, serverinfo (sample false) (encode [info_frame "\mode\1on1"] ++ huge_date) = Ret r) /\
  countdown_duration (sample false) (encode [info_frame "\mode\1on1"] ++ huge_date) = Ret (Ok 0) /\
  countdown_duration_on narrow (sample false) 5000 (encode [info_frame "\mode\1on1"] ++ huge_date) = OutOfFuel /\
  countdown_duration_on narrow (sample true) 5000 (encode [info_frame "\mode\1on1"] ++ huge_date) = Panic POverflow.
Proof. split; [eexists; vm_compute; reflexivity |]. repeat (split; [vm_compute; reflexivity |]). vm_compute. reflexivity. Qed.

(** A block that announces nearly 4 GiB and holds no statistics, behind one that does *)
Definition stats_then_huge : bytes :=
  encode [stats_frame 1 (lit "{""version"": 3}")] ++ repeat x00 10 ++ repeat xff 4 ++ repeat x00 8.

Example narrow_stats_results :
  ktxstats_string (sample true) stats_then_huge = Ret (Ok (lit "{""version"": 3}")) /\
  ktxstats_string_on wide (sample true) stats_then_huge = Ret (Ok (lit "{""version"": 3}")) /\
  ktxstats_string_on narrow (sample false) stats_then_huge = Ret (Ok (lit "{""version"": 3}")) /\
  ktxstats_string_on narrow (sample true) stats_then_huge = Panic POverflow.
Proof. repeat (split; [vm_compute; reflexivity |]). vm_compute. reflexivity. Qed.

(** What the other theorems assume holds for a demo with players: nothing differs. *)
Example narrow_players :
  holds narrow players_demo /\ terminates (players_on narrow (sample true) players_demo) /\
  players_on narrow (sample true) players_demo = players (sample true) players_demo /\
  match_duration_on narrow (sample true) (frame_fuel players_demo) players_demo = match_duration (sample true) players_demo /\
  teams_on narrow (sample true) players_demo = teams (sample true) players_demo.
Proof.
  split; [vm_compute; reflexivity |]. split; [vm_compute; discriminate |].
  repeat (split; [vm_compute; reflexivity |]). vm_compute. reflexivity.
Qed.

Print Assumptions wide_target.
Print Assumptions narrow_target.
Print Assumptions narrow_stats.
Print Assumptions narrow_others.
Print Assumptions narrow_vast.
Print Assumptions narrow_clock.
Print Assumptions narrow_hangs.
Print Assumptions narrow_hangs_only.
Print Assumptions narrow_countdown_hangs.
Print Assumptions narrow_clocks_hang_only.
Print Assumptions narrow_terminates.
Print Assumptions terminates_narrow_refuted.
