(** C77: a file with two demos, one behind the other. *)
From Verif.Model Require Import Base Env Serverinfo Clientinfo Clients Matchdate Ktxstats Duration Players Validate.
From Verif.Spec Require Import Occ Mvd Texts Times Stats Splice.
From Verif.Proofs Require Import BaseFacts TimeFacts GrowFacts LocalFacts SpliceFacts.
From Verif.Properties Require Import Sample Times Texts Local.

(** Serverinfo, clients and date come from the first. *)
Theorem first_demo_tells : forall E a b s, 1280 <= len a -> first_at a spawn_mark s -> s + 13050 <= len a ->
  serverinfo_string E (a ++ b) = serverinfo_string E a /\ serverinfo E (a ++ b) = serverinfo E a /\
  filename E (a ++ b) = filename E a /\ timestamp_from_epoch E (a ++ b) = timestamp_from_epoch E a /\
  clientinfo_strings E (a ++ b) = clientinfo_strings E a /\ clients E (a ++ b) = clients E a /\
  player_names E (a ++ b) = player_names E a /\ spectator_names E (a ++ b) = spectator_names E a /\
  team_names E (a ++ b) = team_names E a /\ has_human_players E (a ++ b) = has_human_players E a /\
  (forall t, matchdate_string a = Ret (Ok t) -> matchdate_string (a ++ b) = Ret (Ok t)) /\
  (forall t, matchdate E a = Ret (Ok t) -> matchdate E (a ++ b) = Ret (Ok t)).
Proof.
  intros E a b s L F B. destruct (splice_head_proof E a b s L F B) as [? [? [? [? [? [? [? [? [? ?]]]]]]]]].
  repeat (split; [assumption |]). split; intros t; [apply matchdate_string_grows | apply matchdate_grows].
Qed.

(** Statistics, and all that is taken from them, and the end come from the second. *)
Theorem second_demo_tells : forall E a b k, last_at b version_mark k -> 18 <= k -> len (a ++ b) < 9223372036854775808 ->
  ktxstats_string E (a ++ b) = ktxstats_string E b /\ ktxstats_v3 E (a ++ b) = ktxstats_v3 E b /\
  server E (a ++ b) = server E b /\ match_duration_from_ktxstats E (a ++ b) = match_duration_from_ktxstats E b /\
  (forall s, ktxstats_v3 E b = Ret (Ok s) -> players E (a ++ b) = players E b /\ teams E (a ++ b) = teams E b) /\
  has_end_of_demo_print (a ++ b) = has_end_of_demo_print b.
Proof.
  intros E a b k L K B. destruct (splice_tail_proof E a b k L K B) as [? [? [? [? ?]]]].
  repeat (split; [assumption |]). apply end_tail. pose proof (occurs_at_le _ _ _ (proj1 L)) as X.
  change (len version_mark) with 12 in X. apply (N.lt_le_trans _ 18); [reflexivity |].
  apply (N.le_trans _ k); [exact K |]. apply (N.le_trans _ (k + 12)); [apply N.le_add_r | exact X].
Qed.

Theorem valid_splice : forall E a b s, is_valid E a = Ret true -> first_at a spawn_mark s -> s + 13050 <= len a ->
  12 < len b -> is_valid E (a ++ b) = Ret (has_end_of_demo_print b).
Proof. exact splice_valid_proof. Qed.

(** The time runs from the start of the first demo to the end of the match in the second, and the match
    from its start in the first. *)
Theorem splice_time : forall E fs gs t, wf fs -> wf gs -> end_told (encode fs) (encode gs) -> end_marker (encode gs) t ->
  all_time fs + elapsed t gs < 4294967296 ->
  exists d, demo_duration E (encode fs ++ encode gs) = Ret (Ok d) /\ Z.of_N d = ms_to_ns (all_time fs + elapsed t gs).
Proof. exact splice_time_proof. Qed.

Theorem splice_countdown : forall E fs gs, wf fs -> wf gs -> 1280 <= len (encode fs) ->
  occurs (encode fs) matchdate_marker ->
  countdown_duration E (encode fs ++ encode gs) = countdown_duration E (encode fs).
Proof. exact splice_countdown_proof. Qed.

Theorem splice_match : forall E fs gs r t, wf fs -> wf gs -> 1280 <= len (encode fs) ->
  serverinfo E (encode fs) = Ret r -> occurs (encode fs) matchdate_marker ->
  end_told (encode fs) (encode gs) -> end_marker (encode gs) t -> all_time fs + elapsed t gs < 4294967296 ->
  exists total countdown, demo_duration E (encode fs ++ encode gs) = Ret (Ok total) /\
    countdown_duration E (encode fs) = Ret (Ok countdown) /\ countdown <= total /\
    match_duration_from_seeking E (encode fs ++ encode gs) = Ret (Ok (total - countdown)).
Proof. exact splice_match_proof. Qed.

(** Durations do not add up: the time behind the end of the first match counts as well. *)
Theorem splice_time_refuted : exists fs d, wf fs /\
  demo_duration (sample true) (encode fs) = Ret (Ok d) /\
  exists e, demo_duration (sample true) (encode fs ++ encode fs) = Ret (Ok e) /\ d + d + 100000000 < e.
Proof.
  exists (time_demo "\mode\1on1"). eexists. split; [apply time_demo_wf |]. split; [vm_compute; reflexivity |].
  eexists. split; vm_compute; reflexivity.
Qed.

(** A match of 405 ms, 200 ms without one, and another with a countdown of 250 ms *)
Example splice_example :
  let fs := time_demo "\mode\1on1" in
  end_told (encode fs) (encode fs) /\ end_marker (encode fs) 1421 /\ all_time fs + elapsed 1421 fs = 1510 /\
  demo_duration (sample true) (encode fs ++ encode fs) = Ret (Ok 1509999990) /\
  countdown_duration (sample true) (encode fs ++ encode fs) = Ret (Ok 250000000) /\
  match_duration (sample true) (encode fs ++ encode fs) = Ret (Ok 1259999990).
Proof.
  cbv zeta. assert (L : last_at (encode (time_demo "\mode\1on1")) match_over 1421) by (apply rfind_some; vm_compute; reflexivity).
  split; [left; exact (last_at_occurs _ _ _ L) |]. split; [left; exact L |]. vm_compute. auto.
Qed.

Example splice_parts : let a := lit "fullserverinfo ""x""" ++ spawn_bytes in
  first_at a spawn_mark 18 /\ 18 + 13050 <= len a /\ last_at stats_bytes version_mark 18 /\
  ktxstats_string (sample true) (a ++ stats_bytes) = Ret (Ok (lit "{""version"": 3}")) /\
  is_valid (sample true) (a ++ x01 :: end_of_demo) = Ret true /\
  is_valid (sample true) ((a ++ x01 :: end_of_demo) ++ stats_bytes) = Ret false /\
  is_valid (sample true) ((a ++ x01 :: end_of_demo) ++ stats_bytes ++ end_of_demo) = Ret true.
Proof.
  cbv zeta. split; [apply find_some; vm_compute; reflexivity |]. split; [vm_compute; discriminate |].
  split; [apply rfind_some; vm_compute; reflexivity |]. repeat (split; [vm_compute; reflexivity |]). vm_compute. reflexivity.
Qed.

Print Assumptions first_demo_tells.
Print Assumptions second_demo_tells.
Print Assumptions valid_splice.
Print Assumptions splice_time.
Print Assumptions splice_countdown.
Print Assumptions splice_match.
Print Assumptions splice_time_refuted.
