(** C61, C62: how functions panic, and when. *)
From Verif.Model Require Import Base Env Prints Serverinfo Clientinfo Clients Frags Flags Ping Ktxstats Matchdate
  Duration Validate Players.
From Verif.Spec Require Import Occ Mvd Messages Texts Userinfo Score Flags Pings Panics.
From Verif.Proofs Require Import BaseFacts PanicFacts PanicExact.
From Verif.Properties Require Import Sample Times Literals Clock.

(** C61.  The kinds of panics.  [panics_only] includes: no overflow panic without overflow checks. *)
Theorem out_of_range_only : forall E data,
  panics_only E [PSlice] (is_valid E data) /\ panics_only E [PSlice] (has_clients E data) /\
  panics_only E [PSlice] (serverinfo_string E data) /\ panics_only E [PSlice] (serverinfo E data) /\
  panics_only E [PSlice] (filename E data) /\ panics_only E [PSlice] (timestamp_from_epoch E data) /\
  panics_only E [PSlice] (clientinfo_strings E data) /\ panics_only E [PSlice] (clientinfo E data) /\
  panics_only E [PSlice] (clients E data) /\ panics_only E [PSlice] (player_clients E data) /\
  panics_only E [PSlice] (spectator_clients E data) /\ panics_only E [PSlice] (player_names E data) /\
  panics_only E [PSlice] (spectator_names E data) /\ panics_only E [PSlice] (team_names E data) /\
  panics_only E [PSlice] (has_bot_players E data) /\ panics_only E [PSlice] (has_human_players E data) /\
  panics_only E [PSlice] (prints E data).
Proof.
  intros E data. exact (conj (is_valid_within E data) (conj (has_clients_within E data) (conj (serverinfo_string_within E data)
    (conj (serverinfo_within E data) (conj (filename_within E data) (conj (epoch_within E data) (conj (strings_within E data)
    (conj (clientinfo_within E data) (conj (clients_within E data) (conj (player_clients_within E data)
    (conj (spectator_clients_within E data) (conj (player_names_within E data) (conj (spectator_names_within E data)
    (conj (team_names_within E data) (conj (bots_within E data) (conj (humans_within E data) (prints_within E data))))))))))))))))).
Qed.

Theorem out_of_range_or_overflow : forall E data,
  panics_only E [PSlice; POverflow] (frags_per_player_name E data) /\
  panics_only E [PSlice; POverflow] (flag_events_per_player_name E data) /\
  panics_only E [PSlice; POverflow] (ping_per_player_number E data) /\
  panics_only E [PSlice; POverflow] (ktxstats_string E data) /\
  panics_only E [PSlice; POverflow] (ktxstats_v3 E data) /\
  panics_only E [PSlice; POverflow] (server E data) /\
  panics_only E [PSlice; POverflow] (demo_duration E data) /\
  panics_only E [PSlice; POverflow] (countdown_duration E data) /\
  panics_only E [PSlice; POverflow] (players_from_parsing E data) /\
  panics_only E [PSlice; POverflow] (players E data) /\
  panics_only E [PSlice; POverflow] (teams E data).
Proof.
  intros E data. exact (conj (frags_within E data) (conj (flags_within E data) (conj (pings_within E data)
    (conj (stats_within E data) (conj (stats_v3_within E data) (conj (server_within E data) (conj (demo_duration_within E data)
    (conj (countdown_within E data) (conj (parsing_within E data) (conj (players_within E data) (teams_within E data))))))))))).
Qed.

Theorem other_panics : forall E data,
  panics_only E [PSlice; POverflow; PDurationSub] (match_duration_from_seeking E data) /\
  panics_only E [PSlice; POverflow; PDurationFrom] (match_duration_from_ktxstats E data) /\
  panics_only E [PSlice; POverflow; PDurationSub; PDurationFrom] (match_duration E data) /\
  panics_only E [PCharBoundary] (matchdate E data) /\
  panics_only E [PSlice; PCharBoundary] (timestamp E data) /\
  (forall ps, panics_only E [POverflow] (teams_from_players E ps)).
Proof.
  intros E data. exact (conj (seeking_within E data) (conj (stats_duration_within E data) (conj (match_duration_within E data)
    (conj (matchdate_within E data) (conj (timestamp_within E data) (team_list_within E)))))).
Qed.

(** Each kind happens. *)
Definition cut_demo : bytes := encode (time_demo "\mode\1on1") ++ cut_frame "bye".
Definition late_countdown : list frame :=
  [info_frame ""; frame_all x05 (say x02 "The match is over"); frame_all x09 (say x02 "matchdate: now")].
Definition accented_date : bytes := say x02 "matchdate: 2024-05-01 10:00:00éCEST
".

Example each_panic :
  prints (sample true) cut_demo = Panic PSlice /\
  ktxstats_string (sample true) (lit "1234567{""version"": ") = Panic POverflow /\
  match_duration_from_seeking (sample true) (encode late_countdown) = Panic PDurationSub /\
  match_duration_from_ktxstats (sample true) (encode (stats_demo "-1")) = Panic PDurationFrom /\
  matchdate (sample true) accented_date = Panic PCharBoundary.
Proof. vm_compute. repeat split. Qed.

(** C62.  Exactly when they panic. *)
Theorem prints_panics : forall E data p, prints E data = Panic p <-> p = PSlice /\ cut_off data.
Proof. exact prints_panics_proof. Qed.

Theorem clients_panics : forall E data p,
  Forall (fun panics => panics <-> p = PSlice /\ clients_cut_off data)
    [ clientinfo_strings E data = Panic p; clientinfo E data = Panic p; clients E data = Panic p;
      player_clients E data = Panic p; spectator_clients E data = Panic p;
      player_names E data = Panic p; spectator_names E data = Panic p; team_names E data = Panic p;
      has_bot_players E data = Panic p; has_human_players E data = Panic p; has_clients E data = Panic p ].
Proof. exact clients_panic_proof. Qed.

Theorem serverinfo_panics : forall E data p,
  Forall (fun panics => panics <-> p = PSlice /\ len data < 1280)
    [ serverinfo_string E data = Panic p; serverinfo E data = Panic p; filename E data = Panic p;
      timestamp_from_epoch E data = Panic p ].
Proof. exact serverinfo_panics_proof. Qed.

Theorem is_valid_panics : forall E data p, is_valid E data = Panic p <->
  p = PSlice /\ finished data /\ 1024 <= len data /\
  (len data < 1280 \/ (exists info, has_serverinfo data info) /\ clients_cut_off data).
Proof. exact is_valid_panics_proof. Qed.

Theorem timestamp_panics : forall E data p, timestamp E data = Panic p <->
  (p = PSlice /\ len data < 1280) \/
  (1280 <= len data /\ (forall info, has_serverinfo data info -> st_epoch (settings_from E (to_utf8 E info)) = None) /\
   matchdate E data = Panic p).
Proof. exact timestamp_panics_proof. Qed.

Theorem frags_panics : forall E fs rest p, wf fs -> no_frame rest ->
  checked E = false \/ len (encode fs ++ rest) < 2147483648 ->
  (frags_per_player_name E (encode fs ++ rest) = Panic p <->
   p = PSlice /\ (cut_off (encode fs ++ rest) \/ (asks_for_clients E fs /\ clients_cut_off (encode fs ++ rest)))).
Proof. exact frags_panics_proof. Qed.

Theorem flags_panics : forall E data p, flag_events_per_player_name E data = Panic p <->
  (p = PSlice /\ cut_off data) \/
  (p = POverflow /\ checked E = true /\ ~ cut_off data /\
   exists fs rest texts deeds k name, data = encode fs ++ rest /\ wf fs /\ no_frame rest /\ Forall2 (announces E) fs texts /\
     Forall2 (fun t l => tells_all (to_unicode E t) l) (concat texts) deeds /\ 256 <= Spec.Flags.times k name (concat deeds)).
Proof. exact flags_panics_proof. Qed.

Theorem pings_panics : forall E fs rest p, wf fs -> no_frame rest ->
  (ping_per_player_number E (encode fs ++ rest) = Panic p <->
   (p = PSlice /\ cut_off (encode fs ++ rest) /\ len (ping_frames fs) < 8) \/
   (p = POverflow /\ checked E = true /\ (cut_off (encode fs ++ rest) -> 8 <= len (ping_frames fs)) /\
    exists player, 65536 <= sum (pings_of player (sampled fs)))).
Proof. exact pings_panics_proof. Qed.

(** A demo without these defects, in a build without overflow checks *)
Theorem sound_demo : forall E data, checked E = false -> 1280 <= len data -> ~ cut_off data -> ~ clients_cut_off data ->
  forall p,
  Forall (fun panics => ~ panics)
    [ is_valid E data = Panic p; has_clients E data = Panic p; serverinfo_string E data = Panic p; serverinfo E data = Panic p;
      filename E data = Panic p; timestamp_from_epoch E data = Panic p;
      clientinfo_strings E data = Panic p; clientinfo E data = Panic p; clients E data = Panic p;
      player_clients E data = Panic p; spectator_clients E data = Panic p;
      player_names E data = Panic p; spectator_names E data = Panic p; team_names E data = Panic p;
      has_bot_players E data = Panic p; has_human_players E data = Panic p;
      prints E data = Panic p; frags_per_player_name E data = Panic p; flag_events_per_player_name E data = Panic p;
      ping_per_player_number E data = Panic p; players_from_parsing E data = Panic p;
      demo_duration E data = Panic p; countdown_duration E data = Panic p ].
Proof. exact sound_proof. Qed.

(** The same demo, cut off and whole, with and without what follows the client records *)
Definition team_kill : list frame :=
  [info_frame ""; frame_all x05 (say x01 "dora was telefragged by her teammate"); frame_all x00 [x0e; x01; x00; x00]].
Definition spawn_frame : frame := frame_all x00 (x09 :: lit "cmd spawn").

Example cut_off_demo :
  cut_off cut_demo /\ ~ cut_off (encode (time_demo "\mode\1on1")) /\
  clients_cut_off (encode (team_kill ++ [spawn_frame])) /\ asks_for_clients (sample true) (team_kill ++ [spawn_frame]) /\
  frags_per_player_name (sample true) (encode (team_kill ++ [spawn_frame])) = Panic PSlice /\
  frags_per_player_name (sample true) (encode (firstn 2 team_kill ++ [spawn_frame])) = Ret [] /\
  frags_per_player_name (sample true) (encode team_kill) = Ret [].
Proof.
  split; [apply (prints_panics (sample true) _ PSlice); vm_compute; reflexivity |].
  split; [intros H; assert (prints (sample true) (encode (time_demo "\mode\1on1")) = Panic PSlice) as X by (apply prints_panics; auto);
          vm_compute in X; discriminate |].
  split. { pose proof (clients_panics (sample true) (encode (team_kill ++ [spawn_frame])) PSlice) as F. inversion F; subst.
    apply H1. vm_compute. reflexivity. }
  split. { exists (mkMessage x01 (lit "dora was telefragged by her teammate")), (tl (team_kill ++ [spawn_frame])),
      (lit "dora was telefragged by her teammate"), (lit "dora").
    split; [vm_compute; auto |]. split; [apply ObituaryFacts.trimmed_iff; vm_compute; reflexivity |].
    split; [apply ObituaryFacts.reads_iff; vm_compute; reflexivity | vm_compute; discriminate]. }
  vm_compute. repeat split.
Qed.

Print Assumptions out_of_range_only.
Print Assumptions out_of_range_or_overflow.
Print Assumptions other_panics.
Print Assumptions prints_panics.
Print Assumptions clients_panics.
Print Assumptions serverinfo_panics.
Print Assumptions is_valid_panics.
Print Assumptions timestamp_panics.
Print Assumptions frags_panics.
Print Assumptions flags_panics.
Print Assumptions pings_panics.
Print Assumptions sound_demo.
