(** C69: which inputs make statistics, scores, players, teams and durations panic. *)
From Verif.Model Require Import Base Env Serverinfo Clients Frags Ping Ktxstats Duration Players.
From Verif.Spec Require Import Occ Mvd Messages Times Clock Texts Literal Score Stats Panics Teams Wrap Jams.
From Verif.Proofs Require Import BaseFacts JamFacts.
From Verif.Properties Require Import Sample Times Clock Panics.

Theorem stats_panics : forall E data p, len data < 2 ^ 63 ->
  Forall (fun panics => panics <-> stats_jam (checked E) data p)
    [ ktxstats_string E data = Panic p; ktxstats_v3 E data = Panic p; server E data = Panic p ].
Proof. exact stats_readers_panic. Qed.

(** with overflow checks: every byte string holds a text or jams *)
Theorem stats_decided : forall d, (exists text, embeds d text) \/ exists p, jams p d.
Proof. exact stats_classes. Qed.

Theorem scores_panics : forall E fs rest p, wf fs -> no_frame rest ->
  (frags_per_player_name E (encode fs ++ rest) = Panic p <->
   (p = PSlice /\ cut_off (encode fs ++ rest)) \/
   (~ cut_off (encode fs ++ rest) /\ clients_cut_off (encode fs ++ rest) /\
    exists a o b l, obituaries fs = a ++ o :: b /\ Forall (fun o => ~ asks_clients E o) a /\ asks_clients E o /\ entered E [] a l /\
      ((p = PSlice /\ (checked E = true -> ~ score_leaves l)) \/ (p = POverflow /\ checked E = true /\ score_leaves l))) \/
   (~ cut_off (encode fs ++ rest) /\ p = POverflow /\ checked E = true /\
    (clients_cut_off (encode fs ++ rest) -> Forall (fun o => ~ asks_clients E o) (obituaries fs)) /\
    exists l, entered E (clients_of (clients E (encode fs ++ rest))) (obituaries fs) l /\ score_leaves l)).
Proof. exact scores_panics_proof. Qed.

Theorem parsing_panics : forall E data p,
  players_from_parsing E data = Panic p <->
  (p = PSlice /\ clients_cut_off data) \/
  (~ clients_cut_off data /\ occurs data spawn_mark /\
   (ping_per_player_number E data = Panic p \/
    ((exists t, ping_per_player_number E data = Ret (Ok t)) /\ frags_per_player_name E data = Panic p))).
Proof. exact parsing_panics_proof. Qed.

Theorem players_panics : forall E data p, len data < 2 ^ 63 ->
  (players E data = Panic p <->
   stats_jam (checked E) data p \/
   ((exists e, ktxstats_v3 E data = Ret (Err e)) /\ players_from_parsing E data = Panic p)).
Proof. exact players_panics_proof. Qed.

Theorem team_list_panics : forall E ps p, iterates (teams_order E) -> each_iterates (colors_order E) -> len ps < 2 ^ 63 ->
  (teams_from_players E ps = Panic p <-> p = POverflow /\ checked E = true /\ teams_leave ps).
Proof. exact team_list_panics_proof. Qed.

Theorem teams_panics : forall E data p, iterates (teams_order E) -> each_iterates (colors_order E) ->
  (forall ps, players E data = Ret (Ok ps) -> len ps < 2 ^ 63) ->
  (teams E data = Panic p <->
   players E data = Panic p \/
   (p = POverflow /\ checked E = true /\ exists ps, players E data = Ret (Ok ps) /\ teams_leave ps)).
Proof. exact teams_panics_proof. Qed.

Theorem demo_duration_panics : forall E fs rest t p, wf fs -> no_frame rest -> end_marker (encode fs ++ rest) t ->
  (demo_duration E (encode fs ++ rest) = Panic p <-> clock (checked E) fs rest t (Panic p)).
Proof. exact demo_panics_proof. Qed.

Theorem countdown_panics : forall E fs rest p, wf fs -> no_frame rest ->
  (countdown_duration E (encode fs ++ rest) = Panic p <->
   (p = PSlice /\ len (encode fs ++ rest) < 1280) \/
   (1280 <= len (encode fs ++ rest) /\ not_hoonymode (serverinfo E (encode fs ++ rest)) /\
    exists c, first_at (encode fs ++ rest) matchdate_marker c /\ clock (checked E) fs rest c (Panic p))).
Proof. exact countdown_panics_proof. Qed.

Theorem seeking_panics : forall E fs rest t p, wf fs -> no_frame rest -> end_marker (encode fs ++ rest) t ->
  (match_duration_from_seeking E (encode fs ++ rest) = Panic p <->
   demo_duration E (encode fs ++ rest) = Panic p \/
   ((exists d, demo_duration E (encode fs ++ rest) = Ret (Ok d)) /\ countdown_duration E (encode fs ++ rest) = Panic p) \/
   (p = PDurationSub /\ exists d c, demo_duration E (encode fs ++ rest) = Ret (Ok d) /\
      countdown_duration E (encode fs ++ rest) = Ret (Ok c) /\ d < c)).
Proof. exact seeking_panics_proof. Qed.

Theorem stats_duration_panics : forall E data p, len data < 2 ^ 63 ->
  (match_duration_from_ktxstats E data = Panic p <->
   stats_jam (checked E) data p \/
   (p = PDurationFrom /\ exists s t, ktxstats_string E data = Ret (Ok s) /\ duration_text s t /\ no_time t)).
Proof. exact stats_duration_panics_proof. Qed.

Theorem match_duration_panics : forall E data p,
  (match_duration E data = Panic p <->
   (p = PSlice /\ len data < 1280) \/
   (1280 <= len data /\ not_hoonymode (serverinfo E data) /\ match_duration_from_ktxstats E data = Panic p) \/
   (1280 <= len data /\ (not_hoonymode (serverinfo E data) -> exists e, match_duration_from_ktxstats E data = Ret (Err e)) /\
    match_duration_from_seeking E data = Panic p)).
Proof. exact match_panics_proof. Qed.

(** A block that is cut off, a block without room for its number, a mark too close to the start *)
Definition jam_block (size : N) : bytes := repeat x00 10 ++ enc32 size ++ enc16 3 ++ enc16 1 ++ lit "{""version"": 3}".
Example stats_jam_example :
  stats_jam true (jam_block 18) PSlice /\ stats_jam false (jam_block 18) PSlice /\
  stats_jam true (jam_block 1) POverflow /\ stats_jam true (skipn 1 (jam_block 16)) POverflow /\
  ktxstats_string (sample true) (jam_block 16) = Panic PSlice /\
  ktxstats_string (sample true) (jam_block 16 ++ repeat x00 10) = Ret (Ok (lit "{""version"": 3}")).
Proof.
  assert (ST : forall b d p, len d < 2 ^ 63 -> ktxstats_string (sample b) d = Panic p -> stats_jam b d p).
  { intros b d p L H. pose proof (stats_panics (sample b) d p L) as F. inversion F; subst. apply H2 in H. exact H. }
  split; [apply ST; vm_compute; reflexivity |]. split; [apply ST; vm_compute; reflexivity |].
  split; [apply ST; vm_compute; reflexivity |]. split; [apply ST; vm_compute; reflexivity |].
  split; vm_compute; reflexivity.
Qed.

(** the second line of [scores_panics]: [cut_off_demo] in Properties/Panics.v.  Players: *)
Example players_panics_example :
  players (sample true) (encode (team_kill ++ [spawn_frame])) = Panic PSlice /\
  players (sample true) (encode team_kill) = Ret (Err "Unable to find clientinfo strings") /\
  teams (sample true) (jam_block 1) = Panic POverflow /\
  match_duration (sample true) (encode (stats_demo "-1")) = Panic PDurationFrom /\
  match_duration (sample true) (encode (stats_demo "soon")) = Ret (Ok 0).
Proof. vm_compute. repeat split. Qed.

Example no_time_example : no_time (lit "-InF") /\ no_time (lit "-1") /\ ~ no_time (lit "soon").
Proof. exact no_time_cases. Qed.

Print Assumptions stats_panics.
Print Assumptions stats_decided.
Print Assumptions scores_panics.
Print Assumptions parsing_panics.
Print Assumptions players_panics.
Print Assumptions team_list_panics.
Print Assumptions teams_panics.
Print Assumptions demo_duration_panics.
Print Assumptions countdown_panics.
Print Assumptions seeking_panics.
Print Assumptions stats_duration_panics.
Print Assumptions match_duration_panics.
