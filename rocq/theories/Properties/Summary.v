(** C76: the summary of a whole recording. *)
From Coq Require Import Lia ZifyN ZifyNat ZifyBool Permutation.
From Verif.Model Require Import Base Env Bytesextra Serverinfo Clientinfo Clients Prints Frags Flags Ping Players
  Ktxstats Matchdate Duration Validate.
From Verif.Spec Require Import Occ Mvd Messages Obituary Score Flags Pings Stats Texts Utf8
  Dates Clientlist Times Order Teams Recording Summary.
From Verif.Proofs Require Import BaseFacts TextFacts Utf8Facts RecordingTexts SummaryFacts.
From Verif.Properties Require Import Sample Times Dates Recording.
Open Scope N_scope.

(** Who plays, who watches *)
Theorem recording_lists : forall E cs r, wf_recording E cs r ->
  player_clients E (encode (frames r)) = Ret (Ok (squad cs)) /\
  spectator_clients E (encode (frames r)) = Ret (Ok (crowd cs)) /\
  (exists b, has_human_players E (encode (frames r)) = Ret (Ok b) /\
     (b = true <-> exists c, In c (squad cs) /\ c_is_bot c = false)) /\
  (exists b, has_bot_players E (encode (frames r)) = Ret (Ok b) /\
     (b = true <-> (exists c, In c (squad cs) /\ c_is_bot c = true) \/ occurs (encode (frames r)) (lit """bot"": {"))) /\
  ((forall l, Permutation (unicode_sort E l) l) ->
   exists pn sn tn,
     player_names E (encode (frames r)) = Ret (Ok pn) /\ Permutation pn (map c_name (squad cs)) /\
     spectator_names E (encode (frames r)) = Ret (Ok sn) /\ Permutation sn (map c_name (crowd cs)) /\
     team_names E (encode (frames r)) = Ret (Ok tn) /\ forall t, In t tn <-> exists c, In c (squad cs) /\ c_team c = t).
Proof. exact recording_lists_proof. Qed.

(** When it was played and what the file is called *)
Theorem recording_when : forall E cs r, wf_recording E cs r ->
  let s := settings_from E (to_utf8 E (r_info r)) in
  (forall t, st_epoch s = Some t -> timestamp E (encode (frames r)) = Ret (Ok t)) /\
  (forall m z min, reads_dates E -> valid_moment m -> named_zone z min \/ numeric_zone z min ->
     r_date r = moment_text m ++ lit " " ++ z ->
     matchdate E (encode (frames r)) = Ret (Ok (seconds m - 60 * min)%Z) /\
     (st_epoch s = None -> timestamp E (encode (frames r)) = Ret (Ok (seconds m - 60 * min)%Z))) /\
  (forall name, st_serverdemo s = Some name -> filename E (encode (frames r)) = Ret (Ok name)) /\
  (st_serverdemo s = None -> exists m, filename E (encode (frames r)) = Ret (Err m)).
Proof. exact recording_when_proof. Qed.

(** How long the match took: in hoonymode all of the demo; else what the statistics say; else
    from the date to the end *)
Theorem recording_match_duration : forall E cs r, wf_recording E cs r ->
  let mode := st_mode (settings_from E (to_utf8 E (r_info r))) in
  let stats := concat (map snd (r_stats r)) in
  (mode = Some (lit "hoonymode") ->
     exists d, match_duration E (encode (frames r)) = Ret (Ok d) /\ Z.of_N d = ms_to_ns (lasts (timeline r))) /\
  (mode <> Some (lit "hoonymode") -> forall a b ip fp,
     stats = a ++ lit """duration"": " ++ (numeral ip ++ lit "." ++ numeral fp) ++ lit "," ++ b ->
     first_at stats (lit """duration"": ") (len a) -> wf_digits ip -> wf_digits fp -> ip ++ fp <> [] -> len fp <= 9 ->
     number (ip ++ fp) < 8388608 * 10 ^ len fp ->
     match_duration E (encode (frames r)) = Ret (Ok (number (ip ++ fp) * 10 ^ (9 - len fp)))) /\
  (mode <> Some (lit "hoonymode") -> forall a b ds,
     stats = a ++ lit """duration"": " ++ numeral ds ++ lit "," ++ b ->
     first_at stats (lit """duration"": ") (len a) -> wf_digits ds -> ds <> [] -> number ds < 8388608 ->
     match_duration E (encode (frames r)) = Ret (Ok (number ds * 1000000000))) /\
  (mode <> Some (lit "hoonymode") -> ~ occurs stats (lit """duration"": ") ->
     exists d, match_duration E (encode (frames r)) = Ret (Ok d) /\
       Z.of_N d = (ms_to_ns (lasts (timeline r)) - ms_to_ns (lasts (r_countdown r ++ [date_entry r])))%Z).
Proof. exact recording_match_duration_proof. Qed.

(** What the statistics say *)
Theorem recording_from_stats : forall E cs r, wf_recording E cs r -> forall k,
  ktxstats_from E (concat (map snd (r_stats r))) = Ok k ->
  (exists ds, server E (encode (frames r)) = Ret (Ok (mkServer (ks_hostname k) (ks_ip k ++ lit ":" ++ numeral ds) (ks_ip k) (ks_port k))) /\
     wf_digits ds /\ number ds = ks_port k /\ (ds = [0] \/ exists d r, ds = d :: r /\ d <> 0)) /\
  exists es l, players E (encode (frames r)) = Ret (Ok l) /\ Forall2 converted (ks_players k) es /\ stable_order better es l /\
    (iterates (teams_order E) -> each_iterates (colors_order E) -> sums_fit l ->
     exists ts, teams E (encode (frames r)) = Ret (Ok ts) /\ teams_of (to_lowercase E) l ts).
Proof. exact recording_from_stats_proof. Qed.

(** The teams, if the statistics are not readable *)
Theorem recording_teams : forall E cs r, wf_recording E cs r -> forall m,
  iterates (players_order E) -> iterates (teams_order E) -> each_iterates (colors_order E) ->
  pings_reported r <> [] -> ktxstats_from E (concat (map snd (r_stats r))) = Err m ->
  len cs < 256 -> (forall c, In c cs -> (-8000000 <= Score.total (c_name c) (all_scores r) <= 8000000)%Z) ->
  exists es l ts, players E (encode (frames r)) = Ret (Ok l) /\ Forall2 (portrait r) (squad cs) es /\
    Permutation es l /\ in_order_of better l /\
    teams E (encode (frames r)) = Ret (Ok ts) /\ teams_of (to_lowercase E) l ts.
Proof. exact recording_teams_proof. Qed.

(** A vote that stopped the match *)
Theorem recording_aborted : forall r e, In e (timeline r) ->
  e_news e = Notice stopped_text -> is_aborted (encode (frames r)) = true.
Proof. exact recording_aborted_proof. Qed.

Definition night_when : moment := mkMoment 2024 5 6 12 34 56.

(** two players, one of them a bot, on one team; nobody watches *)
Example night_lists : squad night_clients = night_clients /\ crowd night_clients = [] /\
  has_human_players (sample true) (encode (frames night)) = Ret (Ok true) /\
  has_bot_players (sample true) (encode (frames night)) = Ret (Ok true) /\
  team_names (sample true) (encode (frames night)) = Ret (Ok [lit "red"]).
Proof. repeat split; vm_compute; reflexivity. Qed.

Example night_date : valid_moment night_when /\ named_zone (lit "CEST") 120 /\
  r_date night = moment_text night_when ++ lit " " ++ lit "CEST" /\
  matchdate chrono (encode (frames night)) = Ret (Ok (seconds night_when - 60 * 120)%Z).
Proof.
  split; [repeat split; vm_compute; try reflexivity; discriminate |]. split; [exists "CEST"%string; split; [vm_compute; tauto | reflexivity] |].
  split; vm_compute; reflexivity.
Qed.

(** nothing about the duration in these statistics: 52 ms from the date to the end *)
Example night_duration : find (concat (map snd (r_stats night))) (lit """duration"": ") = None /\
  match_duration (sample true) (encode (frames night)) = Ret (Ok 52000000).
Proof. split; vm_compute; reflexivity. Qed.

Example night_teams : exists ts, teams unread (encode (frames night)) = Ret (Ok ts) /\
  map t_name ts = [lit "red"] /\ map t_frags ts = [0%Z] /\ map t_ping ts = [28].
Proof. eexists. split; [vm_compute; reflexivity |]. repeat split. Qed.

Example night_stopped : wf_recording (sample true) night_clients night /\
  In (Notice stopped_text) (map e_news (timeline night)) /\ is_aborted (encode (frames night)) = true.
Proof. split; [exact night_wf |]. split; [vm_compute; tauto | vm_compute; reflexivity]. Qed.

(** Another evening, with a duration in the statistics and more in the serverinfo *)
Definition evening (info : string) : recording := mkRecording
  (lit info) (r_users night) (r_users_rest night) (r_countdown night) (r_date_time night) (r_date night) (r_match night)
  (r_over_time night) [(2, version_mark ++ lit "3, "); (0, lit """duration"": 0.5, ""x"": 1}")].
Definition dusk : recording := evening "\mode\ffa\epoch\1714143569\serverdemo\dusk.mvd".
Definition dawn : recording := evening "\mode\hoonymode".
Lemma evening_wf : forall info, In info ["\mode\ffa\epoch\1714143569\serverdemo\dusk.mvd"; "\mode\hoonymode"]%string ->
  wf_recording (sample true) night_clients (evening info).
Proof.
  intros info I. constructor; [| apply night_wf | apply night_wf | apply night_wf | apply night_wf | apply night_wf | apply night_wf
    | | | | | | | | apply night_wf | apply night_wf | apply night_wf].
  - destruct I as [<- | [<- | []]]; (split; [discriminate |]; repeat (split; [apply not_in; reflexivity |]); vm_compute; discriminate).
  - repeat (constructor; [repeat split; try (apply find_none; reflexivity); vm_compute; try reflexivity; discriminate |]). constructor.
  - exists [(2, version_mark ++ lit "3, ")], (lit """duration"": 0.5, ""x"": 1}"). split; [reflexivity |]. repeat constructor. discriminate.
  - apply utf8_valid_iff. reflexivity.
  - eexists. eexists. eexists. split; [reflexivity |]. apply find_none. reflexivity.
  - apply find_none. destruct I as [<- | [<- | []]]; vm_compute; reflexivity.
  - apply find_none. vm_compute. reflexivity.
  - destruct I as [<- | [<- | []]]; (split; vm_compute; [discriminate | reflexivity]).
Qed.

Example dusk_summary : wf_recording (sample true) night_clients dusk /\
  timestamp (sample true) (encode (frames dusk)) = Ret (Ok 1714143569%Z) /\
  filename (sample true) (encode (frames dusk)) = Ret (Ok (lit "dusk.mvd")) /\
  (exists m, filename (sample true) (encode (frames dawn)) = Ret (Err m)) /\
  concat (map snd (r_stats dusk)) =
    (version_mark ++ lit "3, ") ++ lit """duration"": " ++ (numeral [0] ++ lit "." ++ numeral [5]) ++ lit "," ++ lit " ""x"": 1}" /\
  find (concat (map snd (r_stats dusk))) (lit """duration"": ") = Some (len (version_mark ++ lit "3, ")) /\
  match_duration (sample true) (encode (frames dusk)) = Ret (Ok 500000000) /\
  match_duration (sample true) (encode (frames dawn)) = Ret (Ok 77000000).
Proof.
  split; [apply evening_wf; vm_compute; tauto |]. split; [vm_compute; reflexivity |]. split; [vm_compute; reflexivity |].
  split; [eexists; vm_compute; reflexivity |]. repeat split; vm_compute; reflexivity.
Qed.

(** Readable statistics with two players of a team *)
Definition counted : env :=
  mkEnv true true (to_unicode (sample true)) (to_utf8 (sample true)) (unicode_sort (sample true))
    (clientinfo_from (sample true)) (settings_from (sample true))
    (fun _ => Ok (mkKtxstatsV3 (lit "host") (lit "10.0.0.1") 27500
       [mkKtxPlayer (lit "carl") (lit "red") [] 4 4 20 (-3) true; mkKtxPlayer (lit "anna") (lit "red") [] 4 4 13 15 false]))
    (parse_datetime (sample true)) (to_lowercase (sample true)) (players_order (sample true))
    (teams_order (sample true)) (colors_order (sample true)).
Example dusk_counted : exists l ts, players counted (encode (frames dusk)) = Ret (Ok l) /\
  map p_name l = [lit "anna"; lit "carl"] /\ map p_frags l = [15%Z; (-3)%Z] /\
  teams counted (encode (frames dusk)) = Ret (Ok ts) /\
  map t_name ts = [lit "red"] /\ map t_frags ts = [12%Z] /\ map t_ping ts = [17] /\ map t_color ts = [(4, 4)] /\
  server counted (encode (frames dusk)) = Ret (Ok (mkServer (lit "host") (lit "10.0.0.1:27500") (lit "10.0.0.1") 27500)).
Proof.
  do 2 eexists. split; [vm_compute; reflexivity |]. split; [reflexivity |]. split; [reflexivity |].
  split; [vm_compute; reflexivity |]. repeat (split; [reflexivity |]). vm_compute. reflexivity.
Qed.

Print Assumptions recording_lists.
Print Assumptions recording_when.
Print Assumptions recording_match_duration.
Print Assumptions recording_from_stats.
Print Assumptions recording_teams.
Print Assumptions recording_aborted.
