(** The crate's own unit tests that need no demo file, as computations of the model: the
    test modules of /repo/src/bytesextra.rs, qw/primitives.rs, qw/fragevent.rs,
    qw/flagevent.rs, qw/message/*.rs, timezone.rs, matchdate.rs, player.rs, team.rs, ping.rs
    and validate.rs.  They check the model, not a property. *)
From Verif.Model Require Import Base Env Primitives Prot Frame Message Bytesextra FragEvent FlagEvent
  Timezone Matchdate Ktxstats Players Ping Validate.
From Verif.Properties Require Import Sample.
Open Scope N_scope.
Open Scope string_scope.
Open Scope list_scope.

(** src/bytesextra.rs:21-37 *)
Definition between_data : bytes := lit "{'foo': 'bar', 'duration': 600, 'map': 'dm2'}".
Example test_offsets_between :
  map (fun ab => offsets_between between_data (lit (fst ab)) (lit (snd ab)))
    [("'duration': ", ","); ("", ","); ("'map': ", ","); ("'FOO': ", ","); ("'duration': ", "")] =
  [Ret (Some (27, 30)); Ret (Some (0, 13)); Ret None; Ret None; Ret None].
Proof. vm_compute. reflexivity. Qed.

(** src/qw/primitives.rs:58-85 *)
Example test_primitives : forall d,
  fst (read_byte (sample d) (cursor_new [x08])) = Ok x08 /\
  fst (read_u16 (sample d) (cursor_new [x01; x02])) = Ok 513 /\
  fst (read_u32 (sample d) (cursor_new [x01; x02; x03; x01])) = Ok 16974337 /\
  fst (read_bstring (cursor_new [x01; x02; x03; x0a; x00])) = Ok [x01; x02; x03; x0a].
Proof. intros d. vm_compute. auto. Qed.

(** src/qw/message/print.rs:58-82 *)
Example test_print : forall d,
  print_try_from (sample d) [x01; x02; x03; x04; x05; x0a] = Err "failed to read string" /\
  print_try_from (sample d) [x01; x02; x03; x04; x0a; x00] = Ok (mkPrint PiMedium [x02; x03; x04; x0a]) /\
  byte_size (mkPrint PiMedium [x02; x03; x04; x0a]) = 6.
Proof. intros d. vm_compute. auto. Qed.

(** src/qw/message/update_frags.rs:36-46, update_ping.rs:38-48 *)
Example test_updates : forall d,
  update_frags_try_from (sample d) [x09; x17; x01] = Ok (mkUpdateFrags 9 279) /\
  update_ping_try_from (sample d) [x04; x01; x02; x00] = Ok (mkUpdatePing 4 513).
Proof. intros d. vm_compute. auto. Qed.

(** src/qw/fragevent.rs:121-216 *)
Example test_frag_event : Forall (fun c => frag_event_from (lit (fst c)) = Ok (snd c)) [
    ("FOO sleeps with the fishes", Death (lit "FOO"));
    ("FOO sucks it down", Death (lit "FOO"));
    ("FOO gulped a load of slime", Death (lit "FOO"));
    ("FOO can't exist on slime alone", Death (lit "FOO"));
    ("FOO burst into flames", Death (lit "FOO"));
    ("FOO turned into hot slag", Death (lit "FOO"));
    ("FOO visits the Volcano God", Death (lit "FOO"));
    ("FOO cratered", Death (lit "FOO"));
    ("FOO fell to his death", Death (lit "FOO"));
    ("FOO fell to her death", Death (lit "FOO"));
    ("FOO blew up", Death (lit "FOO"));
    ("FOO was spiked", Death (lit "FOO"));
    ("FOO was zapped", Death (lit "FOO"));
    ("FOO ate a lavaball", Death (lit "FOO"));
    ("FOO died", Death (lit "FOO"));
    ("FOO tried to leave", Death (lit "FOO"));
    ("FOO was squished", Death (lit "FOO"));
    ("FOO tries to put the pin back in", SuicideByWeapon (lit "FOO"));
    ("FOO becomes bored with life", SuicideByWeapon (lit "FOO"));
    ("FOO discovers blast radius", SuicideByWeapon (lit "FOO"));
    ("FOO electrocutes himself", SuicideByWeapon (lit "FOO"));
    ("FOO electrocutes herself", SuicideByWeapon (lit "FOO"));
    ("FOO railcutes himself", SuicideByWeapon (lit "FOO"));
    ("FOO railcutes herself", SuicideByWeapon (lit "FOO"));
    ("FOO discharges into the slime", SuicideByWeapon (lit "FOO"));
    ("FOO discharges into the lava", SuicideByWeapon (lit "FOO"));
    ("FOO discharges into the water", SuicideByWeapon (lit "FOO"));
    ("FOO heats up the water", SuicideByWeapon (lit "FOO"));
    ("FOO squished a teammate", Teamkill (lit "FOO"));
    ("FOO mows down a teammate", Teamkill (lit "FOO"));
    ("FOO checks his glasses", Teamkill (lit "FOO"));
    ("FOO checks her glasses", Teamkill (lit "FOO"));
    ("FOO gets a frag for the other team", Teamkill (lit "FOO"));
    ("FOO loses another friend", Teamkill (lit "FOO"));
    ("FOO was telefragged by his teammate", TeamkillByUnknown (lit "FOO"));
    ("FOO was telefragged by her teammate", TeamkillByUnknown (lit "FOO"));
    ("FOO was crushed by his teammate", TeamkillByUnknown (lit "FOO"));
    ("FOO was crushed by her teammate", TeamkillByUnknown (lit "FOO"));
    ("FOO was jumped by his teammate", TeamkillByUnknown (lit "FOO"));
    ("FOO was jumped by her teammate", TeamkillByUnknown (lit "FOO"));
    ("FOO stomps BAR", Frag (lit "FOO") (lit "BAR"));
    ("FOO squishes BAR", Frag (lit "FOO") (lit "BAR"));
    ("FOO rips BAR a new one", Frag (lit "FOO") (lit "BAR"));
    ("FOO was ax-murdered by BAR", Frag (lit "BAR") (lit "FOO"));
    ("FOO softens BAR's fall", Frag (lit "BAR") (lit "FOO"));
    ("FOO tried to catch BAR", Frag (lit "BAR") (lit "FOO"));
    ("FOO was crushed by BAR", Frag (lit "BAR") (lit "FOO"));
    ("FOO was jumped by BAR", Frag (lit "BAR") (lit "FOO"));
    ("FOO chewed on BAR's boomstick", Frag (lit "BAR") (lit "FOO"));
    ("FOO was body pierced by BAR", Frag (lit "BAR") (lit "FOO"));
    ("FOO was nailed by BAR", Frag (lit "BAR") (lit "FOO"));
    ("FOO was railed by BAR", Frag (lit "BAR") (lit "FOO"));
    ("FOO was telefragged by BAR", Frag (lit "BAR") (lit "FOO"));
    ("FOO accepts BAR's discharge", Frag (lit "BAR") (lit "FOO"));
    ("FOO drains BAR's batteries", Frag (lit "BAR") (lit "FOO"));
    ("FOO was lead poisoned by BAR", Frag (lit "BAR") (lit "FOO"));
    ("FOO accepts BAR's shaft", Frag (lit "BAR") (lit "FOO"));
    ("FOO ate 2 loads of BAR's buckshot", Frag (lit "BAR") (lit "FOO"));
    ("FOO was perforated by BAR", Frag (lit "BAR") (lit "FOO"));
    ("FOO was punctured by BAR", Frag (lit "BAR") (lit "FOO"));
    ("FOO was ventilated by BAR", Frag (lit "BAR") (lit "FOO"));
    ("FOO ate 8 loads of BAR's buckshot", Frag (lit "BAR") (lit "FOO"));
    ("FOO gets a natural disaster from BAR", Frag (lit "BAR") (lit "FOO"));
    ("FOO rides BAR's rocket", Frag (lit "BAR") (lit "FOO"));
    ("FOO was gibbed by BAR's rocket", Frag (lit "BAR") (lit "FOO"));
    ("FOO was straw-cuttered by BAR", Frag (lit "BAR") (lit "FOO"));
    ("FOO eats BAR's pineapple", Frag (lit "BAR") (lit "FOO"));
    ("FOO was gibbed by BAR's grenade", Frag (lit "BAR") (lit "FOO"));
    ("FOO was brutalized by BAR's quad rocket", Frag (lit "BAR") (lit "FOO"));
    ("FOO was smeared by BAR's quad rocket", Frag (lit "BAR") (lit "FOO"));
    ("FOO was hooked by BAR", Frag (lit "BAR") (lit "FOO"));
    ("FOO suicides", Suicide (lit "FOO")) ].
Proof. repeat constructor. Qed.

(** src/qw/flagevent.rs:60-149 *)
Example test_flag_event : Forall (fun c => flag_event_from (fst c) = Ok (snd c)) [
    (lit "FOO çïô the ÒÅÄ flag!" ++ [x0a], GotFlag (lit "FOO"));
    ([x10] ++ lit "FOO" ++ [x11] ++ lit " çïô the ÒÅÄ flag!" ++ [x0a], GotFlag ([x10] ++ lit "FOO" ++ [x11]));
    (lit "FOO çïô the ÂÌÕÅ flag!" ++ [x0a], GotFlag (lit "FOO"));
    (lit "FOO ãáðôõòåä the ÒÅÄ flag!" ++ [x0a], CapturedFlag (lit "FOO"));
    (lit "FOO ãáðôõòåä the ÂÌÕÅ flag!" ++ [x0a], CapturedFlag (lit "FOO"));
    (lit "FOO gets an assist for fragging the flag carrier!" ++ [x0a], ReturnedFlagAssist (lit "FOO"));
    (lit "FOO òåôõòîåä the ÒÅÄ flag!" ++ [x0a], ReturnedFlag (lit "FOO"));
    (lit "FOO òåôõòîåä the ÂÌÕÅ flag!" ++ [x0a], ReturnedFlag (lit "FOO"));
    (lit "FOO defends the ÒÅÄ flag" ++ [x0a], DefendsFlag (lit "FOO"));
    (lit "FOO defends ÒÅÄ's flag carrier" ++ [x0a], DefendsFlagCarrier (lit "FOO"));
    (lit "FOO defends ÂÌÕÅ's flag carrier" ++ [x0a], DefendsFlagCarrier (lit "FOO"));
    (lit "FOO defends ÒÅÄ's flag carrier against an aggressive enemy" ++ [x0a], DefendsFlagCarrierVsAggressive (lit "FOO"));
    (lit "FOO defends ÂÌÕÅ's flag carrier against an aggressive enemy" ++ [x0a], DefendsFlagCarrierVsAggressive (lit "FOO")) ].
Proof. repeat constructor. Qed.

(** src/timezone.rs:259-276 *)
Example test_utc_offset :
  map (fun s => utc_offset (lit s)) ["FOO"; "+FOO"; "+1205"; "-1205"] = repeat (Ret None) 4 /\
  map (fun s => utc_offset (lit s)) ["CEST"; "UTC"; "+01"; "+01:00"; "+0100"; "-0145"] =
  map (fun s => Ret (Some (lit s))) ["+02:00"; "+00:00"; "+01:00"; "+01:00"; "+01:00"; "-01:45"].
Proof. vm_compute. auto. Qed.

(** src/matchdate.rs:59-81 *)
Example test_replace_tz_abbr :
  map (fun s => replace_tz_abbr_with_offset (lit s))
    ["2024-04-02 21:02:17 CEST"; "2024-04-02 21:02:17 GMT"; "2024-04-02 21:02:17 UTC";
     "2024-04-02 21:02:17 -01"; "2024-04-02 21:02:17 +0200"] =
  map (fun s => Ret (Ok (lit s)))
    ["2024-04-02 21:02:17+02:00"; "2024-04-02 21:02:17+00:00"; "2024-04-02 21:02:17+00:00";
     "2024-04-02 21:02:17-01:00"; "2024-04-02 21:02:17+02:00"].
Proof. vm_compute. reflexivity. Qed.

(** src/matchdate.rs:96-135 *)
Example test_matchdate_string :
  matchdate_string [] = Ret (Err "Matchdate not found") /\
  matchdate_string (lit "foo") = Ret (Err "Matchdate not found") /\
  matchdate_string ([x08; x02] ++ lit "matchdate: foo") = Ret (Err "Invalid matchdate") /\
  matchdate_string ([x08; x02] ++ lit "matchdate: 2024") = Ret (Err "Invalid matchdate") /\
  matchdate_string ([x08; x02] ++ lit "matchdate: 2024-04-02 21:02:17" ++ [x0a]) =
    Ret (Err "Invalid matchdate") /\
  matchdate_string ([x08; x02] ++ lit "matchdate: 2024-04-02 21:02:17 FOOBAR" ++ [x0a]) =
    Ret (Err "Invalid matchdate") /\
  matchdate_string ([x08; x02] ++ lit "matchdate: 2024-04-02 21:02:17 CEST" ++ [x0a]) =
    Ret (Ok (lit "2024-04-02 21:02:17 CEST")).
Proof. vm_compute. repeat split. Qed.

(** src/player.rs:48-75 *)
Example test_player_from_ktxplayer :
  player_from (mkKtxPlayer (lit "Alpha") (lit "red") [] 4 3 25 54 false) =
  mkPlayer (lit "Alpha") (lit "red") (4, 3) 54 25 false None None.
Proof. vm_compute. reflexivity. Qed.

(** src/team.rs:92-142; whatever order the map yields the teams in *)
Definition red_alpha := mkPlayer (lit "Alpha") (lit "red") (4, 3) 54 25 false None None.
Definition red_beta := mkPlayer (lit "Beta") (lit "red") (4, 3) 16 12 false None None.
Definition blue_gamma := mkPlayer (lit "Gamma") (lit "blue") (11, 10) 29 52 false None None.
Example test_teams_from_players : forall d,
  teams_from_players (sample d) [red_alpha; red_beta; blue_gamma] =
  Ret [ mkTeam (lit "blue") (11, 10) 29 52 [blue_gamma];
        mkTeam (lit "red") (4, 3) 70 19 [red_alpha; red_beta] ].
Proof. intros []; vm_compute; reflexivity. Qed.

(** src/team.rs:145-157 *)
Example test_majority_color : forall d,
  majority_color (sample d) (lit "red") [(4, 3); (11, 10)] = Ret (Some (4, 3)) /\
  majority_color (sample d) (lit "red") [(4, 3); (11, 10); (0, 0); (11, 10)] = Ret (Some (11, 10)).
Proof. intros []; vm_compute; auto. Qed.

(** src/ping.rs:74-76 *)
Example test_pings : forall d,
  ping_per_player_number (sample d) [x00; x01; x02; x03; x04; x05; x06; x07; x08; x09] =
  Ret (Err "Unable to read pings").
Proof. intros []; vm_compute; reflexivity. Qed.

(** src/validate.rs:33-35 *)
Example test_is_valid : forall d,
  map (is_valid (sample d)) [[]; repeat x0a 128; repeat x0a 1280] = repeat (Ret false) 3.
Proof. intros []; vm_compute; reflexivity. Qed.
