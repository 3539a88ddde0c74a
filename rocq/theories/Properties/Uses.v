(** C88: what each result depends on besides the data *)
From Coq Require Import Lia ZifyN ZifyNat ZifyBool.
From Verif.Model Require Import Base Env Prot Message Prints Serverinfo Clientinfo Clients Frags Flags Ping Ktxstats Matchdate
  Duration Validate Players.
From Verif.Spec Require Import Mvd Pings Uses.
From Verif.Proofs Require Import BaseFacts UseFacts LongFacts.
From Verif.Properties Require Import Sample Pings Flags Scores Players Teams.

(** [one p A B]: [A] with one part of [B] *)
Definition one (p : part) (A B : env) : env := {|
  checked := match p with Checks => checked B | _ => checked A end;
  eof_on_short_read := match p with Reader => eof_on_short_read B | _ => eof_on_short_read A end;
  to_unicode := match p with Unicode => to_unicode B | _ => to_unicode A end;
  to_utf8 := match p with Utf8 => to_utf8 B | _ => to_utf8 A end;
  unicode_sort := match p with Sorting => unicode_sort B | _ => unicode_sort A end;
  clientinfo_from := match p with Userinfo => clientinfo_from B | _ => clientinfo_from A end;
  settings_from := match p with Uses.Settings => settings_from B | _ => settings_from A end;
  ktxstats_from := match p with Json => ktxstats_from B | _ => ktxstats_from A end;
  parse_datetime := match p with Dates => parse_datetime B | _ => parse_datetime A end;
  to_lowercase := match p with Lowercase => to_lowercase B | _ => to_lowercase A end;
  players_order := match p with PlayerMap => players_order B | _ => players_order A end;
  teams_order := match p with TeamMap => teams_order B | _ => teams_order A end;
  colors_order := match p with ColorMap => colors_order B | _ => colors_order A end |}.

(** other libraries *)
Definition other : env := {|
  checked := true;
  eof_on_short_read := false;
  to_unicode := filter (fun b => negb (Byte.eqb b "o"));
  to_utf8 := filter (fun b => negb (in_range b 0x30 0x39));
  unicode_sort := fun l => rev (sort_by str_cmp l);
  clientinfo_from := fun s => mkClientinfo (field "name" s) (field "name" s) (int_field "bottomcolor" s) (int_field "topcolor" s)
    (int_field "*bot" s) None None None None None;
  settings_from := fun s => mkSettings (field "serverdemo" s) (int_field "deathmatch" s) (field "mode" s) [];
  ktxstats_from := fun s => Err "expected value";
  parse_datetime := fun s => Ok 7%Z;
  to_lowercase := fun s => s;
  players_order := @rev _;
  teams_order := @rev _;
  colors_order := fun _ => @rev _;
|}.

Lemma one_rest : forall p q A B, q <> p -> same_part q A (one p A B).
Proof. intros p q A B H. destruct p, q; try reflexivity; destruct (H eq_refl). Qed.

(** A duel of the kind whose name is read from the serverinfo; namesakes, a team kill, a date *)
Definition whole : bytes := encode
  [ info_frame "\mode\hoony1mode\epoch\1690000000\serverdemo\hoonymode\deathmatch\3";
    frame_all x00 (x09 :: lit "cmd spawn" ++ [x00] ++ userinfo "\name\anna\team\Red\topcolor\4\bottomcolor\4"
      ++ userinfo "\name\anna\team\red\topcolor\13\bottomcolor\4" ++ userinfo "\name\otto\team\red\topcolor\4\bottomcolor\4"
      ++ userinfo "\name\carl\team\red\topcolor\0\bottomcolor\3\*bot\1"
      ++ userinfo "\name\zoe\team\\*spectator\1" ++ userinfo "\name\axl\team\\*spectator\1" ++ repeat x00 600);
    frame_all x05 (x08 :: x02 :: lit "matchdate: 2024-04-02 21:02:17 CEST" ++ [x0a; x00]);
    frame_all x07 (say x01 "otto was telefragged by his teammate");
    frame_all x01 [x0e; x03; x01; x00]; frame_all x01 (say x01 "otto suicides");
    frame_all x01 (say_line x02 "otto çïô the ÒÅÄ flag!");
    ping_frame [mkPingUpdate x00 26 x00] ].
Definition bots : bytes := x09 :: lit "cmd spawn" ++ [x00] ++ userinfo "\name\carl\team\\*bot\1" ++ repeat x00 600.
Definition watchers : bytes := x09 :: lit "cmd spawn" ++ [x00] ++ userinfo "\name\zoe\team\\*spectator\1" ++ repeat x00 600.
Definition undated : bytes := encode
  [ info_frame "\mode\1on1\serverdemo\duel2.mvd"; frame_all x05 (x08 :: x02 :: lit "matchdate: 2024-04-02 21:02:17 CEST" ++ [x0a; x00]) ].
Definition soon : bytes := enc32 14 ++ enc16 3 ++ enc16 0 ++ lit "{""version"": " ++ repeat x00 1300.
Definition slow : bytes := encode (ping_frame [mkPingUpdate x00 65535 x00] :: ping_frame [mkPingUpdate x00 65535 x00] ::
  [frame_all x00 (x09 :: lit "cmd spawn" ++ [x00] ++ userinfo "\name\anna\team\red" ++ repeat x00 600)]).
Definition together : bytes := encode
  [ frame_all x00 (x09 :: lit "cmd spawn" ++ [x00] ++ userinfo "\name\anna\team\Red\topcolor\4\bottomcolor\4"
      ++ userinfo "\name\anna\team\Red\topcolor\13\bottomcolor\4" ++ repeat x00 600);
    ping_frame [mkPingUpdate x00 26 x00] ].
Definition mixed : bytes := encode
  [ frame_all x00 (x09 :: lit "cmd spawn" ++ [x00] ++ userinfo "\name\anna\team\Red"
      ++ userinfo "\name\bert\team\blue" ++ repeat x00 600);
    ping_frame [mkPingUpdate x00 26 x00] ].

Ltac from_parts H := first
  [ apply (H Checks); cbn; tauto | apply (H Unicode); cbn; tauto | apply (H Utf8); cbn; tauto | apply (H Sorting); cbn; tauto
  | apply (H Userinfo); cbn; tauto | apply (H Uses.Settings); cbn; tauto | apply (H Json); cbn; tauto | apply (H Dates); cbn; tauto
  | apply (H Lowercase); cbn; tauto | apply (H PlayerMap); cbn; tauto | apply (H TeamMap); cbn; tauto | apply (H ColorMap); cbn; tauto ].
Ltac used L := intros E E' x H; apply L; from_parts H.
Ltac changed p d := exists (sample false), (one p (sample false) other), d; split; [intros q N; apply one_rest; exact N | vm_compute; discriminate].
Ltac stopped d L := exists (one Checks (sample false) other), (sample false), d; split;
  [intros q N; destruct q; try reflexivity; destruct (N eq_refl) | apply L].

(** Texts and lists *)
Theorem texts_use :
  uses_just [] is_valid /\
  uses_just [] has_clients /\
  uses_just [] prints /\
  uses_just [Utf8] serverinfo_string /\
  uses_just [Utf8; Uses.Settings] serverinfo /\
  uses_just [Utf8; Uses.Settings] filename /\
  uses_just [Unicode] clientinfo_strings /\
  uses_just [Unicode; Userinfo] clientinfo /\
  uses_just [Unicode; Userinfo] clients /\
  uses_just [Unicode; Userinfo] player_clients /\
  uses_just [Unicode; Userinfo] spectator_clients /\
  uses_just [Unicode; Sorting; Userinfo] player_names /\
  uses_just [Unicode; Sorting; Userinfo] spectator_names /\
  uses_just [Unicode; Sorting; Userinfo] team_names /\
  uses_just [Unicode; Userinfo] has_bot_players /\
  uses_just [Unicode; Userinfo] has_human_players.
Proof.
  repeat match goal with |- uses_just _ _ /\ _ => split end.
  - split; [used valid_used | constructor].
  - split; [used has_clients_used | constructor].
  - split; [used prints_used | constructor].
  - split; [used serverinfo_string_used |]. repeat constructor.
    + changed Utf8 undated.
  - split; [used serverinfo_used |]. repeat constructor.
    + changed Utf8 undated.
    + changed Uses.Settings undated.
  - split; [used filename_used |]. repeat constructor.
    + changed Utf8 undated.
    + changed Uses.Settings undated.
  - split; [used clientinfo_strings_used |]. repeat constructor.
    + changed Unicode bots.
  - split; [used clientinfo_used |]. repeat constructor.
    + changed Unicode bots.
    + changed Userinfo bots.
  - split; [used clients_used |]. repeat constructor.
    + changed Unicode bots.
    + changed Userinfo bots.
  - split; [used player_clients_used |]. repeat constructor.
    + changed Unicode bots.
    + changed Userinfo bots.
  - split; [used spectator_clients_used |]. repeat constructor.
    + changed Unicode watchers.
    + changed Userinfo bots.
  - split; [used player_names_used |]. repeat constructor.
    + changed Unicode watchers.
    + changed Sorting mixed.
    + changed Userinfo bots.
  - split; [used spectator_names_used |]. repeat constructor.
    + changed Unicode watchers.
    + changed Sorting whole.
    + changed Userinfo bots.
  - split; [used team_names_used |]. repeat constructor.
    + changed Unicode watchers.
    + changed Sorting mixed.
    + changed Userinfo bots.
  - split; [used has_bot_players_used |]. repeat constructor.
    + changed Unicode bots.
    + changed Userinfo bots.
  - split; [used has_human_players_used |]. repeat constructor.
    + changed Unicode bots.
    + changed Userinfo watchers.
Qed.

(** Counts *)
Theorem counts_use :
  uses_just [Checks; Unicode; Userinfo] frags_per_player_name /\
  uses_just [Checks; Unicode] flag_events_per_player_name /\
  uses_just [Checks] ping_per_player_number /\
  uses_just [Checks] ktxstats_string /\
  uses_just [Checks; Json] ktxstats_v3 /\
  uses_just [Checks; Json] server.
Proof.
  repeat match goal with |- uses_just _ _ /\ _ => split end.
  - split; [used frags_used |]. repeat constructor.
    + stopped (encode (repeat kill (N.to_nat 2147483648))) (kills_long (N.to_nat 2147483648)); [lia | reflexivity ..].
    + changed Unicode whole.
    + changed Userinfo whole.
  - split; [used flags_used |]. repeat constructor.
    + exists (sample true), (sample false), (encode many_pickups); split; [intros q N; destruct q; try reflexivity; destruct (N eq_refl) |]; destruct flags_counted_refuted as [-> ->]; discriminate.
    + changed Unicode whole.
  - split; [used pings_used |]. repeat constructor.
    + changed Checks slow.
  - split; [used ktxstats_string_used |]. repeat constructor.
    + changed Checks soon.
  - split; [used ktxstats_v3_used |]. repeat constructor.
    + changed Checks soon.
    + changed Json soon.
  - split; [used server_used |]. repeat constructor.
    + changed Checks soon.
    + changed Json soon.
Qed.

(** Times *)
Theorem times_use :
  uses_just [Checks] demo_duration /\
  uses_just [Checks; Utf8; Uses.Settings] countdown_duration /\
  uses_just [Checks; Utf8; Uses.Settings] match_duration_from_seeking /\
  uses_just [Checks] match_duration_from_ktxstats /\
  uses_just [Checks; Utf8; Uses.Settings] match_duration /\
  uses_just [Dates] matchdate /\
  uses_just [Utf8; Uses.Settings] timestamp_from_epoch /\
  uses_just [Utf8; Uses.Settings; Dates] timestamp.
Proof.
  repeat match goal with |- uses_just _ _ /\ _ => split end.
  - split; [used demo_duration_used |]. repeat constructor.
    + stopped (encode (repeat idle (N.to_nat 16843010))) (idle_demo (N.to_nat 16843010)); [lia | reflexivity ..].
  - split; [used countdown_used |]. repeat constructor.
    + stopped (encode (waited (N.to_nat 16843010))) (waited_countdown (N.to_nat 16843010)); [lia | reflexivity ..].
    + changed Utf8 whole.
    + changed Uses.Settings whole.
  - split; [used match_duration_from_seeking_used |]. repeat constructor.
    + stopped (encode (repeat idle (N.to_nat 16843010))) (idle_seeking (N.to_nat 16843010)); [lia | reflexivity ..].
    + changed Utf8 whole.
    + changed Uses.Settings whole.
  - split; [used match_duration_from_ktxstats_used |]. repeat constructor.
    + changed Checks soon.
  - split; [used match_duration_used |]. repeat constructor.
    + changed Checks soon.
    + changed Utf8 whole.
    + changed Uses.Settings whole.
  - split; [used matchdate_used |]. repeat constructor.
    + changed Dates undated.
  - split; [used timestamp_from_epoch_used |]. repeat constructor.
    + changed Utf8 whole.
    + changed Uses.Settings whole.
  - split; [used timestamp_used |]. repeat constructor.
    + changed Utf8 whole.
    + changed Uses.Settings whole.
    + changed Dates undated.
Qed.

(** Players and teams *)
Theorem results_use :
  uses_just [Checks; Unicode; Userinfo; PlayerMap] players_from_parsing /\
  uses_just [Checks; Unicode; Userinfo; Json; PlayerMap] players /\
  uses_just [Checks; Unicode; Userinfo; Json; Lowercase; PlayerMap; TeamMap; ColorMap] teams.
Proof.
  repeat match goal with |- uses_just _ _ /\ _ => split end.
  - split; [used players_from_parsing_used |]. repeat constructor.
    + changed Checks slow.
    + changed Unicode together.
    + changed Userinfo together.
    + changed PlayerMap together.
  - split; [used players_used |]. repeat constructor.
    + changed Checks slow.
    + changed Unicode together.
    + changed Userinfo together.
    + changed Json soon.
    + changed PlayerMap together.
  - split; [used teams_used |]. repeat constructor.
    + changed Checks slow.
    + changed Unicode together.
    + changed Userinfo together.
    + changed Json soon.
    + changed Lowercase mixed.
    + changed PlayerMap together.
    + changed TeamMap whole.
    + changed ColorMap whole.
Qed.

Print Assumptions texts_use.
Print Assumptions counts_use.
Print Assumptions times_use.
Print Assumptions results_use.
