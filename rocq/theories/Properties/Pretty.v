(** What the results look like when they are printed with [{:#?}]: C84. *)
From Verif.Model Require Import Base Env Frame Prot Message Clients Players FlagEvent Flags Ktxstats Debug Pretty.
From Verif.Spec Require Import Occ Mvd Messages Times Faults Flags Shown Pretty.
From Verif.Proofs Require Import BaseFacts ShownFacts ShownOnce PrettyFacts.
From Verif.Properties Require Import Sample Flags Shown.

(** C84 *)
Theorem flag_events_pretty : forall e, braced (deeds_lines (fun k => counter k e)) (pretty_flag_events e).
Proof. exact deeds_pretty. Qed.
Theorem print_pretty : forall to_ascii p, ascii (to_ascii (pr_content p)) ->
  braced (print_lines (pr_id p) (to_ascii (pr_content p))) (pretty_print to_ascii p).
Proof. exact print_pretty_proof. Qed.
Theorem client_pretty : forall c, ascii_client c -> braced (client_lines c) (pretty_client c).
Proof. exact client_pretty_proof. Qed.
Theorem player_pretty : forall p, ascii_player p -> braced (player_lines p) (pretty_player p).
Proof. exact player_pretty_proof. Qed.
Theorem team_pretty : forall t, ascii_team t -> braced (team_lines t) (pretty_team t).
Proof. exact team_pretty_proof. Qed.
Theorem server_pretty : forall s, ascii_server s -> braced (server_lines s) (pretty_server s).
Proof. exact server_pretty_proof. Qed.

(** The lists that clients(), players() and teams() return. *)
Theorem clients_pretty : forall l, Forall ascii_client l -> list_page client_lines l (pretty_list pretty_client l).
Proof.
  intros l A. apply list_pretty; [exact client_plain |]. intros x I. apply client_pretty_proof.
  exact (proj1 (Forall_forall _ _) A x I).
Qed.
Theorem players_pretty : forall l, Forall ascii_player l -> list_page player_lines l (pretty_list pretty_player l).
Proof.
  intros l A. apply list_pretty; [exact player_plain |]. intros x I. apply player_pretty_proof.
  exact (proj1 (Forall_forall _ _) A x I).
Qed.
Theorem teams_pretty : forall l, Forall ascii_team l -> list_page team_lines l (pretty_list pretty_team l).
Proof.
  intros l A. apply list_pretty; [exact team_plain |]. intros x I. apply team_pretty_proof.
  exact (proj1 (Forall_forall _ _) A x I).
Qed.

(** Different values have different texts. *)
Theorem flag_events_pretty_legible : forall n m t, braced (deeds_lines n) t -> braced (deeds_lines m) t -> forall k, n k = m k.
Proof. exact deeds_pretty_once. Qed.
Theorem print_pretty_legible : forall i j s s' t, braced (print_lines i s) t -> braced (print_lines j s') t -> i = j /\ s = s'.
Proof. exact print_pretty_once. Qed.
Theorem client_pretty_legible : forall a b t, braced (client_lines a) t -> braced (client_lines b) t -> a = b.
Proof. exact (lines_once _ _ client_line_parts client_plain). Qed.
Theorem player_pretty_legible : forall a b t, braced (player_lines a) t -> braced (player_lines b) t -> a = b.
Proof. exact (lines_once _ _ player_line_parts player_plain). Qed.
Theorem team_pretty_legible : forall a b t, braced (team_lines a) t -> braced (team_lines b) t -> a = b.
Proof. exact team_pretty_once. Qed.
Theorem server_pretty_legible : forall a b t, braced (server_lines a) t -> braced (server_lines b) t -> a = b.
Proof. exact (lines_once _ _ server_line_parts server_plain). Qed.
Theorem clients_pretty_legible : forall a b t, list_page client_lines a t -> list_page client_lines b t -> a = b.
Proof. exact (list_once _ _ client_line_parts client_lines_some client_plain). Qed.
Theorem players_pretty_legible : forall a b t, list_page player_lines a t -> list_page player_lines b t -> a = b.
Proof. exact (list_once _ _ player_line_parts player_lines_some player_plain). Qed.

(** and each value has one text *)
Theorem pretty_one_way :
  (forall n t u, braced (deeds_lines n) t -> braced (deeds_lines n) u -> t = u) /\
  (forall i s t u, braced (print_lines i s) t -> braced (print_lines i s) u -> t = u) /\
  (forall s t u, braced (server_lines s) t -> braced (server_lines s) u -> t = u) /\
  (forall l t u, list_page client_lines l t -> list_page client_lines l u -> t = u) /\
  (forall l t u, list_page player_lines l t -> list_page player_lines l u -> t = u) /\
  (forall l t u, list_page team_lines l t -> list_page team_lines l u -> t = u).
Proof. exact pretty_one_way_proof. Qed.

Example pretty_print_case :
  pretty_print (fun s => s) (mkPrint PiMedium [x61; x22; x0a]) =
    lit "Print {" ++ [x0a] ++ lit "    id: Medium," ++ [x0a] ++ lit "    content: ""a\""\n""," ++ [x0a] ++ lit "}" /\
  ascii [x61; x22; x0a].
Proof. split; [vm_compute; reflexivity | repeat constructor]. Qed.

Definition pretty_team_text : list string :=
  [ "Team {";
    "    name: ""red"",";
    "    color: [";
    "        4,";
    "        13,";
    "    ],";
    "    frags: -3,";
    "    ping: 52,";
    "    players: [";
    "        Player {";
    "            name: ""anna"",";
    "            team: ""red"",";
    "            color: [";
    "                4,";
    "                13,";
    "            ],";
    "            frags: -10,";
    "            ping: 26,";
    "            is_bot: false,";
    "            auth_username: Some(";
    "                ""an"",";
    "            ),";
    "            auth_cc: None,";
    "        },";
    "        Player {";
    "            name: ""b,c"",";
    "            team: ""red"",";
    "            color: [";
    "                4,";
    "                13,";
    "            ],";
    "            frags: 7,";
    "            ping: 26,";
    "            is_bot: true,";
    "            auth_username: None,";
    "            auth_cc: None,";
    "        },";
    "    ],";
    "}" ]%string.
Example pretty_team_case : ascii_team shown_team_value /\
  pretty_team shown_team_value ++ [x0a] = flat_map (fun s => lit s ++ [x0a]) pretty_team_text.
Proof. split; [exact (proj1 shown_team) | vm_compute; reflexivity]. Qed.

Example pretty_empty_case :
  pretty_team (mkTeam [] (0, 0) 0 0 []) ++ [x0a] = flat_map (fun s => lit s ++ [x0a])
    [ "Team {"; "    name: """","; "    color: ["; "        0,"; "        0,"; "    ],"; "    frags: 0,"; "    ping: 0,";
      "    players: [],"; "}" ]%string /\
  pretty_list pretty_player [] = lit "[]".
Proof. split; vm_compute; reflexivity. Qed.

Print Assumptions flag_events_pretty.
Print Assumptions print_pretty.
Print Assumptions client_pretty.
Print Assumptions player_pretty.
Print Assumptions team_pretty.
Print Assumptions server_pretty.
Print Assumptions clients_pretty.
Print Assumptions players_pretty.
Print Assumptions teams_pretty.
Print Assumptions flag_events_pretty_legible.
Print Assumptions print_pretty_legible.
Print Assumptions client_pretty_legible.
Print Assumptions player_pretty_legible.
Print Assumptions team_pretty_legible.
Print Assumptions server_pretty_legible.
Print Assumptions clients_pretty_legible.
Print Assumptions players_pretty_legible.
Print Assumptions pretty_one_way.
