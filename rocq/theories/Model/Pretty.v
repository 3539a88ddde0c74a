(** [format!("{:#?}", x)] for the types the crate returns ([dbg!], [assert_eq!] of pretty_assertions). *)
From Verif.Model Require Import Base Env Prot Message Clients Players Flags Ktxstats Debug.

Definition NL : byte := x0a.

(** core::fmt::builders::PadAdapter: four spaces before every line.  [start]: a line begins here. *)
Fixpoint pad (start : bool) (s : str) : str :=
  match s with
  | [] => []
  | b :: s' => (if start then lit "    " else []) ++ b :: pad (Byte.eqb b NL) s'
  end.

(** [DebugStruct::field], alternate: the name, the value and [",\n"] through one adapter *)
Definition pretty_field (name : string) (t : str) : str := pad true (lit name ++ lit ": " ++ t ++ lit "," ++ [NL]).
Definition pretty_struct (name : string) (fields : list str) : str :=
  lit name ++ lit " {" ++ [NL] ++ concat fields ++ lit "}".
(** [DebugTuple] with one field *)
Definition pretty_option {A} (f : A -> str) (o : option A) : str :=
  match o with
  | None => lit "None"
  | Some a => lit "Some(" ++ [NL] ++ pad true (f a ++ lit "," ++ [NL]) ++ lit ")"
  end.
(** [DebugList] *)
Definition pretty_list {A} (f : A -> str) (l : list A) : str :=
  match l with
  | [] => lit "[]"
  | _ => lit "[" ++ [NL] ++ flat_map (fun x => pad true (f x ++ lit "," ++ [NL])) l ++ lit "]"
  end.
Definition pretty_color (c : N * N) : str := pretty_list debug_u [fst c; snd c].

(** src/qw/message/print.rs:21-28 *)
Definition pretty_print (to_ascii : bytes -> str) (p : Print) : str :=
  pretty_struct "Print" [pretty_field "id" (debug_print_id (pr_id p)); pretty_field "content" (debug_str (to_ascii (pr_content p)))].

(** src/flags.rs:13-22 *)
Definition pretty_flag_events (e : PlayerFlagEvents) : str :=
  pretty_struct "PlayerFlagEvents"
    [pretty_field "captures" (debug_u (captures e)); pretty_field "pickups" (debug_u (pickups e)); pretty_field "returns" (debug_u (returns e));
     pretty_field "carrier_frags" (debug_u (carrier_frags e)); pretty_field "defends" (debug_u (defends e));
     pretty_field "carrier_defends" (debug_u (carrier_defends e));
     pretty_field "carrier_defends_vs_aggressive" (debug_u (carrier_defends_vs_aggressive e))].

(** src/client.rs:3-13 *)
Definition pretty_client (c : Client) : str :=
  pretty_struct "Client"
    [pretty_field "number" (debug_u (c_number c)); pretty_field "name" (debug_str (c_name c)); pretty_field "team" (debug_str (c_team c));
     pretty_field "color" (pretty_color (c_color c)); pretty_field "is_spectator" (debug_bool (c_is_spectator c));
     pretty_field "is_bot" (debug_bool (c_is_bot c)); pretty_field "auth_username" (pretty_option debug_str (c_auth_username c));
     pretty_field "auth_cc" (pretty_option debug_str (c_auth_cc c))].

(** src/player.rs:5-15 *)
Definition pretty_player (p : Player) : str :=
  pretty_struct "Player"
    [pretty_field "name" (debug_str (p_name p)); pretty_field "team" (debug_str (p_team p)); pretty_field "color" (pretty_color (p_color p));
     pretty_field "frags" (debug_i (p_frags p)); pretty_field "ping" (debug_u (p_ping p)); pretty_field "is_bot" (debug_bool (p_is_bot p));
     pretty_field "auth_username" (pretty_option debug_str (p_auth_username p));
     pretty_field "auth_cc" (pretty_option debug_str (p_auth_cc p))].

(** src/team.rs:5-12 *)
Definition pretty_team (t : Team) : str :=
  pretty_struct "Team"
    [pretty_field "name" (debug_str (t_name t)); pretty_field "color" (pretty_color (t_color t)); pretty_field "frags" (debug_i (t_frags t));
     pretty_field "ping" (debug_u (t_ping t)); pretty_field "players" (pretty_list pretty_player (t_players t))].

(** src/server.rs:10-16 *)
Definition pretty_server (s : Server) : str :=
  pretty_struct "Server"
    [pretty_field "hostname" (debug_str (sv_hostname s)); pretty_field "address" (debug_str (sv_address s));
     pretty_field "ip" (debug_str (sv_ip s)); pretty_field "port" (debug_u (sv_port s))].
