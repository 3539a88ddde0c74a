(** [format!("{:?}", x)] for the types the crate returns.  [Debug] is derived, except for [Print]. *)
From Verif.Model Require Import Base Env Prot Message Clients Players Flags Ktxstats.

(** a lower-case hexadecimal digit *)
Definition hex (n : N) : str :=
  match Byte.of_N (if n <? 10 then 48 + n else 87 + n) with Some b => [b] | None => [] end.

(** [char::escape_debug] inside a string, for ASCII; bytes of other characters are left as they are,
    which is what happens to them if the character is printable *)
Definition escape (b : byte) : str :=
  match n_of b with
  | 0 => lit "\0"
  | 9 => lit "\t"
  | 10 => lit "\n"
  | 13 => lit "\r"
  | 34 => lit "\"""
  | 92 => lit "\\"
  | n => if (n <? 16) then lit "\u{" ++ hex n ++ lit "}"
         else if (n <? 32) || (n =? 127) then lit "\u{" ++ hex (n / 16) ++ hex (n mod 16) ++ lit "}"
         else [b]
  end.
Definition debug_str (s : str) : str := lit """" ++ flat_map escape s ++ lit """".

Definition debug_u (n : N) : str := display_N n.
Definition debug_i (z : Z) : str :=
  if (z <? 0)%Z then lit "-" ++ display_N (Z.abs_N z) else display_N (Z.abs_N z).
Definition debug_bool (b : bool) : str := if b then lit "true" else lit "false".
Definition debug_option {A} (f : A -> str) (o : option A) : str :=
  match o with None => lit "None" | Some a => lit "Some(" ++ f a ++ lit ")" end.

Fixpoint separated (l : list str) : str :=
  match l with
  | [] => []
  | [x] => x
  | x :: l' => x ++ lit ", " ++ separated l'
  end.
Definition debug_list {A} (f : A -> str) (l : list A) : str :=
  lit "[" ++ separated (map f l) ++ lit "]".
Definition debug_color (c : N * N) : str := debug_list debug_u [fst c; snd c].
(** [f.debug_struct(name).field(..) .. .finish()], with at least one field *)
Definition field (name : string) (t : str) : str := lit name ++ lit ": " ++ t.
Definition debug_struct (name : string) (fields : list str) : str :=
  lit name ++ lit " { " ++ separated fields ++ lit " }".

(** src/qw/prot.rs:214-221 *)
Definition debug_print_id (i : PrintId) : str :=
  match i with
  | PiLow => lit "Low" | PiMedium => lit "Medium" | PiHigh => lit "High" | PiChat => lit "Chat"
  | PiUnknown => lit "Unknown"
  end.

(** src/qw/message/print.rs:21-28; [to_ascii] is [quake_text::bytestr::to_ascii] *)
Definition debug_print (to_ascii : bytes -> str) (p : Print) : str :=
  debug_struct "Print" [field "id" (debug_print_id (pr_id p)); field "content" (debug_str (to_ascii (pr_content p)))].

(** src/flags.rs:13-22; the fields are private *)
Definition debug_flag_events (e : PlayerFlagEvents) : str :=
  debug_struct "PlayerFlagEvents"
    [field "captures" (debug_u (captures e)); field "pickups" (debug_u (pickups e)); field "returns" (debug_u (returns e));
     field "carrier_frags" (debug_u (carrier_frags e)); field "defends" (debug_u (defends e));
     field "carrier_defends" (debug_u (carrier_defends e));
     field "carrier_defends_vs_aggressive" (debug_u (carrier_defends_vs_aggressive e))].

(** src/client.rs:3-13 *)
Definition debug_client (c : Client) : str :=
  debug_struct "Client"
    [field "number" (debug_u (c_number c)); field "name" (debug_str (c_name c)); field "team" (debug_str (c_team c));
     field "color" (debug_color (c_color c)); field "is_spectator" (debug_bool (c_is_spectator c));
     field "is_bot" (debug_bool (c_is_bot c)); field "auth_username" (debug_option debug_str (c_auth_username c));
     field "auth_cc" (debug_option debug_str (c_auth_cc c))].

(** src/player.rs:5-15 *)
Definition debug_player (p : Player) : str :=
  debug_struct "Player"
    [field "name" (debug_str (p_name p)); field "team" (debug_str (p_team p)); field "color" (debug_color (p_color p));
     field "frags" (debug_i (p_frags p)); field "ping" (debug_u (p_ping p)); field "is_bot" (debug_bool (p_is_bot p));
     field "auth_username" (debug_option debug_str (p_auth_username p));
     field "auth_cc" (debug_option debug_str (p_auth_cc p))].

(** src/team.rs:5-12 *)
Definition debug_team (t : Team) : str :=
  debug_struct "Team"
    [field "name" (debug_str (t_name t)); field "color" (debug_color (t_color t)); field "frags" (debug_i (t_frags t));
     field "ping" (debug_u (t_ping t)); field "players" (debug_list debug_player (t_players t))].

(** src/server.rs:10-16 *)
Definition debug_server (s : Server) : str :=
  debug_struct "Server"
    [field "hostname" (debug_str (sv_hostname s)); field "address" (debug_str (sv_address s));
     field "ip" (debug_str (sv_ip s)); field "port" (debug_u (sv_port s))].
