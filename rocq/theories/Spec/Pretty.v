(** What [{:#?}] writes: lines, each with the depth it is indented to. *)
From Verif.Model Require Import Base Env Prot Message Clients Players Flags Ktxstats.
From Verif.Spec Require Import Shown Flags.

Definition line : Type := nat * bytes.
Definition spaces (depth : nat) : bytes := concat (repeat (lit "    ") depth).

(** The lines one below the other, with line breaks between them. *)
Fixpoint page (ls : list line) : bytes :=
  match ls with
  | [] => []
  | [(d, t)] => spaces d ++ t
  | (d, t) :: rest => spaces d ++ t ++ [x0a] ++ page rest
  end.
Definition deeper (k : nat) (ls : list line) : list line := map (fun x => (k + fst x, snd x)%nat) ls.

(** The lines of one field, at depth 1. *)
Definition value_line (name : string) (t : bytes) : list line := [(1%nat, lit name ++ lit ": " ++ t ++ lit ",")].
Definition color_lines (u v : bytes) : list line :=
  [(1%nat, lit "color: ["); (2%nat, u ++ lit ","); (2%nat, v ++ lit ","); (1%nat, lit "],")].
Definition option_lines (name : string) (o : option str) (ls : list line) : Prop :=
  (o = None /\ ls = value_line name (lit "None")) \/
  exists s t, o = Some s /\ shows_text s t /\ ls = [(1%nat, lit name ++ lit ": Some("); (2%nat, t ++ lit ","); (1%nat, lit "),")].

(** The lines of a value except for the last one, which is a closing brace. *)
Definition print_lines (id : PrintId) (content : bytes) (ls : list line) : Prop :=
  exists u v, shows_id id u /\ shows_text content v /\ ls = (0%nat, lit "Print {") :: value_line "id" u ++ value_line "content" v.

Definition deeds_lines (n : deed -> N) (ls : list line) : Prop :=
  exists tc tp tr tf td tg tv,
    shows_number (n Captures) tc /\ shows_number (n Takes) tp /\ shows_number (n Returns) tr /\
    shows_number (n Assists) tf /\ shows_number (n Defends) td /\ shows_number (n DefendsCarrier) tg /\
    shows_number (n DefendsCarrierHard) tv /\
    ls = (0%nat, lit "PlayerFlagEvents {") :: value_line "captures" tc ++ value_line "pickups" tp ++ value_line "returns" tr ++
      value_line "carrier_frags" tf ++ value_line "defends" td ++ value_line "carrier_defends" tg ++
      value_line "carrier_defends_vs_aggressive" tv.

Definition client_lines (c : Client) (ls : list line) : Prop :=
  exists t1 t2 t3 u v t5 t6 l7 l8,
    shows_number (c_number c) t1 /\ shows_text (c_name c) t2 /\ shows_text (c_team c) t3 /\
    shows_number (fst (c_color c)) u /\ shows_number (snd (c_color c)) v /\
    shows_bool (c_is_spectator c) t5 /\ shows_bool (c_is_bot c) t6 /\
    option_lines "auth_username" (c_auth_username c) l7 /\ option_lines "auth_cc" (c_auth_cc c) l8 /\
    ls = (0%nat, lit "Client {") :: value_line "number" t1 ++ value_line "name" t2 ++ value_line "team" t3 ++ color_lines u v ++
      value_line "is_spectator" t5 ++ value_line "is_bot" t6 ++ l7 ++ l8.

Definition player_lines (p : Player) (ls : list line) : Prop :=
  exists t1 t2 u v t4 t5 t6 l7 l8,
    shows_text (p_name p) t1 /\ shows_text (p_team p) t2 /\ shows_number (fst (p_color p)) u /\ shows_number (snd (p_color p)) v /\
    shows_integer (p_frags p) t4 /\ shows_number (p_ping p) t5 /\ shows_bool (p_is_bot p) t6 /\
    option_lines "auth_username" (p_auth_username p) l7 /\ option_lines "auth_cc" (p_auth_cc p) l8 /\
    ls = (0%nat, lit "Player {") :: value_line "name" t1 ++ value_line "team" t2 ++ color_lines u v ++ value_line "frags" t4 ++
      value_line "ping" t5 ++ value_line "is_bot" t6 ++ l7 ++ l8.

(** Values in a list, each closed by a brace and a comma. *)
Fixpoint entries {A} (f : A -> list line -> Prop) (l : list A) (ls : list line) : Prop :=
  match l with
  | [] => ls = []
  | x :: l' => exists h r, f x h /\ entries f l' r /\ ls = h ++ (0%nat, lit "},") :: r
  end.

Definition team_lines (x : Team) (ls : list line) : Prop :=
  exists t1 u v t3 t4 l5,
    shows_text (t_name x) t1 /\ shows_number (fst (t_color x)) u /\ shows_number (snd (t_color x)) v /\
    shows_integer (t_frags x) t3 /\ shows_number (t_ping x) t4 /\
    ((t_players x = [] /\ l5 = value_line "players" (lit "[]")) \/
     exists es, t_players x <> [] /\ entries player_lines (t_players x) es /\
       l5 = (1%nat, lit "players: [") :: deeper 2 es ++ [(1%nat, lit "],")]) /\
    ls = (0%nat, lit "Team {") :: value_line "name" t1 ++ color_lines u v ++ value_line "frags" t3 ++ value_line "ping" t4 ++ l5.

Definition server_lines (s : Server) (ls : list line) : Prop :=
  exists t1 t2 t3 t4,
    shows_text (sv_hostname s) t1 /\ shows_text (sv_address s) t2 /\ shows_text (sv_ip s) t3 /\ shows_number (sv_port s) t4 /\
    ls = (0%nat, lit "Server {") :: value_line "hostname" t1 ++ value_line "address" t2 ++ value_line "ip" t3 ++ value_line "port" t4.

(** The text is these lines and a closing brace. *)
Definition braced (f : list line -> Prop) (t : bytes) : Prop := exists ls, f ls /\ t = page (ls ++ [(0%nat, lit "}")]).

(** The text of a list of such values. *)
Definition list_page {A} (f : A -> list line -> Prop) (l : list A) (t : bytes) : Prop :=
  (l = [] /\ t = lit "[]") \/
  exists es, l <> [] /\ entries f l es /\ t = page ((0%nat, lit "[") :: deeper 1 es ++ [(0%nat, lit "]")]).
