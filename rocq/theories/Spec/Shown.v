(** What [{:?}] writes. *)
From Verif.Model Require Import Base Env Prot Message Clients Players Flags Ktxstats.
From Verif.Spec Require Import Occ Times Faults Flags.

Definition ascii (s : bytes) : Prop := Forall (fun b => n_of b < 128) s.

Definition hex_char (n : N) (c : byte) : Prop :=
  (n < 10 /\ n_of c = 48 + n) \/ (10 <= n < 16 /\ n_of c = 87 + n).

(** an ASCII character between double quotes *)
Definition shows_char (b : byte) (t : bytes) : Prop :=
  let n := n_of b in
  (32 <= n < 127 /\ n <> 34 /\ n <> 92 /\ t = [b]) \/
  ((n = 34 \/ n = 92) /\ t = lit "\" ++ [b]) \/
  (n = 0 /\ t = lit "\0") \/ (n = 9 /\ t = lit "\t") \/ (n = 10 /\ t = lit "\n") \/ (n = 13 /\ t = lit "\r") \/
  ((n < 32 \/ n = 127) /\ n <> 0 /\ n <> 9 /\ n <> 10 /\ n <> 13 /\
   exists h l ch cl, n = 16 * h + l /\ hex_char h ch /\ hex_char l cl /\
     t = lit "\u{" ++ (if h =? 0 then [cl] else [ch; cl]) ++ lit "}").
Definition shows_text (s t : bytes) : Prop :=
  exists parts, Forall2 shows_char s parts /\ t = lit """" ++ concat parts ++ lit """".

Definition shows_number (n : N) (t : bytes) : Prop := exists ds, decimal_of ds n /\ t = numeral ds.
Definition shows_integer (z : Z) (t : bytes) : Prop :=
  exists n u, shows_number n u /\ ((z = Z.of_N n /\ t = u) \/ (z = (- Z.of_N n)%Z /\ 0 < n /\ t = lit "-" ++ u)).
Definition shows_bool (b : bool) (t : bytes) : Prop :=
  (b = true /\ t = lit "true") \/ (b = false /\ t = lit "false").
Definition shows_option (o : option str) (t : bytes) : Prop :=
  (o = None /\ t = lit "None") \/
  exists s u, o = Some s /\ shows_text s u /\ t = lit "Some(" ++ u ++ lit ")".
Definition shows_color (c : N * N) (t : bytes) : Prop :=
  exists u v, shows_number (fst c) u /\ shows_number (snd c) v /\ t = lit "[" ++ u ++ lit ", " ++ v ++ lit "]".
Definition shows_id (i : PrintId) (t : bytes) : Prop :=
  In (i, t) [(PiLow, lit "Low"); (PiMedium, lit "Medium"); (PiHigh, lit "High"); (PiChat, lit "Chat");
             (PiUnknown, lit "Unknown")].

(** elements with commas between them, up to the bracket *)
Fixpoint shows_rest {A} (f : A -> bytes -> Prop) (l : list A) (t : bytes) : Prop :=
  match l with
  | [] => t = lit "]"
  | x :: l' => exists u v, f x u /\ shows_rest f l' v /\ t = lit ", " ++ u ++ v
  end.
Definition shows_list {A} (f : A -> bytes -> Prop) (l : list A) (t : bytes) : Prop :=
  match l with
  | [] => t = lit "[]"
  | x :: l' => exists u v, f x u /\ shows_rest f l' v /\ t = lit "[" ++ u ++ v
  end.

Definition shows_print (id : PrintId) (content t : bytes) : Prop :=
  exists u v, shows_id id u /\ shows_text content v /\
    t = lit "Print { id: " ++ u ++ lit ", content: " ++ v ++ lit " }".

(** how often each deed was done *)
Definition shows_deeds (n : deed -> N) (t : bytes) : Prop :=
  exists tc tp tr tf td tg tv,
    shows_number (n Captures) tc /\ shows_number (n Takes) tp /\ shows_number (n Returns) tr /\
    shows_number (n Assists) tf /\ shows_number (n Defends) td /\ shows_number (n DefendsCarrier) tg /\
    shows_number (n DefendsCarrierHard) tv /\
    t = lit "PlayerFlagEvents { captures: " ++ tc ++ lit ", pickups: " ++ tp ++ lit ", returns: " ++ tr ++
        lit ", carrier_frags: " ++ tf ++ lit ", defends: " ++ td ++ lit ", carrier_defends: " ++ tg ++
        lit ", carrier_defends_vs_aggressive: " ++ tv ++ lit " }".

Definition shows_client (c : Client) (t : bytes) : Prop :=
  exists t1 t2 t3 t4 t5 t6 t7 t8,
    shows_number (c_number c) t1 /\ shows_text (c_name c) t2 /\ shows_text (c_team c) t3 /\
    shows_color (c_color c) t4 /\ shows_bool (c_is_spectator c) t5 /\ shows_bool (c_is_bot c) t6 /\
    shows_option (c_auth_username c) t7 /\ shows_option (c_auth_cc c) t8 /\
    t = lit "Client { number: " ++ t1 ++ lit ", name: " ++ t2 ++ lit ", team: " ++ t3 ++ lit ", color: " ++ t4 ++
        lit ", is_spectator: " ++ t5 ++ lit ", is_bot: " ++ t6 ++ lit ", auth_username: " ++ t7 ++
        lit ", auth_cc: " ++ t8 ++ lit " }".

Definition shows_player (p : Player) (t : bytes) : Prop :=
  exists t1 t2 t3 t4 t5 t6 t7 t8,
    shows_text (p_name p) t1 /\ shows_text (p_team p) t2 /\ shows_color (p_color p) t3 /\
    shows_integer (p_frags p) t4 /\ shows_number (p_ping p) t5 /\ shows_bool (p_is_bot p) t6 /\
    shows_option (p_auth_username p) t7 /\ shows_option (p_auth_cc p) t8 /\
    t = lit "Player { name: " ++ t1 ++ lit ", team: " ++ t2 ++ lit ", color: " ++ t3 ++ lit ", frags: " ++ t4 ++
        lit ", ping: " ++ t5 ++ lit ", is_bot: " ++ t6 ++ lit ", auth_username: " ++ t7 ++
        lit ", auth_cc: " ++ t8 ++ lit " }".

Definition shows_team (x : Team) (t : bytes) : Prop :=
  exists t1 t2 t3 t4 t5,
    shows_text (t_name x) t1 /\ shows_color (t_color x) t2 /\ shows_integer (t_frags x) t3 /\
    shows_number (t_ping x) t4 /\ shows_list shows_player (t_players x) t5 /\
    t = lit "Team { name: " ++ t1 ++ lit ", color: " ++ t2 ++ lit ", frags: " ++ t3 ++ lit ", ping: " ++ t4 ++
        lit ", players: " ++ t5 ++ lit " }".

Definition shows_server (s : Server) (t : bytes) : Prop :=
  exists t1 t2 t3 t4,
    shows_text (sv_hostname s) t1 /\ shows_text (sv_address s) t2 /\ shows_text (sv_ip s) t3 /\
    shows_number (sv_port s) t4 /\
    t = lit "Server { hostname: " ++ t1 ++ lit ", address: " ++ t2 ++ lit ", ip: " ++ t3 ++ lit ", port: " ++ t4 ++
        lit " }".

(** the texts in a value are ASCII *)
Definition ascii_option (o : option str) : Prop := forall s, o = Some s -> ascii s.
Definition ascii_client (c : Client) : Prop :=
  ascii (c_name c) /\ ascii (c_team c) /\ ascii_option (c_auth_username c) /\ ascii_option (c_auth_cc c).
Definition ascii_player (p : Player) : Prop :=
  ascii (p_name p) /\ ascii (p_team p) /\ ascii_option (p_auth_username p) /\ ascii_option (p_auth_cc p).
Definition ascii_team (t : Team) : Prop := ascii (t_name t) /\ Forall ascii_player (t_players t).
Definition ascii_server (s : Server) : Prop := ascii (sv_hostname s) /\ ascii (sv_address s) /\ ascii (sv_ip s).
