(** src/client.rs and src/clients.rs *)
From Verif.Model Require Import Base Env Clientinfo.

(** src/client.rs:4-13 *)
Record Client := mkClient {
  c_number : N;         (* u8 *)
  c_name : str;
  c_team : str;
  c_color : N * N;      (* [u8; 2] *)
  c_is_spectator : bool;
  c_is_bot : bool;
  c_auth_username : option str;
  c_auth_cc : option str;
}.

Definition unwrap_or {A} (o : option A) (d : A) : A := match o with Some a => a | None => d end.
(** [o.is_some_and(|v| v != 0)] *)
Definition nonzero (o : option Z) : bool :=
  match o with Some v => negb (Z.eqb v 0) | None => false end.

(** src/client.rs:16-30; [number] is 0 there and set by the caller *)
Definition client_from (number : N) (value : Clientinfo) : Client := {|
  c_number := number;
  c_name := unwrap_or (ci_name value) [];
  c_team := unwrap_or (ci_team value) [];
  c_color := (as_u8 (unwrap_or (ci_topcolor value) 0%Z),
              as_u8 (unwrap_or (ci_bottomcolor value) 0%Z));
  c_is_spectator := nonzero (ci_spectator value);
  c_is_bot := nonzero (ci_bot value);
  c_auth_username := ci_auth value;
  c_auth_cc := ci_flag value;
|}.

(** src/clients.rs:10-17: enumerate; [number as u8] truncates *)
Fixpoint number_clients (i : N) (l : list Clientinfo) : list Client :=
  match l with
  | [] => []
  | info :: l' => client_from (i mod 256) info :: number_clients (i + 1) l'
  end.

(** src/clients.rs:8-19 *)
Definition clients (E : env) (data : bytes) : M (result (list Client)) :=
  let? infos := clientinfo E data in
  Ret (Ok (number_clients 0 infos)).

(** src/clients.rs:33-40 *)
Definition player_clients (E : env) (data : bytes) : M (result (list Client)) :=
  let? cs := clients E data in
  Ret (Ok (filter (fun c => negb (c_is_spectator c)) cs)).

(** src/clients.rs:50-57 *)
Definition spectator_clients (E : env) (data : bytes) : M (result (list Client)) :=
  let? cs := clients E data in
  Ret (Ok (filter c_is_spectator cs)).

(** src/clients.rs:26 *)
Definition BOT_NEEDLE : bytes := lit """bot"": {".

(** src/clients.rs:21-27 *)
Definition has_bot_players (E : env) (data : bytes) : M (result bool) :=
  let? cs := player_clients E data in
  if existsb c_is_bot cs then Ret (Ok true)
  else Ret (Ok (is_some (rfind data BOT_NEEDLE))).

(** src/clients.rs:29-31 *)
Definition has_human_players (E : env) (data : bytes) : M (result bool) :=
  let? cs := player_clients E data in
  Ret (Ok (existsb (fun c => negb (c_is_bot c)) cs)).

(** src/clients.rs:42-48 *)
Definition player_names (E : env) (data : bytes) : M (result (list str)) :=
  let? cs := player_clients E data in
  Ret (Ok (unicode_sort E (map c_name cs))).

(** src/clients.rs:59-65 *)
Definition spectator_names (E : env) (data : bytes) : M (result (list str)) :=
  let? cs := spectator_clients E data in
  Ret (Ok (unicode_sort E (map c_name cs))).

(** src/clients.rs:67-76 *)
Definition team_names (E : env) (data : bytes) : M (result (list str)) :=
  let? cs := player_clients E data in
  Ret (Ok (dedup beq (unicode_sort E (map c_team cs)))).
