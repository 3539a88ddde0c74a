(** Everything the crate depends on that is not modelled by a definition: the other
    crates, the hash map iteration order, the overflow-check profile and the version of
    std.  It is one record; every theorem is stated for all values of it (or for all
    values satisfying an explicit hypothesis). *)
From Verif.Model Require Import Base.

(** quake_clientinfo 0.3 `Clientinfo` (fields as in the test at src/clientinfo.rs:70-106);
    the integers are i32. *)
Record Clientinfo := mkClientinfo {
  ci_name : option str;
  ci_team : option str;
  ci_topcolor : option Z;
  ci_bottomcolor : option Z;
  ci_spectator : option Z;
  ci_auth : option str;
  ci_flag : option str;
  ci_client : option str;
  ci_bot : option Z;
  ci_chat : option Z;
}.

(** quake_serverinfo 0.7 `Settings`: the three fields the crate reads (src/duration.rs:10,
    src/timestamp.rs:12, src/filename.rs:6); the other 23 are only passed on and are
    represented by [st_other]. *)
Record Settings := mkSettings {
  st_mode : option str;
  st_epoch : option Z;        (* i32 *)
  st_serverdemo : option str;
  st_other : list (option str);
}.

(** ktxstats 0.4 `v3::Player`: the fields src/player.rs:17-35 reads. *)
Record KtxPlayer := mkKtxPlayer {
  kp_name : str;
  kp_team : str;
  kp_login : str;
  kp_top_color : Z;     (* i32 *)
  kp_bottom_color : Z;  (* i32 *)
  kp_ping : Z;          (* i32 *)
  kp_frags : Z;         (* stats.frags : i32 *)
  kp_bot : bool;        (* bot.is_some() *)
}.

(** ktxstats 0.4 `v3::KtxstatsV3`: the fields src/server.rs:18-27 and src/players.rs:22 read. *)
Record KtxstatsV3 := mkKtxstatsV3 {
  ks_hostname : str;
  ks_ip : str;
  ks_port : N;          (* u32 *)
  ks_players : list KtxPlayer;
}.

(** src/player.rs:5-15 *)
Record Player := mkPlayer {
  p_name : str;
  p_team : str;
  p_color : N * N;      (* [u8; 2] *)
  p_frags : Z;          (* i32 *)
  p_ping : N;           (* u32 *)
  p_is_bot : bool;
  p_auth_username : option str;
  p_auth_cc : option str;
}.

Record env := mkEnv {
  (** overflow checks: true in dev/test builds, false in release builds *)
  checked : bool;
  (** std::io::Cursor::read_exact after a short read: true = position moves to the end
      of the data (recent std), false = position unchanged (older std) *)
  eof_on_short_read : bool;
  (** quake_text 0.2 *)
  to_unicode : bytes -> str;            (* bytestr::to_unicode *)
  to_utf8 : bytes -> str;               (* bytestr::to_utf8 *)
  unicode_sort : list str -> list str;  (* unicode::sort *)
  (** quake_clientinfo / quake_serverinfo / ktxstats `From<&str>` / `TryFrom<&str>` *)
  clientinfo_from : str -> Clientinfo;
  settings_from : str -> Settings;
  ktxstats_from : str -> result KtxstatsV3;
  (** chrono `DateTime::parse_from_str(s, "%Y-%m-%d %H:%M:%S%z")?.to_utc()`: seconds since
      1970-01-01T00:00:00Z *)
  parse_datetime : str -> result Z;
  (** std `str::to_lowercase` *)
  to_lowercase : str -> str;
  (** the order in which a HashMap yields its entries: src/players.rs:47,
      src/team.rs:51, src/team.rs:75.  Every HashMap has its own order, so the last one is
      given the name of the team whose colours are counted. *)
  players_order : list (N * Player) -> list (N * Player);
  teams_order : list (str * list Player) -> list (str * list Player);
  colors_order : str -> list ((N * N) * N) -> list ((N * N) * N);
}.

(** Fixed-width arithmetic.  [checked_to E lo hi wrap x]: the mathematical result [x] of
    an operation whose type ranges over [lo, hi). *)
Definition usize_bound : N := 18446744073709551616.  (* 2^64: 64-bit target *)
Definition u32_bound : N := 4294967296.
Definition u16_bound : N := 65536.
Definition u8_bound : N := 256.

(** unsigned [a + b] in a type with values below [bound] *)
Definition uadd (E : env) (bound a b : N) : M N :=
  if a + b <? bound then Ret (a + b)
  else if checked E then Panic POverflow else Ret ((a + b) mod bound).

(** unsigned [a - b] *)
Definition usub (E : env) (bound a b : N) : M N :=
  if b <=? a then Ret (a - b)
  else if checked E then Panic POverflow else Ret ((a + bound - b) mod bound).

(** signed 32-bit [a + b] *)
Definition i32_min : Z := (-2147483648)%Z.
Definition i32_max : Z := 2147483647%Z.
Definition wrap_i32 (z : Z) : Z := ((z + 2147483648) mod 4294967296 - 2147483648)%Z.
Definition iadd (E : env) (a b : Z) : M Z :=
  if ((i32_min <=? a + b) && (a + b <=? i32_max))%Z%bool then Ret (a + b)%Z
  else if checked E then Panic POverflow else Ret (wrap_i32 (a + b)).

(** [x as u8] / [x as u32] for an i32 [x]: two's complement truncation *)
Definition as_u8 (z : Z) : N := Z.to_N (z mod 256).
Definition as_u32 (z : Z) : N := Z.to_N (z mod 4294967296).
