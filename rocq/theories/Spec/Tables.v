(** A recording into which any table of scores, any table of flag events and any table of pings is
    written *)
From Verif.Model Require Import Base Env Flags Clients Players.
From Verif.Spec Require Import Occ Mvd Messages Obituary Names Score Flags Pings Recording.

(** The lines that are written *)
Definition kill_phrase : phrase := two KKills " rips " " a new one".
Definition death_phrase : phrase := one KDies " died".
Definition kill_text (name : str) : str := obituary kill_phrase name [].
Definition death_text (name : str) : str := obituary death_phrase name [].
Definition deed_phrase (k : deed) : str :=
  match k with
  | Captures => line " ãáðôõòåä the ÒÅÄ flag!"
  | Defends => line " defends the ÒÅÄ flag"
  | DefendsCarrierHard => line " defends ÒÅÄ's flag carrier against an aggressive enemy"
  | DefendsCarrier => line " defends ÒÅÄ's flag carrier"
  | Takes => line " çïô the ÒÅÄ flag!"
  | Returns => line " òåôõòîåä the ÒÅÄ flag!"
  | Assists => line " gets an assist for returning his flag!"
  end.
Definition all_kinds : list deed :=
  [Captures; Defends; DefendsCarrierHard; DefendsCarrier; Takes; Returns; Assists].

(** [pen] writes a text in the bytes of the game. *)
Definition at_once (n : news) : entry := mkEntry x00 x06 [] n.
Definition score_row (pen : str -> bytes) (row : str * Z) : list entry :=
  repeat (at_once (Killed (pen (kill_text (fst row))) kill_phrase (fst row) [])) (S (Z.to_nat (snd row))) ++
  repeat (at_once (Killed (pen (death_text (fst row))) death_phrase (fst row) [])) (S (Z.to_nat (- snd row))).
Definition flag_row (pen : str -> bytes) (row : str * PlayerFlagEvents) : list entry :=
  concat (map (fun k => repeat (at_once (FlagNews (pen (fst row ++ deed_phrase k)) k (deed_phrase k) (fst row)))
                               (N.to_nat (counter k (snd row)))) all_kinds).
Definition ping_row (pg : list (byte * N)) : entry :=
  at_once (PingNews (map (fun x => mkPingUpdate (fst x) (snd x) x00) pg)).

Definition written (pen : str -> bytes) (ws : list (str * Z)) (fl : list (str * PlayerFlagEvents))
  (pg : list (byte * N)) : list entry :=
  concat (map (score_row pen) ws) ++ concat (map (flag_row pen) fl) ++ [ping_row pg].

(** The recording with these frames at the end of the match *)
Definition enact (r : recording) (es : list entry) : recording :=
  mkRecording (r_info r) (r_users r) (r_users_rest r) (r_countdown r) (r_date_time r) (r_date r)
    (r_match r ++ es) (r_over_time r) (r_stats r).

(** Nobody scores, no flag is touched, no ping is reported. *)
Definition uneventful (e : entry) : Prop :=
  scores (e_news e) = [] /\ deeds (e_news e) = [] /\ reported (e_news e) = [].
Definition calm (r : recording) : Prop := Forall uneventful (r_countdown r ++ r_match r).

(** The tables that can be written *)
Definition score_table_ok (E : env) (pen : str -> bytes) (ws : list (str * Z)) : Prop :=
  NoDup (map fst ws) /\
  forall name v, In (name, v) ws -> readable name [] /\
    forall t, t = kill_text name \/ t = death_text name ->
      pen t <> [] /\ ~ In x00 (pen t) /\ trimmed (to_unicode E (pen t)) t.
Definition flag_table_ok (E : env) (pen : str -> bytes) (fl : list (str * PlayerFlagEvents)) : Prop :=
  NoDup (map fst fl) /\
  forall name p, In (name, p) fl -> quotes_no_flag name /\
    (exists k, 0 < counter k p) /\
    forall k, counter k p < 256 /\
      let t := name ++ deed_phrase k in
      ~ In x00 (pen t) /\ occurs (pen t) flag_word /\ to_unicode E (pen t) = t.
Definition ping_table_ok (pg : list (byte * N)) : Prop :=
  NoDup (map fst pg) /\ forall p v, In (p, v) pg -> v < 65536.

(** The same rows, in any order *)
Definition same_rows {A} (a b : list A) : Prop := NoDup a /\ forall x, In x a <-> In x b.

(** The player of client [c] has the score and the ping of the tables. *)
Definition tabled (ws : list (str * Z)) (pg : list (byte * N)) (c : Client) (p : Player) : Prop :=
  p_name p = c_name c /\ p_team p = c_team c /\
  (forall v, In (c_name c, v) ws -> p_frags p = v) /\ (~ In (c_name c) (map fst ws) -> p_frags p = 0%Z) /\
  (forall b v, n_of b = c_number c -> In (b, v) pg -> p_ping p = v) /\
  ((forall b v, In (b, v) pg -> n_of b <> c_number c) -> p_ping p = 0).
