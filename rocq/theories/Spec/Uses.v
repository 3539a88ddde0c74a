(** What a result depends on besides the data *)
From Verif.Model Require Import Base Env.

Inductive part :=
  | Checks      (* overflow checks on or off *)
  | Reader      (* the position of a cursor after a short read *)
  | Unicode | Utf8 | Sorting            (* quake_text *)
  | Userinfo    (* quake_clientinfo *)
  | Settings    (* quake_serverinfo *)
  | Json        (* ktxstats *)
  | Dates       (* chrono *)
  | Lowercase   (* str::to_lowercase *)
  | PlayerMap | TeamMap | ColorMap.     (* the order of three hash maps *)

(** [E] and [E'] have this part in common. *)
Definition same_part (p : part) (E E' : env) : Prop :=
  match p with
  | Checks => checked E = checked E'
  | Reader => eof_on_short_read E = eof_on_short_read E'
  | Unicode => to_unicode E = to_unicode E'
  | Utf8 => to_utf8 E = to_utf8 E'
  | Sorting => unicode_sort E = unicode_sort E'
  | Userinfo => clientinfo_from E = clientinfo_from E'
  | Settings => settings_from E = settings_from E'
  | Json => ktxstats_from E = ktxstats_from E'
  | Dates => parse_datetime E = parse_datetime E'
  | Lowercase => to_lowercase E = to_lowercase E'
  | PlayerMap => players_order E = players_order E'
  | TeamMap => teams_order E = teams_order E'
  | ColorMap => colors_order E = colors_order E'
  end.

(** The result is settled by the data and these parts. *)
Definition uses {A B} (ps : list part) (f : env -> A -> B) : Prop :=
  forall E E' x, (forall p, In p ps -> same_part p E E') -> f E x = f E' x.

(** This part alone can change the result. *)
Definition needs {A B} (f : env -> A -> B) (p : part) : Prop :=
  exists E E' x, (forall q, q <> p -> same_part q E E') /\ f E x <> f E' x.

(** These parts and no others *)
Definition uses_just {A B} (ps : list part) (f : env -> A -> B) : Prop := uses ps f /\ Forall (needs f) ps.
