(** Two lists of players that stand for one another, and what their teams have in common *)
From Verif.Model Require Import Base Env Clients Players.
From Verif.Spec Require Import Teams.

(** one colour is worn most *)
Definition clear_color (ps : list Player) : Prop :=
  (3 <= length ps)%nat -> forall c d, most_worn c ps -> most_worn d ps -> c = d.

(** [u] is made from players that are paired by [R] with those of [t].  Each field follows from the same field
    of the members: from nothing else about them, and from nobody else. *)
Record columns (R : Player -> Player -> Prop) (t u : Team) : Prop := {
  cl_name : t_name u = t_name t;
  cl_players : Forall2 R (t_players t) (t_players u);
  cl_frags : map p_frags (t_players u) = map p_frags (t_players t) -> t_frags u = t_frags t;
  cl_ping : map p_ping (t_players u) = map p_ping (t_players t) -> t_ping u = t_ping t;
  cl_color : map p_color (t_players u) = map p_color (t_players t) -> t_color u = t_color t;
  cl_recolor : forall g, (forall a b, g a = g b -> a = b) -> clear_color (t_players t) ->
    map p_color (t_players u) = map g (map p_color (t_players t)) -> t_color u = g (t_color t);
  cl_frags_le : Forall2 Z.le (map p_frags (t_players t)) (map p_frags (t_players u)) -> (t_frags t <= t_frags u)%Z;
  cl_ping_le : Forall2 N.le (map p_ping (t_players t)) (map p_ping (t_players u)) -> t_ping t <= t_ping u;
}.

(** The same person with another appearance: team, colours, login, or whether it is a bot *)
Record same_person (c d : Client) : Prop := {
  pe_number : c_number d = c_number c;
  pe_name : c_name d = c_name c;
  pe_spectator : c_is_spectator d = c_is_spectator c;
}.

(** The other fields of a player are those of the client. *)
Record looks_like (c : Client) (p : Player) : Prop := {
  lk_name : p_name p = c_name c;
  lk_team : p_team p = c_team c;
  lk_color : p_color p = c_color c;
  lk_bot : p_is_bot p = c_is_bot c;
  lk_auth : p_auth_username p = c_auth_username c;
  lk_cc : p_auth_cc p = c_auth_cc c;
}.

(** [p] and [q] are one person among [cs] and [ds]: the same name, score and ping. *)
Record same_results (cs ds : list Client) (p q : Player) : Prop := {
  sr_name : p_name q = p_name p;
  sr_frags : p_frags q = p_frags p;
  sr_ping : p_ping q = p_ping p;
  sr_looks : exists k c d, nth_error cs k = Some c /\ nth_error ds k = Some d /\ looks_like c p /\ looks_like d q;
}.

(** the same team, in colours recoloured by [g] *)
Record team_recolored (cs ds : list Client) (g : N * N -> N * N) (t u : Team) : Prop := {
  rc_name : t_name u = t_name t;
  rc_frags : t_frags u = t_frags t;
  rc_ping : t_ping u = t_ping t;
  rc_players : Forall2 (same_results cs ds) (t_players t) (t_players u);
  rc_color : clear_color (t_players t) -> t_color u = g (t_color t);
}.
