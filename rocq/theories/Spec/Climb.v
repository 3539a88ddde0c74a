(** A player who scores *)
From Verif.Model Require Import Base Env Ktxstats Players.

Definition with_points (d : Z) (p : Player) : Player :=
  mkPlayer (p_name p) (p_team p) (p_color p) (p_frags p + d)%Z (p_ping p) (p_is_bot p) (p_auth_username p) (p_auth_cc p).

(** The same player of the statistics with [d] points more *)
Definition stats_points (d : Z) (k k' : KtxPlayer) : Prop :=
  kp_frags k' = (kp_frags k + d)%Z /\ kp_name k' = kp_name k /\ kp_team k' = kp_team k /\ kp_top_color k' = kp_top_color k /\
  kp_bottom_color k' = kp_bottom_color k /\ kp_ping k' = kp_ping k /\ kp_bot k' = kp_bot k /\ kp_login k' = kp_login k.

(** [p] has [d] points more and passes those of [u]; the others stay where they are. *)
Definition climbs (p : Player) (d : Z) (ps qs : list Player) : Prop :=
  exists x u v, ps = x ++ u ++ p :: v /\ qs = x ++ with_points d p :: u ++ v.

(** The team of [p] has [d] points more, the other teams are the same. *)
Record team_climbs (p : Player) (d : Z) (ts us : list Team) : Prop := {
  tc_own : exists t u, In t ts /\ In u us /\ t_name t = p_team p /\ t_name u = p_team p /\
    t_frags u = (t_frags t + d)%Z /\ t_ping u = t_ping t /\ climbs p d (t_players t) (t_players u);
  tc_others : forall t, t_name t <> p_team p -> (In t ts <-> In t us);
  tc_names : forall n, In n (map t_name ts) <-> In n (map t_name us);
}.
