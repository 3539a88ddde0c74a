(** Numbers that fit the types of the public structures *)
From Verif.Model Require Import Base Env Clients Flags Players.

Definition in_u8 (n : N) : Prop := n < 256.
Definition in_u32 (n : N) : Prop := n < 4294967296.
Definition in_i32 (z : Z) : Prop := (-2147483648 <= z < 2147483648)%Z.
Definition in_color (c : N * N) : Prop := in_u8 (fst c) /\ in_u8 (snd c).

Definition fit_client (c : Client) : Prop := in_u8 (c_number c) /\ in_color (c_color c).
Definition fit_player (p : Player) : Prop := in_color (p_color p) /\ in_i32 (p_frags p) /\ in_u32 (p_ping p).
Definition fit_team (t : Team) : Prop :=
  in_color (t_color t) /\ in_i32 (t_frags t) /\ in_u32 (t_ping t) /\ Forall fit_player (t_players t).
Definition fit_flags (f : PlayerFlagEvents) : Prop :=
  in_u8 (captures f) /\ in_u8 (pickups f) /\ in_u8 (returns f) /\ in_u8 (carrier_frags f) /\
  in_u8 (defends f) /\ in_u8 (carrier_defends f) /\ in_u8 (carrier_defends_vs_aggressive f).

(** The statistics parser stores 32-bit scores. *)
Definition fit_stats (E : env) : Prop :=
  forall s k, ktxstats_from E s = Ok k -> Forall (fun p => in_i32 (kp_frags p)) (ks_players k).
