(** Two lists of the same people *)
From Coq Require Import Permutation.
From Verif.Model Require Import Base Env Players.
From Verif.Spec Require Import Teams.

Definition within (d a b : N) : Prop := a <= b + d /\ b <= a + d.

(** the same player, but for a ping that differs by up to [d], and logins *)
Record same_player (d : N) (p q : Player) : Prop := {
  sp_name : p_name p = p_name q;
  sp_team : p_team p = p_team q;
  sp_color : p_color p = p_color q;
  sp_frags : p_frags p = p_frags q;
  sp_bot : p_is_bot p = p_is_bot q;
  sp_ping : within d (p_ping p) (p_ping q);
}.

Record same_team (d : N) (t u : Team) : Prop := {
  st_name : t_name t = t_name u;
  st_color : t_color t = t_color u;
  st_frags : t_frags t = t_frags u;
  st_ping : within d (t_ping t) (t_ping u);
  st_players : Forall2 (same_player d) (t_players t) (t_players u);
}.

(** one to one, in any order *)
Definition matched {A B} (R : A -> B -> Prop) (l : list A) (l' : list B) : Prop :=
  exists m, Permutation l m /\ Forall2 R m l'.

(** no two players with the same score and name *)
Definition no_ties (ps : list Player) : Prop := NoDup (map rank ps).

Definition small_pings (ps : list Player) : Prop := total_ping ps + len ps <= 8388608.
