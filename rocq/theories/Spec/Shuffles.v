(** Players in another order *)
From Verif.Model Require Import Base Env.
From Verif.Spec Require Import Clientlist.

(** The players of each team are the same and in the same order. *)
Definition same_teams (ps ps' : list Player) : Prop :=
  forall n ms, (exists o, splits (fun p => p_team p = n) ps ms o) <-> (exists o, splits (fun p => p_team p = n) ps' ms o).

(** No two team names differ only in case. *)
Definition apart (lower : str -> str) (ps : list Player) : Prop :=
  forall p q, In p ps -> In q ps -> lower (p_team p) = lower (p_team q) -> p_team p = p_team q.
