(** Two demos in one file. *)
From Verif.Model Require Import Base.
From Verif.Spec Require Import Occ Mvd Times.

(** The milliseconds of all frames *)
Definition all_time (fs : list frame) : N := fold_right N.add 0 (map (fun f => n_of (f_time f)) fs).

(** The end of [a] and [b] together is the end told by [b]: [b] tells it as [a] would, or better. *)
Definition end_told (a b : bytes) : Prop :=
  occurs b match_over \/
  (~ occurs (a ++ b) match_over /\ (occurs b standby \/ ~ occurs (a ++ b) standby)).
