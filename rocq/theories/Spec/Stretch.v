(** A stretch of frames in which nothing begins or ends *)
From Verif.Model Require Import Base.
From Verif.Spec Require Import Occ Mvd Times.

(** the marks that tell the times *)
Definition time_marks : list bytes := [match_over; standby; matchdate_marker].

(** Between [a] and [b], [h] holds no mark and no part of one. *)
Definition unmarked (a h b : list frame) : Prop :=
  forall m i, In m time_marks -> occurs_at (encode (a ++ h ++ b)) m i ->
    i + len m <= len (encode a) \/ len (encode a) + len (encode h) <= i.
