(** Occurrences of one byte string in another, by concatenation. *)
From Verif.Model Require Import Base.

Definition occurs_at (d p : bytes) (i : N) : Prop :=
  exists a b, d = a ++ p ++ b /\ len a = i.
Definition occurs (d p : bytes) : Prop := exists a b, d = a ++ p ++ b.
Definition first_at (d p : bytes) (i : N) : Prop :=
  occurs_at d p i /\ forall j, occurs_at d p j -> i <= j.
Definition last_at (d p : bytes) (i : N) : Prop :=
  occurs_at d p i /\ forall j, occurs_at d p j -> j <= i.
