(** Files that arrive damaged *)
From Verif.Model Require Import Base.
From Verif.Spec Require Import Occ Texts.

(** [m] occurs once in [d], at offset [i]. *)
Definition only_at (d m : bytes) (i : N) : Prop := occurs_at d m i /\ forall j, occurs_at d m j -> j = i.

(** [m] occurs in [d] only before offset [k]. *)
Definition only_before (d m : bytes) (k : N) : Prop := forall j, occurs_at d m j -> j < k.
