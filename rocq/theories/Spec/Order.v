(** Orders and sorting *)
From Coq Require Import Permutation Sorted.
From Verif.Model Require Import Base.

(** Byte strings in dictionary order: the shorter of two is first if the other continues it,
    otherwise the first difference decides. *)
Definition text_lt (a b : bytes) : Prop :=
  (exists y r, b = a ++ y :: r) \/
  (exists c x y r s, a = c ++ x :: r /\ b = c ++ y :: s /\ n_of x < n_of y).

(** [before] orders by some key: of two elements one is before the other, or their keys are equal *)
Record key_order {A} (before : A -> A -> Prop) : Prop := {
  ko_irrefl : forall x, ~ before x x;
  ko_trans : forall x y z, before x y -> before y z -> before x z;
  ko_tie : forall x y z, before x z -> before x y \/ before y z;
}.

Definition in_order_of {A} (before : A -> A -> Prop) (l : list A) : Prop :=
  StronglySorted (fun x y => ~ before y x) l.

(** [r] consists of the elements of [l] in the order [before]; elements with equal keys are in
    the order they have in [l].  To say so the elements are tagged with their places. *)
Definition stable_order {A} (before : A -> A -> Prop) (l r : list A) : Prop :=
  exists t, r = map fst t /\ Permutation t (combine l (seq 0 (length l))) /\
    StronglySorted (fun x y => before (fst x) (fst y) \/ (~ before (fst y) (fst x) /\ (snd x < snd y)%nat)) t.
