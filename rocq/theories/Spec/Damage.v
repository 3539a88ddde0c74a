(** Demos that differ in some frames *)
From Verif.Model Require Import Base.
From Verif.Spec Require Import Mvd.

(** The second demo comes from the first by changing, losing or adding [k] frames. *)
Inductive edits : N -> list frame -> list frame -> Prop :=
| edit_none : edits 0 [] []
| edit_keep : forall k f fs gs, edits k fs gs -> edits k (f :: fs) (f :: gs)
| edit_change : forall k f g fs gs, edits k fs gs -> edits (k + 1) (f :: fs) (g :: gs)
| edit_lose : forall k f fs gs, edits k fs gs -> edits (k + 1) (f :: fs) gs
| edit_add : forall k g fs gs, edits k fs gs -> edits (k + 1) fs (g :: gs).

(** Two tables have the same rows for all names but these. *)
Definition agree_except {V} (names : list str) (a b : list (str * V)) : Prop :=
  forall n v, ~ In n names -> In (n, v) a <-> In (n, v) b.

(** The second demo comes from the first by taking out the frames [old] and putting in the frames [new]. *)
Inductive patched : list frame -> list frame -> list frame -> list frame -> Prop :=
| patch_none : patched [] [] [] []
| patch_keep : forall old new f fs gs, patched old new fs gs -> patched old new (f :: fs) (f :: gs)
| patch_lose : forall old new f fs gs, patched old new fs gs -> patched (f :: old) new (f :: fs) gs
| patch_add : forall old new g fs gs, patched old new fs gs -> patched old (g :: new) fs (g :: gs).
