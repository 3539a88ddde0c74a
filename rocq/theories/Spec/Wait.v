(** An empty frame put into a demo *)
From Verif.Model Require Import Base.
From Verif.Spec Require Import Mvd.

(** a frame without a body that lasts [t] milliseconds *)
Definition wait (t : byte) : frame := mkFrame t x06 [] [].
