(** Frames a function does not look at. *)
From Verif.Model Require Import Base.
From Verif.Spec Require Import Occ Mvd.

(** [gs] is [fs] without some of the frames with property [P]. *)
Inductive thinned (P : frame -> Prop) : list frame -> list frame -> Prop :=
| thin_end : thinned P [] []
| thin_keep : forall f fs gs, thinned P fs gs -> thinned P (f :: fs) (f :: gs)
| thin_drop : forall f fs gs, P f -> thinned P fs gs -> thinned P (f :: fs) gs.

(** The body opens with no print, or only with prints without a text. *)
Definition mute (f : frame) : Prop :=
  exists ms, opens_with (f_body f) ms /\ Forall (fun m => m_text m = []) ms.

(** The body does not open with a print of level 1 that has a text. *)
Definition no_obituary (f : frame) : Prop :=
  forall text tail, ~ In x00 text -> f_body f = encode_message (mkMessage x01 text) ++ tail -> text = [].

(** The body does not open with a ping update. *)
Definition no_ping (f : frame) : Prop := forall tail, f_body f <> x24 :: tail.

Definition no_flag (f : frame) : Prop := ~ occurs (f_body f) (lit "flag").
