(** The statistics in a demo as a build without overflow checks sees them: the frame header
    before the first block may lie (partly) before the start of the data, and a block header of
    another type ends the text whatever its size. *)
From Verif.Model Require Import Base.
From Verif.Spec Require Import Occ Mvd Stats.

Definition dead_end_lax (rest : bytes) : Prop :=
  10 <= len rest /\ (size_field rest = None \/ len rest < 18 \/ type_field rest <> Some 3).

Definition embeds_lax (d text : bytes) : Prop :=
  exists bs rest, d = concat (map encode_block bs) ++ rest /\ Forall wf_block bs /\
    text = concat (map sb_content bs) /\
    ((exists init b, bs = init ++ [b] /\ sb_number b = 0 /\ Forall (fun b => sb_number b <> 0) init)
     \/ (Forall (fun b => sb_number b <> 0) bs /\ dead_end_lax rest)).

(** The data from eight bytes before offset [k] on, behind a made-up frame header *)
Definition from_block (data : bytes) (k : N) : bytes := repeat x00 10 ++ skipn (N.to_nat (k - 8)) data.
