(** The statistics embedded in a demo: a text cut into blocks.  A block is a frame header of
    ten bytes, the size of the content plus two (32 bits), the type 3 (16 bits), the block
    number (16 bits; 0 for the last one) and the content. *)
From Verif.Model Require Import Base.
From Verif.Spec Require Import Occ Mvd.

Record block := mkSblock { sb_header : bytes; sb_number : N; sb_content : bytes }.

Definition wf_block (b : block) : Prop :=
  len (sb_header b) = 10 /\ sb_number b < 65536 /\ len (sb_content b) + 2 < 4294967296.
Definition encode_block (b : block) : bytes :=
  sb_header b ++ enc32 (len (sb_content b) + 2) ++ enc16 3 ++ enc16 (sb_number b) ++ sb_content b.

Definition version_mark : bytes := lit "{""version"": ".

(** The block size in the block header that starts ten bytes into [rest], if it is there *)
Definition size_field (rest : bytes) : option N :=
  match skipn 10 rest with
  | a :: b :: c :: d :: _ => Some (n_of a + 256 * n_of b + 65536 * n_of c + 16777216 * n_of d)
  | _ => None
  end.
Definition type_field (rest : bytes) : option N :=
  match skipn 14 rest with
  | a :: b :: _ => Some (n_of a + 256 * n_of b)
  | _ => None
  end.

(** The blocks stop at [rest]: there is a frame header, but no block header of the right type
    behind it. *)
Definition dead_end (rest : bytes) : Prop :=
  10 <= len rest /\
  match size_field rest with
  | None => True
  | Some n => 2 <= n /\ (len rest < 18 \/ type_field rest <> Some 3)
  end.

(** [d] starts with complete blocks whose contents make up [text]. *)
Definition embeds (d text : bytes) : Prop :=
  exists bs rest, d = concat (map encode_block bs) ++ rest /\ Forall wf_block bs /\
    text = concat (map sb_content bs) /\
    ((exists init b, bs = init ++ [b] /\ sb_number b = 0 /\ Forall (fun b => sb_number b <> 0) init)
     \/ (Forall (fun b => sb_number b <> 0) bs /\ dead_end rest)).
