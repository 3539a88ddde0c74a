(** UTF-8 (RFC 3629): the encoding of a Unicode scalar value, and the texts made of such. *)
From Verif.Model Require Import Base.
From Verif.Spec Require Import Mvd.

Definition scalar (c : N) : Prop := c < 0xD800 \/ 0xE000 <= c < 0x110000.

Definition encode_char (c : N) : bytes :=
  if c <? 0x80 then [byte_of c]
  else if c <? 0x800 then [byte_of (0xC0 + c / 64); byte_of (0x80 + c mod 64)]
  else if c <? 0x10000 then
    [byte_of (0xE0 + c / 4096); byte_of (0x80 + c / 64 mod 64); byte_of (0x80 + c mod 64)]
  else [byte_of (0xF0 + c / 262144); byte_of (0x80 + c / 4096 mod 64);
        byte_of (0x80 + c / 64 mod 64); byte_of (0x80 + c mod 64)].

Definition encode_text (cs : list N) : bytes := concat (map encode_char cs).

Definition utf8_text (d : bytes) : Prop := exists cs, Forall scalar cs /\ d = encode_text cs.

(** Offset [i] of the text lies inside a character. *)
Definition inside_char (d : bytes) (i : N) : Prop :=
  exists cs c cs', d = encode_text (cs ++ c :: cs') /\ Forall scalar (cs ++ c :: cs') /\
    len (encode_text cs) < i < len (encode_text (cs ++ [c])).
