(** The numbers of the protocol structures, written from the protocol description. *)
From Verif.Model Require Import Base Prot.
From Verif.Spec Require Import Mvd.

(** The kinds of [Spec/Mvd.v] that have an addressee of their own; every other kind has
    none, number 0. *)
Definition addressee (t : byte) : N :=
  if (3 <=? kind t) && (kind t <=? 6) then kind t else 0.

(** The four classes of frames: 0 client command, 1 carries a server message, 2 sequence
    numbers, 7 nothing. *)
Definition frame_class (t : byte) : N :=
  if has_length t then 1
  else if kind t =? 2 then 2
  else if kind t =? 0 then 0
  else 7.

(** Score update behind its type byte: player, 16-bit score. *)
Definition encode_score (player : byte) (score : N) : bytes := player :: enc16 score.

(** Ping update behind its type byte: player, 16-bit ping, packet loss. *)
Definition encode_ping (player : byte) (ping : N) (loss : byte) : bytes :=
  player :: enc16 ping ++ [loss].

(** Print behind its type byte: level, text, NUL. *)
Definition encode_text (level : byte) (text : bytes) : bytes := level :: text ++ [x00].

(** Header of a hidden block: size of what follows the type, type, block number. *)
Definition encode_block (size type number : N) : bytes :=
  enc32 size ++ enc16 type ++ enc16 number.
