(** The errors of [std::str::from_utf8] and [String::from_utf8], and messages that quote a
    text. *)
From Coq Require Import DecimalString.
From Verif.Model Require Import Base.

(** The second byte of a three-byte and of a four-byte sequence (core::str::validations) *)
Definition second_of_three (b0 b1 : byte) : bool :=
  if n_of b0 =? 0xE0 then in_range b1 0xA0 0xBF
  else if n_of b0 =? 0xED then in_range b1 0x80 0x9F
  else is_cont b1.
Definition second_of_four (b0 b1 : byte) : bool :=
  if n_of b0 =? 0xF0 then in_range b1 0x90 0xBF
  else if n_of b0 =? 0xF4 then in_range b1 0x80 0x8F
  else is_cont b1.

(** [Utf8Error::valid_up_to] and [Utf8Error::error_len] for the bytes from offset [at_] on *)
Fixpoint utf8_scan (d : bytes) (at_ : N) {struct d} : option (N * option N) :=
  match d with
  | [] => None
  | b0 :: r0 =>
      if n_of b0 <? 0x80 then utf8_scan r0 (at_ + 1)
      else if in_range b0 0xC2 0xDF then
        match r0 with
        | [] => Some (at_, None)
        | b1 :: r1 => if is_cont b1 then utf8_scan r1 (at_ + 2) else Some (at_, Some 1)
        end
      else if in_range b0 0xE0 0xEF then
        match r0 with
        | [] => Some (at_, None)
        | b1 :: r1 =>
            if second_of_three b0 b1 then
              match r1 with
              | [] => Some (at_, None)
              | b2 :: r2 => if is_cont b2 then utf8_scan r2 (at_ + 3) else Some (at_, Some 2)
              end
            else Some (at_, Some 1)
        end
      else if in_range b0 0xF0 0xF4 then
        match r0 with
        | [] => Some (at_, None)
        | b1 :: r1 =>
            if second_of_four b0 b1 then
              match r1 with
              | [] => Some (at_, None)
              | b2 :: r2 =>
                  if is_cont b2 then
                    match r2 with
                    | [] => Some (at_, None)
                    | b3 :: r3 => if is_cont b3 then utf8_scan r3 (at_ + 4) else Some (at_, Some 3)
                    end
                  else Some (at_, Some 2)
              end
            else Some (at_, Some 1)
        end
      else Some (at_, Some 1)
  end.

(** [format!("{}", n)] for an unsigned integer *)
Definition decimal (n : N) : string := NilZero.string_of_uint (N.to_uint n).

(** [impl Display for Utf8Error] *)
Definition utf8_error_text (d : bytes) : string :=
  match utf8_scan d 0 with
  | None => ""
  | Some (i, Some n) =>
      "invalid utf-8 sequence of " ++ decimal n ++ " bytes from index " ++ decimal i
  | Some (i, None) => "incomplete utf-8 byte sequence from index " ++ decimal i
  end.

(** [format!("{}: \"{}\"", what, value)] *)
Definition quoting (what : string) (value : str) : string :=
  what ++ ": """ ++ string_of_list_byte value ++ """".
