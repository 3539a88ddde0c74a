(** src/qw/primitives.rs and the parts of std::io::Cursor it uses. *)
From Verif.Model Require Import Base Env.

(** std::io::Cursor<&[u8]>.  The buffer never changes and /repo only moves forward
    ([set_position(position() + k)]), so a cursor is its position and the bytes from there
    on ([] once the position is at or past the end). *)
Record cursor := mkCursor { c_pos : N; c_rest : bytes }.

Definition cursor_new (d : bytes) : cursor := mkCursor 0 d.

(** [cur.set_position(cur.position() + k)]: may leave the position past the end. *)
Definition advance (k : N) (c : cursor) : cursor :=
  mkCursor (c_pos c + k) (skipn (N.to_nat k) (c_rest c)).

(** [Cursor::read_exact] into a buffer of [k] bytes. *)
Definition read_exact (E : env) (k : nat) (c : cursor) : option bytes * cursor :=
  if Nat.leb k (length (c_rest c))
  then (Some (firstn k (c_rest c)), advance (N.of_nat k) c)
  else (None, if eof_on_short_read E then mkCursor (c_pos c + len (c_rest c)) [] else c).

(** src/qw/primitives.rs:3-6 *)
Definition SHORT : N := 2.
Definition LONG : N := 4.

(** src/qw/primitives.rs:13-18 *)
Definition read_byte (E : env) (c : cursor) : result byte * cursor :=
  match read_exact E 1 c with
  | (Some [b], c') => (Ok b, c')
  | (_, c') => (Err "failed to read byte", c')
  end.

(** src/qw/primitives.rs:20-25 *)
Definition read_u16 (E : env) (c : cursor) : result N * cursor :=
  match read_exact E 2 c with
  | (Some [a; b], c') => (Ok (le16 a b), c')
  | (_, c') => (Err "failed to read short", c')
  end.

(** src/qw/primitives.rs:27-32 *)
Definition read_u32 (E : env) (c : cursor) : result N * cursor :=
  match read_exact E 4 c with
  | (Some [a; b; d; e], c') => (Ok (le32 a b d e), c')
  | (_, c') => (Err "failed to read long", c')
  end.

(** src/qw/primitives.rs:34-46: reads single bytes up to and including the first NUL.
    The Rust loop calls read_exact on one byte at a time; every call consumes a byte or
    fails at the end of the data, so the loop is a recursion over the unread bytes. *)
Fixpoint read_bstring_rest (pos : N) (rest : bytes) : result bytes * cursor :=
  match rest with
  | [] => (Err "failed to read string", mkCursor pos [])
  | b :: rest' =>
      if Byte.eqb b x00 then (Ok [], mkCursor (pos + 1) rest')
      else match read_bstring_rest (pos + 1) rest' with
           | (Ok s, c') => (Ok (b :: s), c')
           | (Err e, c') => (Err e, c')
           end
  end.
Definition read_bstring (c : cursor) : result bytes * cursor :=
  read_bstring_rest (c_pos c) (c_rest c).
