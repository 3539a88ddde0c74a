(** What the frames of a demo say: print, score and ping messages at the start of frame
    bodies.  Executable readings; [Properties/Walk.v] proves that [messages] is exactly the
    inverse of the message encoder of [Spec/Mvd.v]. *)
From Verif.Model Require Import Base Prot Message.
From Verif.Spec Require Import Mvd.

(** The bytes before and after the first NUL. *)
Fixpoint until_nul (d : bytes) : option (bytes * bytes) :=
  match d with
  | [] => None
  | b :: r =>
      if Byte.eqb b x00 then Some ([], r)
      else match until_nul r with
           | Some (s, r') => Some (b :: s, r')
           | None => None
           end
  end.

(** The print message at the very start, and what follows it. *)
Definition message_at (d : bytes) : option (message * bytes) :=
  match d with
  | t :: level :: r =>
      if Byte.eqb t x08 then
        match until_nul r with
        | Some (text, r') => Some (mkMessage level text, r')
        | None => None
        end
      else None
  | _ => None
  end.

Fixpoint messages_n (n : nat) (d : bytes) : list message :=
  match n with
  | O => []
  | S n' =>
      match message_at d with
      | Some (m, r) => m :: messages_n n' r
      | None => []
      end
  end.

(** The print messages a body starts with: one at the start, the next directly after it,
    and so on. *)
Definition messages (body : bytes) : list message := messages_n (length body) body.

(** What the API calls a print. *)
Definition level_of (b : byte) : PrintId :=
  if n_of b =? 0 then PiLow
  else if n_of b =? 1 then PiMedium
  else if n_of b =? 2 then PiHigh
  else if n_of b =? 3 then PiChat
  else PiUnknown.

Definition as_print (m : message) : Print := mkPrint (level_of (m_level m)) (m_text m).

Definition print_id_dec : forall a b : PrintId, {a = b} + {a <> b}.
Proof. decide equality. Defined.

Definition print_dec : forall a b : Print, {a = b} + {a <> b}.
Proof. decide equality; [apply list_eq_dec; apply Byte.byte_eq_dec | apply print_id_dec]. Defined.

Definition has_text (m : message) : bool := negb (is_empty (m_text m)).

(** All messages of a demo that have a text, in stream order. *)
Definition demo_messages (fs : list frame) : list message :=
  filter has_text (concat (map (fun f => messages (f_body f)) fs)).

(** [rest] announces a frame that overruns the end of the data but is not larger than all
    of it ([total] bytes). *)
Definition overruns (total : N) (rest : bytes) : Prop :=
  exists s, announced rest = Some s /\ len rest < s /\ s <= total.

(** Two print lists put together; if the last of the first equals the first of the second
    it is kept once. *)
Definition join (a b : list Print) : list Print :=
  match rev a, b with
  | x :: _, y :: b' => if print_dec x y then a ++ b' else a ++ b
  | _, _ => a ++ b
  end.


(** the part of a frame before its body *)
Definition header_len (f : frame) : N := len (encode_frame f) - len (f_body f).

(** The first [k] bytes of the demo [fs] are the frames [whole] and [j] bytes of the frame [f]. *)
Definition cut_inside (fs : list frame) (k : N) (whole : list frame) (f : frame) (j : N) : Prop :=
  (exists more, fs = whole ++ f :: more) /\ j < len (encode_frame f) /\ k = len (encode whole) + j /\
  firstn (N.to_nat k) (encode fs) = encode whole ++ firstn (N.to_nat j) (encode_frame f).
