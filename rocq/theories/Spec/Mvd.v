(** The MVD container format as an encoder, written from the protocol description
    (qtv/mvdsv "dem_*" frame types), independently of the decoder in [Model/].

    A demo is a sequence of frames.  A frame is
      - one byte: milliseconds since the previous frame,
      - one byte: type; its three low bits are the kind
          0 dem_cmd   1 dem_read   2 dem_set   3 dem_multiple
          4 dem_single   5 dem_stats   6 dem_all   7 unused
      - kind 3 only: four bytes of target mask,
      - kinds 1, 3, 4, 5, 6: the body length, 32 bits little-endian,
      - the body: as long as the length field says; eight bytes for kind 2; nothing for
        kinds 0 and 7. *)
From Verif.Model Require Import Base.

Record frame := mkFrame {
  f_time : byte;
  f_type : byte;
  f_mask : bytes;
  f_body : bytes;
}.

Definition kind (t : byte) : N := n_of t mod 8.
Definition has_mask (t : byte) : bool := kind t =? 3.
Definition has_length (t : byte) : bool :=
  (kind t =? 1) || (kind t =? 3) || (kind t =? 4) || (kind t =? 5) || (kind t =? 6).
Definition fixed_body (t : byte) : N := if kind t =? 2 then 8 else 0.

Definition byte_of (n : N) : byte :=
  match Byte.of_N (n mod 256) with Some b => b | None => x00 end.
Definition enc16 (n : N) : bytes := [byte_of n; byte_of (n / 256)].
Definition enc32 (n : N) : bytes :=
  [byte_of n; byte_of (n / 256); byte_of (n / 65536); byte_of (n / 16777216)].

Definition wf_frame (f : frame) : Prop :=
  len (f_mask f) = (if has_mask (f_type f) then 4 else 0) /\
  (if has_length (f_type f) then len (f_body f) < 4294967296
   else len (f_body f) = fixed_body (f_type f)).

Definition encode_frame (f : frame) : bytes :=
  f_time f :: f_type f :: f_mask f
  ++ (if has_length (f_type f) then enc32 (len (f_body f)) else [])
  ++ f_body f.

Definition encode (fs : list frame) : bytes := concat (map encode_frame fs).

Definition wf (fs : list frame) : Prop := Forall wf_frame fs.

(** What stands at the start of [d]: the size of the frame its header announces, or
    [None] if the header itself is incomplete. *)
Definition announced (d : bytes) : option N :=
  match d with
  | _ :: t :: r =>
      if has_length t then
        match skipn (if has_mask t then 4 else 0) r with
        | a :: b :: c :: e :: _ =>
            Some (2 + (if has_mask t then 4 else 0) + 4
                  + (n_of a + 256 * n_of b + 65536 * n_of c + 16777216 * n_of e))
        | _ => None
        end
      else Some (2 + fixed_body t)
  | _ => None
  end.

(** The bytes left over after the last complete frame. *)
Definition no_frame (rest : bytes) : Prop :=
  match announced rest with
  | None => True
  | Some s => len rest < s
  end.

(** [rest] stops the walk over [total] bytes quietly: its header is incomplete, or it
    announces a frame that is larger than the whole demo. *)
Definition stops (total : N) (rest : bytes) : Prop :=
  match announced rest with
  | None => True
  | Some s => total < s
  end.

(** Print message: type 8, level, text, NUL. *)
Record message := mkMessage { m_level : byte; m_text : bytes }.
Definition wf_message (m : message) : Prop := ~ In x00 (m_text m).
Definition encode_message (m : message) : bytes := x08 :: m_level m :: m_text m ++ [x00].

(** [body] begins with exactly the print messages [ms]. *)
Definition opens_with (body : bytes) (ms : list message) : Prop :=
  Forall wf_message ms /\
  exists tail, body = concat (map encode_message ms) ++ tail /\
    forall m t, wf_message m -> tail <> encode_message m ++ t.

(** A run of equal elements counts once. *)
Fixpoint collapse {A} (eq_dec : forall a b : A, {a = b} + {a <> b}) (l : list A) : list A :=
  match l with
  | [] => []
  | x :: l' =>
      match l' with
      | [] => [x]
      | y :: _ => if eq_dec x y then collapse eq_dec l' else x :: collapse eq_dec l'
      end
  end.

(** The frames together with the offset at which each starts. *)
Fixpoint located (at_ : N) (fs : list frame) : list (N * frame) :=
  match fs with
  | [] => []
  | f :: fs' => (at_, f) :: located (at_ + len (encode_frame f)) fs'
  end.
