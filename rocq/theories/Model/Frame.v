(** src/qw/frame.rs and src/qw/block.rs *)
From Verif.Model Require Import Base Env Primitives Prot.

(** src/qw/frame.rs:9-10 *)
Definition FRAME_HEADER_SIZE : N := SHORT + LONG.
Definition MULTI_HEADER_SIZE : N := FRAME_HEADER_SIZE + LONG.

(** src/qw/frame.rs:12-23; a Range<usize> is the pair (start, end) *)
Record info := mkInfo {
  i_duration : N;
  i_target : Target;
  i_command : Command;
  i_index : N;
  i_size : N;
  i_header_size : N;
  i_header_range : N * N;
  i_body_size : N;
  i_body_range : N * N;
}.

(** src/qw/frame.rs:26-66.  The sums [header_size + body_size] (at most 10 + 2^32) and
    [index + size] (at most twice the slice length, which Rust limits to 2^63 - 1) cannot
    wrap on a 64-bit target, so they are plain additions; [Proofs/FrameFacts.v] proves the
    bounds. *)
Definition from_data_and_index (E : env) (data : bytes) (index : N) : M (result info) :=
  let! d := slice_from data index in
  let cur := cursor_new d in
  match read_byte E cur with
  | (Err e, _) => Ret (Err e)
  | (Ok duration, cur) =>
      match read_byte E cur with
      | (Err e, _) => Ret (Err e)
      | (Ok b, cur) =>
          let target := target_from b in
          let command := command_from b in
          let multi_bytes := match target with TMultiple => LONG | _ => 0 end in
          let cur := advance multi_bytes cur in
          let (body_size, cur) :=
            match command with
            | CRead => read_u32 E cur
            | CSet => (Ok (2 * LONG), cur)
            | _ => (Ok 0, cur)
            end in
          match body_size with
          | Err e => Ret (Err e)
          | Ok body_size =>
              let header_size := c_pos cur in
              let size := header_size + body_size in
              if len data <? size then Ret (Err "Frame is smaller than expected size")
              else Ret (Ok {|
                i_duration := n_of duration;
                i_target := target;
                i_command := command;
                i_index := index;
                i_size := size;
                i_header_size := header_size;
                i_header_range := (index, index + header_size);
                i_body_size := body_size;
                i_body_range := (index + header_size, index + size) |})
          end
      end
  end.

(** The loop all frame walkers share:
      [while let Ok(info) = frame::Info::from_data_and_index(data, index) { ...; index += info.size; }]
    (src/prints.rs:13-30, src/frags.rs:19-39 and 90-115, src/flags.rs:29-63,
    src/ping.rs:17-45, src/duration.rs:64-71).  [body] is the loop body without the final
    [index += info.size], which every path that goes on executes ([Continue]); [Break] is
    Rust's [break]. *)
Fixpoint frame_loop {St} (E : env) (fuel : nat) (data : bytes)
         (body : St -> info -> M (step St)) (index : N) (st : St) : M St :=
  match fuel with
  | O => OutOfFuel
  | S fuel' =>
      let! r := from_data_and_index E data index in
      match r with
      | Err _ => Ret st
      | Ok i =>
          let! s := body st i in
          match s with
          | Break st' => Ret st'
          | Continue st' => frame_loop E fuel' data body (index + i_size i) st'
          end
      end
  end.

Definition frame_fuel (data : bytes) : nat := S (S (length data)).

(** [&data[info.body_range]] *)
Definition body_of (data : bytes) (i : info) : M bytes :=
  slice data (fst (i_body_range i)) (snd (i_body_range i)).

(** src/qw/block.rs:6 *)
Definition BLOCK_HEADER_SIZE : N := LONG + 2 * SHORT.

(** src/qw/block.rs:8-14 *)
Record block_info := mkBlock {
  b_body_size : N;
  b_total_size : N;
  b_hidden_message : HiddenMessage;
  b_number : N;
}.

(** src/qw/block.rs:19-30.  [read_u32()? as usize - SHORT] can wrap; the fields are then
    evaluated in source order: total_size, hidden_message, number. *)
Definition block_try_from (E : env) (value : bytes) : M (result block_info) :=
  let cur := cursor_new value in
  match read_u32 E cur with
  | (Err e, _) => Ret (Err e)
  | (Ok n, cur) =>
      let! body_size := usub E usize_bound n SHORT in
      let! total_size := uadd E usize_bound BLOCK_HEADER_SIZE body_size in
      match read_u16 E cur with
      | (Err e, _) => Ret (Err e)
      | (Ok h, cur) =>
          match read_u16 E cur with
          | (Err e, _) => Ret (Err e)
          | (Ok number, _) =>
              Ret (Ok {| b_body_size := body_size; b_total_size := total_size;
                         b_hidden_message := hidden_message_from h; b_number := number |})
          end
      end
  end.
