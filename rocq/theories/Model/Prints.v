(** src/prints.rs *)
From Verif.Model Require Import Base Env Primitives Prot Frame Message.

(** src/prints.rs:17-26: the loop over the messages of one frame body.  Each round
    consumes at least the message type byte, so [S (length rest)] rounds suffice. *)
Fixpoint read_prints (E : env) (fuel : nat) (body : cursor) (prints : list Print)
  : M (list Print) :=
  match fuel with
  | O => OutOfFuel
  | S fuel' =>
      let (t, body) := read_message_type E body in
      if is_ok_and t is_print then
        let (p, body) := read_print E body in
        let prints :=
          match p with
          | Ok print => if is_empty (pr_content print) then prints else prints ++ [print]
          | Err _ => prints
          end in
        read_prints E fuel' body prints
      else Ret prints
  end.

(** src/prints.rs:9-34 *)
Definition prints (E : env) (data : bytes) : M (list Print) :=
  let! ps :=
    frame_loop E (frame_fuel data) data
      (fun prints i =>
         if 0 <? i_body_size i then
           let! body := body_of data i in
           let! prints := read_prints E (S (length body)) (cursor_new body) prints in
           Ret (Continue prints)
         else Ret (Continue prints))
      0 [] in
  Ret (dedup print_eqb ps).
