(** src/validate.rs, src/paused.rs and src/aborted.rs *)
From Verif.Model Require Import Base Env Serverinfo Clientinfo.

(** src/validate.rs:16-19 *)
Definition END_OF_DEMO : bytes := [x00; x02] ++ lit "EndOfDemo" ++ [x00].

(** src/validate.rs:15-21; the slice is taken only if the data is longer than the needle *)
Definition has_end_of_demo_print (data : bytes) : bool :=
  (len END_OF_DEMO <? len data)
  && beq (skipn (N.to_nat (len data - len END_OF_DEMO)) data) END_OF_DEMO.

(** src/validate.rs:11-13 *)
Definition has_clients (E : env) (data : bytes) : M bool :=
  let! r := clientinfo E data in
  Ret (is_ok_and r (fun c => negb (is_empty c))).

(** src/validate.rs:4 *)
Definition MIN_SIZE : N := 1024.

(** src/validate.rs:3-9 ([&&] evaluates left to right and stops at the first false) *)
Definition is_valid (E : env) (data : bytes) : M bool :=
  if negb (MIN_SIZE <=? len data) then Ret false
  else if negb (has_end_of_demo_print data) then Ret false
  else
    let! s := serverinfo E data in
    if negb (is_ok s) then Ret false
    else has_clients E data.

(** src/paused.rs:10-18 *)
Definition IS_PAUSED : bytes := lit "Server is paused".
Definition PAUSED_THE_GAME : bytes := lit "paused the game".

(** src/paused.rs:4-21 *)
Definition is_paused (data : bytes) : bool :=
  if has_end_of_demo_print data then false
  else is_some (rfind data IS_PAUSED) || is_some (rfind data PAUSED_THE_GAME).

(** src/aborted.rs:3-7 *)
Definition MATCH_STOPPED_PRINT : bytes :=
  [x08; x02; xcd; xe1; xf4; xe3; xe8; x20; xf3; xf4; xef; xf0; xf0; xe5; xe4; x20;
   xe2; xf9; x20; xed; xe1; xea; xef; xf2; xe9; xf4; xf9; x20; xf6; xef; xf4; xe5;
   x0a; x00].

(** src/aborted.rs:9-11 *)
Definition is_aborted (data : bytes) : bool := is_some (find data MATCH_STOPPED_PRINT).
