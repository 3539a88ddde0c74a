(** src/flags.rs *)
From Verif.Model Require Import Base Env Primitives Prot Frame Message FlagEvent.

(** src/flags.rs:13-22; every field is a u8 *)
Record PlayerFlagEvents := mkPfe {
  captures : N;
  pickups : N;
  returns : N;
  carrier_frags : N;
  defends : N;
  carrier_defends : N;
  carrier_defends_vs_aggressive : N;
}.
Definition pfe_default : PlayerFlagEvents := mkPfe 0 0 0 0 0 0 0.

(** src/flags.rs:110-119 *)
Definition is_message_suffix (E : env) (print : bytes) : bool :=
  existsb (fun n => ends_with (to_unicode E print) n)
          (X_RETURNED_FLAG ++ X_GOT_FLAG ++ X_CAPTURED_FLAG).

(** src/flags.rs:39-56: state is (current_print, prints) *)
Fixpoint read_flag_prints (E : env) (fuel : nat) (body : cursor)
         (current : bytes) (prints : list bytes) : M (bytes * list bytes) :=
  match fuel with
  | O => OutOfFuel
  | S fuel' =>
      match read_message_type E body with
      | (Err _, _) => Ret (current, prints)
      | (Ok mt, body) =>
          if is_print mt then
            let (p, body) := read_print E body in
            match p with
            | Ok p =>
                if print_id_eqb (pr_id p) PiHigh && negb (is_empty (pr_content p)) then
                  if is_empty current then
                    read_flag_prints E fuel' body (pr_content p) prints
                  else
                    let current :=
                      if is_message_suffix E (pr_content p) then current ++ pr_content p
                      else current in
                    read_flag_prints E fuel' body [] (prints ++ [current])
                else read_flag_prints E fuel' body current prints
            | Err _ => read_flag_prints E fuel' body current prints
            end
          else read_flag_prints E fuel' body current prints
      end
  end.

(** src/flags.rs:30 *)
Definition FLAG : bytes := lit "flag".

(** src/flags.rs:27-63 *)
Definition flag_prints (E : env) (data : bytes) : M (list bytes) :=
  frame_loop E (frame_fuel data) data
    (fun prints i =>
       if i_body_size i =? 0 then Ret (Continue prints)
       else
         let! body := body_of data i in
         if negb (is_some (find body FLAG)) then Ret (Continue prints)
         else
           let! st := read_flag_prints E (S (length body)) (cursor_new body) [] prints in
           let '(current, prints) := st in
           if negb (is_empty current) then Ret (Continue (prints ++ [current]))
           else Ret (Continue prints))
    0 [].

(** src/flags.rs:71-100: the counter an event increments; [+= 1] on a u8 *)
Definition flag_apply (E : env) (e : FlagEvent) (p : PlayerFlagEvents) : M PlayerFlagEvents :=
  let '(mkPfe c pk r cf d cd ca) := p in
  let inc n := uadd E u8_bound n 1 in
  match e with
  | CapturedFlag _ => let! n := inc c in Ret (mkPfe n pk r cf d cd ca)
  | DefendsFlag _ => let! n := inc d in Ret (mkPfe c pk r cf n cd ca)
  | DefendsFlagCarrier _ => let! n := inc cd in Ret (mkPfe c pk r cf d n ca)
  | DefendsFlagCarrierVsAggressive _ => let! n := inc ca in Ret (mkPfe c pk r cf d cd n)
  | GotFlag _ => let! n := inc pk in Ret (mkPfe c n r cf d cd ca)
  | ReturnedFlag _ => let! n := inc r in Ret (mkPfe c pk n cf d cd ca)
  | ReturnedFlagAssist _ => let! n := inc cf in Ret (mkPfe c pk r n d cd ca)
  end.

Definition flag_player (e : FlagEvent) : str :=
  match e with
  | CapturedFlag p | GotFlag p | DefendsFlag p | DefendsFlagCarrier p
  | DefendsFlagCarrierVsAggressive p | ReturnedFlag p | ReturnedFlagAssist p => p
  end.

(** src/flags.rs:67-105: one round *)
Definition count_flag_print (E : env) (m : list (str * PlayerFlagEvents)) (print : bytes)
  : M (list (str * PlayerFlagEvents)) :=
  match flag_event_from (to_unicode E print) with
  | Ok e =>
      let! p := flag_apply E e (aget_or beq (flag_player e) pfe_default m) in
      Ret (aset beq (flag_player e) p m)
  | Err _ => Ret m
  end.

(** src/flags.rs:24-108 *)
Definition flag_events_per_player_name (E : env) (data : bytes)
  : M (list (str * PlayerFlagEvents)) :=
  let! ps := flag_prints E data in
  foldM (count_flag_print E) ps [].
