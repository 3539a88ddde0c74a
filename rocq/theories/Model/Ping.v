(** src/ping.rs *)
From Verif.Model Require Import Base Env Primitives Prot Frame Message Float.

Definition pings := list (N * list N).

(** src/ping.rs:12 *)
Definition MAX_SAMPLES : N := 8.

(** src/ping.rs:22-33: state is (total_pings, did_ping_update) *)
Fixpoint read_pings (E : env) (fuel : nat) (body : cursor) (total : pings) (did : bool)
  : M (pings * bool) :=
  match fuel with
  | O => OutOfFuel
  | S fuel' =>
      let (t, body) := read_message_type E body in
      if is_ok_and t is_update_ping then
        let (u, body) := read_update_ping E body in
        match u with
        | Ok u =>
            let l := aget_or N.eqb (up_player_number u) [] total in
            let total := aset N.eqb (up_player_number u) (l ++ [up_ping u]) total in
            read_pings E fuel' (advance 2 body) total true
        | Err _ => read_pings E fuel' body total did
        end
      else Ret (total, did)
  end.

(** src/ping.rs:13-45: state is (sample_count, total_pings) *)
Definition sample_pings (E : env) (data : bytes) : M (N * pings) :=
  frame_loop E (frame_fuel data) data
    (fun '(count, total) i =>
       let! st :=
         if 0 <? i_body_size i then
           let! body := body_of data i in
           let! r := read_pings E (S (length body)) (cursor_new body) total false in
           let '(total, did) := r in
           Ret ((if did : bool then count + 1 else count), total)
         else Ret (count, total) in
       if MAX_SAMPLES <=? fst st then Ret (Break st) else Ret (Continue st))
    0 (0, []).

(** src/ping.rs:54-55 *)
Definition average (E : env) (l : list N) : M N :=
  let! sum := foldM (fun s p => uadd E u16_bound s p) l 0 in
  Ret (f32_to_u32 (f32_div (f32_of_N sum) (f32_of_N (len l)))).

(** src/ping.rs:11-60.  The loop over [total_pings.iter()] builds another map, so the
    order in which it visits the players has no effect; the model uses the order of first
    appearance. *)
Definition ping_per_player_number (E : env) (data : bytes) : M (result (list (N * N))) :=
  let! st := sample_pings E data in
  let total := snd st in
  if is_empty total then Ret (Err "Unable to read pings")
  else
    let! avg := foldM (fun m '(pnum, l) =>
                         let! a := average E l in
                         Ret (aset N.eqb pnum a m)) total [] in
    Ret (Ok avg).
