(** src/frags.rs *)
From Verif.Model Require Import Base Env Primitives Prot Frame Message Clients FragEvent.

(** src/frags.rs:19-39.  Of the frame info only [index] is used later (line 69). *)
Definition print_frames (E : env) (data : bytes) : M (list (Print * N)) :=
  frame_loop E (frame_fuel data) data
    (fun acc i =>
       if i_body_size i =? 0 then Ret (Continue acc)
       else
         let! body := body_of data i in
         let (t, cur) := read_message_type E (cursor_new body) in
         if is_ok_and t is_print then
           match fst (read_print E cur) with
           | Ok p =>
               if negb (is_empty (pr_content p)) && print_id_eqb PiMedium (pr_id p)
               then Ret (Continue (acc ++ [(p, i_index i)]))
               else Ret (Continue acc)
           | Err _ => Ret (Continue acc)
           end
         else Ret (Continue acc))
    0 [].

(** src/frags.rs:88 *)
Definition MAX_FRAME_COUNT : N := 4.

(** src/frags.rs:85-115: state is (frame_count, frag_update_player_numbers) *)
Definition nearby_frag_updates (E : env) (data : bytes) (index : N) : M (N * list N) :=
  frame_loop E (frame_fuel data) data
    (fun '(frame_count, nums) i =>
       if MAX_FRAME_COUNT <=? frame_count then Ret (Break (frame_count, nums))
       else if i_body_size i =? 0 then Ret (Continue (frame_count, nums))
       else
         let! body := body_of data i in
         let cur := cursor_new body in
         let cur := if frame_count =? 1 then snd (read_print E cur) else cur in
         let (t, cur) := read_message_type E cur in
         let nums :=
           if is_ok_and t is_update_frags then
             match fst (read_update_frags E cur) with
             | Ok u => nums ++ [uf_player_number u]
             | Err _ => nums
             end
           else nums in
         Ret (Continue (frame_count + 1, nums)))
    index (1, []).

(** [iter().filter_map(f)] *)
Fixpoint filter_map {A B} (f : A -> option B) (l : list A) : list B :=
  match l with
  | [] => []
  | x :: l' => match f x with Some b => b :: filter_map f l' | None => filter_map f l' end
  end.

(** src/frags.rs:84-136 *)
Definition find_team_killer (E : env) (data : bytes) (index : N) (victim_name : str)
  : M (result str) :=
  let! st := nearby_frag_updates E data index in
  let nums := snd st in
  if is_empty nums then Ret (Err "Unable to find nearby frag updates")
  else
    let? cs := clients E data in
    match List.find (fun c => beq (c_name c) victim_name) cs with
    | None => Ret (Err "Unable to find victim")
    | Some victim =>
        let candidates :=
          filter_map (fun n => List.find (fun c => c_number c =? n) cs) nums in
        match List.find (fun c => beq (c_team c) (c_team victim)
                                  && negb (beq (c_name c) (c_name victim))) candidates with
        | Some killer => Ret (Ok (c_name killer))
        | None => Ret (Err "Unable to find team killer")
        end
    end.

(** [let x = frags.entry(name).or_insert(0); *x += d;] with a negative [d] for [-=] *)
Definition frag_add (E : env) (name : str) (d : Z) (frags : list (str * Z))
  : M (list (str * Z)) :=
  let! v := iadd E (aget_or beq name 0%Z frags) d in
  Ret (aset beq name v frags).

(** src/frags.rs:44-78 *)
Definition score_print (E : env) (data : bytes) (frags : list (str * Z)) (pf : Print * N)
  : M (list (str * Z)) :=
  let content_u := to_unicode E (pr_content (fst pf)) in
  match frag_event_from (trim_end content_u) with
  | Ok (Frag killer _) => frag_add E killer 1 frags
  | Ok (Death player) => frag_add E player (-1) frags
  | Ok (Suicide player) => frag_add E player (-2) frags
  | Ok (SuicideByWeapon player) => frag_add E player (-1) frags
  | Ok (Teamkill killer) => frag_add E killer (-1) frags
  | Ok (TeamkillByUnknown victim) =>
      let! r := find_team_killer E data (snd pf) victim in
      match r with
      | Ok name => frag_add E name (-1) frags
      | Err _ => Ret frags
      end
  | Err _ => Ret frags
  end.

(** src/frags.rs:15-82 *)
Definition frags_per_player_name (E : env) (data : bytes) : M (list (str * Z)) :=
  let! pfs := print_frames E data in
  foldM (score_print E data) pfs [].
