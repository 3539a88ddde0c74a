(** The functions that add or subtract offsets, once more, on a target whose [usize] has [w] values:
    2^64 as in the rest of the model, or 2^32.  Here every such sum is computed in [usize]; elsewhere
    in the model those that cannot wrap with 64 bits are plain additions. *)
From Verif.Model Require Import Base Utf8Error Env Primitives Prot Frame Message Bytesextra Serverinfo Clientinfo Clients
  Prints FragEvent Frags Flags Ping Ktxstats Matchdate Float Duration Players.

Section Width.
Context (w : N) (E : env).

(** src/bytesextra.rs:3-12 *)
Definition offsets_between_on (data a b : bytes) : M (option (N * N)) :=
  match find data a with
  | None => Ret None
  | Some i =>
      let! index_from := uadd E w i (len a) in
      let! rest := slice_from data index_from in
      match find rest b with
      | None => Ret None
      | Some j =>
          let! index_to := uadd E w index_from j in
          if index_from <? index_to then Ret (Some (index_from, index_to)) else Ret None
      end
  end.

(** src/matchdate.rs:28-46 *)
Definition matchdate_string_on (data : bytes) : M (result str) :=
  match find data MATCHDATE_NEEDLE with
  | None => Ret (Err "Matchdate not found")
  | Some i =>
      let! index_from := uadd E w i (len MATCHDATE_NEEDLE) in
      let! rest := slice_from data index_from in
      match find_byte rest x0a with
      | None => Ret (Err "Invalid matchdate")
      | Some j =>
          let! index_to := uadd E w j index_from in
          let! length := usub E w index_to index_from in
          if (MD_MIN_LEN <=? length) && (length <=? MD_MAX_LEN) then
            let! d := slice data index_from index_to in
            if utf8_valid d then Ret (Ok d) else Ret (Err (utf8_error_text d))
          else Ret (Err "Invalid matchdate")
      end
  end.

(** src/clientinfo.rs:27-49 *)
Fixpoint clientinfo_loop_on (fuel : nat) (data : bytes) (max_offset offset : N) (result : list str) : M (list str) :=
  match fuel with
  | O => OutOfFuel
  | S fuel' =>
      let! window_end := uadd E w offset MAX_LOOKAHEAD in
      let! window := slice data offset window_end in
      match find window NAME with
      | None => Ret result
      | Some o =>
          let! name_offset := uadd E w offset o in
          let! before := slice_to data name_offset in
          match rfind_byte before x00 with
          | None => Ret result
          | Some z =>
              let! from := uadd E w z 1 in
              let! after := slice_from data from in
              match find_byte after x00 with
              | None => Ret result
              | Some t =>
                  let! to := uadd E w from t in
                  let! length := usub E w to from in
                  if (CI_MIN_LEN <=? length) && (length <=? CI_MAX_LEN) then
                    let! d := slice data from to in
                    let result := result ++ [to_unicode E d] in
                    if max_offset <=? to then Ret result
                    else clientinfo_loop_on fuel' data max_offset to result
                  else Ret result
              end
          end
      end
  end.

(** src/clientinfo.rs:13-52 *)
Definition clientinfo_strings_on (data : bytes) : M (result (list str)) :=
  match find data CMD_SPAWN with
  | None => Ret (Err "Unable to find clientinfo strings")
  | Some offset =>
      let! max_offset := uadd E w offset (MAX_PLAYERS * MAX_LOOKAHEAD) in
      let! l := clientinfo_loop_on (S (length data)) data max_offset offset [] in
      Ret (Ok l)
  end.

(** src/qw/frame.rs:26-66; the fields are computed in source order *)
Definition from_data_and_index_on (data : bytes) (index : N) : M (result info) :=
  let! d := slice_from data index in
  let cur := cursor_new d in
  match read_byte E cur with
  | (Err e, _) => Ret (Err e)
  | (Ok duration, cur) =>
      match read_byte E cur with
      | (Err e, _) => Ret (Err e)
      | (Ok b, cur) =>
          let target := target_from b in
          let command := command_from b in
          let multi_bytes := match target with TMultiple => LONG | _ => 0 end in
          let cur := advance multi_bytes cur in
          let (body_size, cur) :=
            match command with
            | CRead => read_u32 E cur
            | CSet => (Ok (2 * LONG), cur)
            | _ => (Ok 0, cur)
            end in
          match body_size with
          | Err e => Ret (Err e)
          | Ok n =>
              let body_size := n mod w in
              let header_size := c_pos cur in
              let! size := uadd E w header_size body_size in
              if len data <? size then Ret (Err "Frame is smaller than expected size")
              else
                let! header_end := uadd E w index header_size in
                let! body_start := uadd E w index header_size in
                let! body_end := uadd E w index size in
                Ret (Ok {|
                  i_duration := n_of duration;
                  i_target := target;
                  i_command := command;
                  i_index := index;
                  i_size := size;
                  i_header_size := header_size;
                  i_header_range := (index, header_end);
                  i_body_size := body_size;
                  i_body_range := (body_start, body_end) |})
          end
      end
  end.

(** The loop of [Frame.frame_loop] *)
Fixpoint frame_loop_on {St} (fuel : nat) (data : bytes) (body : St -> info -> M (step St)) (index : N) (st : St) : M St :=
  match fuel with
  | O => OutOfFuel
  | S fuel' =>
      let! r := from_data_and_index_on data index in
      match r with
      | Err _ => Ret st
      | Ok i =>
          let! s := body st i in
          match s with
          | Break st' => Ret st'
          | Continue st' => let! index := uadd E w index (i_size i) in frame_loop_on fuel' data body index st'
          end
      end
  end.

(** src/prints.rs:9-34 *)
Definition prints_on (data : bytes) : M (list Print) :=
  let! ps :=
    frame_loop_on (frame_fuel data) data
      (fun prints i =>
         if 0 <? i_body_size i then
           let! body := body_of data i in
           let! prints := read_prints E (S (length body)) (cursor_new body) prints in
           Ret (Continue prints)
         else Ret (Continue prints))
      0 [] in
  Ret (dedup print_eqb ps).

(** src/frags.rs:19-39 *)
Definition print_frames_on (data : bytes) : M (list (Print * N)) :=
  frame_loop_on (frame_fuel data) data
    (fun acc i =>
       if i_body_size i =? 0 then Ret (Continue acc)
       else
         let! body := body_of data i in
         let (t, cur) := read_message_type E (cursor_new body) in
         if is_ok_and t is_print then
           match fst (read_print E cur) with
           | Ok p =>
               if negb (is_empty (pr_content p)) && print_id_eqb PiMedium (pr_id p)
               then Ret (Continue (acc ++ [(p, i_index i)]))
               else Ret (Continue acc)
           | Err _ => Ret (Continue acc)
           end
         else Ret (Continue acc))
    0 [].

(** src/frags.rs:85-115; [frame_count] is at most 4 *)
Definition nearby_frag_updates_on (data : bytes) (index : N) : M (N * list N) :=
  frame_loop_on (frame_fuel data) data
    (fun '(frame_count, nums) i =>
       if MAX_FRAME_COUNT <=? frame_count then Ret (Break (frame_count, nums))
       else if i_body_size i =? 0 then Ret (Continue (frame_count, nums))
       else
         let! body := body_of data i in
         let cur := cursor_new body in
         let cur := if frame_count =? 1 then snd (read_print E cur) else cur in
         let (t, cur) := read_message_type E cur in
         let nums :=
           if is_ok_and t is_update_frags then
             match fst (read_update_frags E cur) with
             | Ok u => nums ++ [uf_player_number u]
             | Err _ => nums
             end
           else nums in
         Ret (Continue (frame_count + 1, nums)))
    index (1, []).

(** src/frags.rs:84-136 *)
Definition find_team_killer_on (data : bytes) (index : N) (victim_name : str) : M (result str) :=
  let! st := nearby_frag_updates_on data index in
  let nums := snd st in
  if is_empty nums then Ret (Err "Unable to find nearby frag updates")
  else
    let? cs := clients E data in
    match List.find (fun c => beq (c_name c) victim_name) cs with
    | None => Ret (Err "Unable to find victim")
    | Some victim =>
        let candidates :=
          filter_map (fun n => List.find (fun c => c_number c =? n) cs) nums in
        match List.find (fun c => beq (c_team c) (c_team victim)
                                  && negb (beq (c_name c) (c_name victim))) candidates with
        | Some killer => Ret (Ok (c_name killer))
        | None => Ret (Err "Unable to find team killer")
        end
    end.

(** src/frags.rs:44-78 *)
Definition score_print_on (data : bytes) (frags : list (str * Z)) (pf : Print * N) : M (list (str * Z)) :=
  let content_u := to_unicode E (pr_content (fst pf)) in
  match frag_event_from (trim_end content_u) with
  | Ok (Frag killer _) => frag_add E killer 1 frags
  | Ok (Death player) => frag_add E player (-1) frags
  | Ok (Suicide player) => frag_add E player (-2) frags
  | Ok (SuicideByWeapon player) => frag_add E player (-1) frags
  | Ok (Teamkill killer) => frag_add E killer (-1) frags
  | Ok (TeamkillByUnknown victim) =>
      let! r := find_team_killer_on data (snd pf) victim in
      match r with
      | Ok name => frag_add E name (-1) frags
      | Err _ => Ret frags
      end
  | Err _ => Ret frags
  end.

(** src/frags.rs:15-82 *)
Definition frags_per_player_name_on (data : bytes) : M (list (str * Z)) :=
  let! pfs := print_frames_on data in
  foldM (score_print_on data) pfs [].

(** src/flags.rs:27-63 *)
Definition flag_prints_on (data : bytes) : M (list bytes) :=
  frame_loop_on (frame_fuel data) data
    (fun prints i =>
       if i_body_size i =? 0 then Ret (Continue prints)
       else
         let! body := body_of data i in
         if negb (is_some (find body FLAG)) then Ret (Continue prints)
         else
           let! st := read_flag_prints E (S (length body)) (cursor_new body) [] prints in
           let '(current, prints) := st in
           if negb (is_empty current) then Ret (Continue (prints ++ [current]))
           else Ret (Continue prints))
    0 [].

(** src/flags.rs:24-108 *)
Definition flag_events_per_player_name_on (data : bytes) : M (list (str * PlayerFlagEvents)) :=
  let! ps := flag_prints_on data in
  foldM (count_flag_print E) ps [].

(** src/ping.rs:13-45 *)
Definition sample_pings_on (data : bytes) : M (N * pings) :=
  frame_loop_on (frame_fuel data) data
    (fun '(count, total) i =>
       let! st :=
         if 0 <? i_body_size i then
           let! body := body_of data i in
           let! r := read_pings E (S (length body)) (cursor_new body) total false in
           let '(total, did) := r in
           Ret ((if did : bool then count + 1 else count), total)
         else Ret (count, total) in
       if MAX_SAMPLES <=? fst st then Ret (Break st) else Ret (Continue st))
    0 (0, []).

(** src/ping.rs:11-60 *)
Definition ping_per_player_number_on (data : bytes) : M (result (list (N * N))) :=
  let! st := sample_pings_on data in
  let total := snd st in
  if is_empty total then Ret (Err "Unable to read pings")
  else
    let! avg := foldM (fun m '(pnum, l) =>
                         let! a := average E l in
                         Ret (aset N.eqb pnum a m)) total [] in
    Ret (Ok avg).

(** src/duration.rs:60-74.  With 32 bits this loop may not end, so it gets [fuel] from outside. *)
Definition total_ms_until_on (fuel : nat) (data : bytes) (target_offset : N) : M N :=
  frame_loop_on fuel data
    (fun total_ms i =>
       if target_offset <=? i_index i then Ret (Break total_ms)
       else
         let! total_ms := uadd E u32_bound total_ms (i_duration i) in
         Ret (Continue total_ms))
    0 0.

Definition duration_until_offset_on (fuel : nat) (data : bytes) (target_offset : N) : M duration :=
  let! ms := total_ms_until_on fuel data target_offset in
  duration_of_ms ms.

(** src/duration.rs:9-18 *)
Definition countdown_duration_on (fuel : nat) (data : bytes) : M (result duration) :=
  let! s := serverinfo E data in
  if is_hoonymode s then Ret (Ok 0)
  else match find data MATCHDATE_NEEDLE with
       | None => Ret (Err "Countdown not found")
       | Some offset => let! d := duration_until_offset_on fuel data offset in Ret (Ok d)
       end.

(** src/duration.rs:20-33 *)
Definition demo_duration_on (fuel : nat) (data : bytes) : M (result duration) :=
  let offset :=
    match rfind data NEEDLE_MATCH_OVER with
    | Some o => o
    | None => match rfind data NEEDLE_STANDBY with Some o => o | None => len data end
    end in
  let! d := duration_until_offset_on fuel data offset in
  Ret (Ok d).

(** src/duration.rs:43-47 *)
Definition match_duration_from_seeking_on (fuel : nat) (data : bytes) : M (result duration) :=
  let? end_ := demo_duration_on fuel data in
  let! c := countdown_duration_on fuel data in
  let begin := match c with Ok d => d | Err _ => 0 end in
  let! d := duration_sub end_ begin in
  Ret (Ok d).

(** src/qw/block.rs:19-30 *)
Definition block_try_from_on (value : bytes) : M (result block_info) :=
  let cur := cursor_new value in
  match read_u32 E cur with
  | (Err e, _) => Ret (Err e)
  | (Ok n, cur) =>
      let! body_size := usub E w (n mod w) SHORT in
      let! total_size := uadd E w BLOCK_HEADER_SIZE body_size in
      match read_u16 E cur with
      | (Err e, _) => Ret (Err e)
      | (Ok h, cur) =>
          match read_u16 E cur with
          | (Err e, _) => Ret (Err e)
          | (Ok number, _) =>
              Ret (Ok {| b_body_size := body_size; b_total_size := total_size;
                         b_hidden_message := hidden_message_from h; b_number := number |})
          end
      end
  end.

(** src/ktxstats.rs:25-38 *)
Fixpoint ktxstats_loop_on (fuel : nat) (data : bytes) (offset : N) (content : bytes) : M bytes :=
  match fuel with
  | O => OutOfFuel
  | S fuel' =>
      let! a := uadd E w offset MULTI_HEADER_SIZE in
      let! d := slice_from data a in
      let! b := block_try_from_on d in
      match b with
      | Err _ => Ret content
      | Ok info =>
          if negb (is_demoinfo (b_hidden_message info)) then Ret content
          else
            let! offset := uadd E w offset TOTAL_HEADER_SIZE in
            let! to := uadd E w offset (b_body_size info) in
            let! part := slice data offset to in
            let content := content ++ part in
            if b_number info =? 0 then Ret content
            else
              let! offset := uadd E w offset (b_body_size info) in
              ktxstats_loop_on fuel' data offset content
      end
  end.

(** src/ktxstats.rs:15-41 *)
Definition ktxstats_string_on (data : bytes) : M (result str) :=
  match rfind data VERSION with
  | None => Ret (Err "ktxstats not found")
  | Some offset =>
      let! offset := usub E w offset TOTAL_HEADER_SIZE in
      let! content := ktxstats_loop_on (S (length data)) data offset [] in
      if utf8_valid content then Ret (Ok content) else Ret (Err (utf8_error_text content))
  end.

(** src/ktxstats.rs:10-13 *)
Definition ktxstats_v3_on (data : bytes) : M (result KtxstatsV3) :=
  let? s := ktxstats_string_on data in
  Ret (ktxstats_from E s).

(** src/server.rs:6-8 *)
Definition server_on (data : bytes) : M (result Server) :=
  let? s := ktxstats_v3_on data in
  Ret (Ok (server_from s)).

(** src/duration.rs:49-58; the offsets lie in a text that is no longer than the data *)
Definition match_duration_from_ktxstats_on (data : bytes) : M (result duration) :=
  let? s := ktxstats_string_on data in
  let! o := offsets_between_on s DURATION_KEY COMMA in
  match o with
  | None => Ret (Err "Duration not found in ktxstats")
  | Some (from, to) =>
      let! t := str_slice s from to in
      match parse_f64 t with
      | Err e => Ret (Err e)
      | Ok f => let! d := from_secs f in Ret (Ok d)
      end
  end.

(** src/duration.rs:35-41 *)
Definition match_duration_on (fuel : nat) (data : bytes) : M (result duration) :=
  let! s := serverinfo E data in
  if is_hoonymode s then match_duration_from_seeking_on fuel data
  else
    let! r := match_duration_from_ktxstats_on data in
    match r with
    | Ok d => Ret (Ok d)
    | Err _ => match_duration_from_seeking_on fuel data
    end.

(** src/players.rs:27-50 *)
Definition players_from_parsing_on (data : bytes) : M (result (list Player)) :=
  let? cs := clients E data in
  let? pings := ping_per_player_number_on data in
  let! frags := frags_per_player_name_on data in
  let pmap :=
    fold_left (fun m c => aset N.eqb (c_number c) (player_of_client frags pings c) m)
              (filter (fun c => negb (c_is_spectator c)) cs) [] in
  Ret (Ok (sort_by player_cmp (map snd (players_order E pmap)))).

(** src/players.rs:13-19 *)
Definition players_on (data : bytes) : M (result (list Player)) :=
  let! s := ktxstats_v3_on data in
  match s with
  | Ok stats => Ret (players_from_ktxstats stats)
  | Err _ => players_from_parsing_on data
  end.

(** src/teams.rs:8-10 *)
Definition teams_on (data : bytes) : M (result (list Team)) :=
  let? ps := players_on data in
  let! ts := teams_from_players E ps in
  Ret (Ok ts).
End Width.
