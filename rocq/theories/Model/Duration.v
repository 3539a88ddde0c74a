(** src/duration.rs *)
From Verif.Model Require Import Base Env Frame Bytesextra Serverinfo Ktxstats Matchdate Float.

(** src/duration.rs:60-74.  The target offset test looks at the loop's [index], which is
    [info.index]. *)
Definition total_ms_until (E : env) (data : bytes) (target_offset : N) : M N :=
  frame_loop E (frame_fuel data) data
    (fun total_ms i =>
       if target_offset <=? i_index i then Ret (Break total_ms)
       else
         let! total_ms := uadd E u32_bound total_ms (i_duration i) in
         Ret (Continue total_ms))
    0 0.

(** src/duration.rs:73 *)
Definition duration_of_ms (ms : N) : M duration :=
  from_secs (f32_div (f32_of_N ms) (f32_of_N 1000)).

Definition duration_until_offset (E : env) (data : bytes) (target_offset : N) : M duration :=
  let! ms := total_ms_until E data target_offset in
  duration_of_ms ms.

(** src/duration.rs:10, 36 *)
Definition HOONYMODE : str := lit "hoonymode".
Definition is_hoonymode (r : result Settings) : bool :=
  is_ok_and r (fun s => match st_mode s with Some m => beq m HOONYMODE | None => false end).

(** src/duration.rs:9-18 *)
Definition countdown_duration (E : env) (data : bytes) : M (result duration) :=
  let! s := serverinfo E data in
  if is_hoonymode s then Ret (Ok 0)
  else match find data MATCHDATE_NEEDLE with
       | None => Ret (Err "Countdown not found")
       | Some offset => let! d := duration_until_offset E data offset in Ret (Ok d)
       end.

(** src/duration.rs:21-28 *)
Definition NEEDLE_MATCH_OVER : bytes := lit "The match is over".
Definition NEEDLE_STANDBY : bytes := lit "4status" ++ [x00] ++ lit "Standby" ++ [x00].

(** src/duration.rs:20-33 *)
Definition demo_duration (E : env) (data : bytes) : M (result duration) :=
  let offset :=
    match rfind data NEEDLE_MATCH_OVER with
    | Some o => o
    | None => match rfind data NEEDLE_STANDBY with Some o => o | None => len data end
    end in
  let! d := duration_until_offset E data offset in
  Ret (Ok d).

(** src/duration.rs:43-47 *)
Definition match_duration_from_seeking (E : env) (data : bytes) : M (result duration) :=
  let? end_ := demo_duration E data in
  let! c := countdown_duration E data in
  let begin := match c with Ok d => d | Err _ => 0 end in
  let! d := duration_sub end_ begin in
  Ret (Ok d).

(** src/duration.rs:52 *)
Definition DURATION_KEY : bytes := lit """duration"": ".
Definition COMMA : bytes := lit ",".

(** src/duration.rs:49-58 *)
Definition match_duration_from_ktxstats (E : env) (data : bytes) : M (result duration) :=
  let? s := ktxstats_string E data in
  let! o := offsets_between s DURATION_KEY COMMA in
  match o with
  | None => Ret (Err "Duration not found in ktxstats")
  | Some (from, to) =>
      let! t := str_slice s from to in
      match parse_f64 t with
      | Err e => Ret (Err e)
      | Ok f => let! d := from_secs f in Ret (Ok d)
      end
  end.

(** src/duration.rs:35-41 *)
Definition match_duration (E : env) (data : bytes) : M (result duration) :=
  let! s := serverinfo E data in
  if is_hoonymode s then match_duration_from_seeking E data
  else
    let! r := match_duration_from_ktxstats E data in
    match r with
    | Ok d => Ret (Ok d)
    | Err _ => match_duration_from_seeking E data
    end.
