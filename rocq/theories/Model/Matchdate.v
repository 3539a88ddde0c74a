(** src/matchdate.rs and src/timestamp.rs *)
From Verif.Model Require Import Base Utf8Error Env Serverinfo Timezone.

(** src/matchdate.rs:7-12 *)
Definition MATCHDATE_NEEDLE : bytes := [x08; x02] ++ lit "matchdate: ".
Definition DATETIME_LEN : N := 19.
Definition MD_MIN_LEN : N := 22.
Definition MD_MAX_LEN : N := 25.

(** src/matchdate.rs:28-46 *)
Definition matchdate_string (data : bytes) : M (result str) :=
  match find data MATCHDATE_NEEDLE with
  | None => Ret (Err "Matchdate not found")
  | Some i =>
      let index_from := i + len MATCHDATE_NEEDLE in
      let! rest := slice_from data index_from in
      match find_byte rest x0a with
      | None => Ret (Err "Invalid matchdate")
      | Some j =>
          let index_to := j + index_from in
          let length := index_to - index_from in
          if (MD_MIN_LEN <=? length) && (length <=? MD_MAX_LEN) then
            let! d := slice data index_from index_to in
            if utf8_valid d then Ret (Ok d) else Ret (Err (utf8_error_text d))
          else Ret (Err "Invalid matchdate")
      end
  end.

(** src/matchdate.rs:20-26 *)
Definition replace_tz_abbr_with_offset (timestamp : str) : M (result str) :=
  let! tz_abbr := str_from timestamp (DATETIME_LEN + 1) in
  let! o := utc_offset tz_abbr in
  match o with
  | None => Ret (Err "Invalid timezone abbreviation")
  | Some tz_offset =>
      let! dt := str_to timestamp DATETIME_LEN in
      Ret (Ok (dt ++ tz_offset))
  end.

(** src/matchdate.rs:14-18; a [DateTime<Utc>] is its number of seconds since the epoch *)
Definition matchdate (E : env) (data : bytes) : M (result Z) :=
  let? raw := matchdate_string data in
  let? fixed := replace_tz_abbr_with_offset raw in
  Ret (parse_datetime E fixed).

(** src/timestamp.rs:11-21.  [Utc.timestamp_opt(epoch as i64, 0)] is [Single] for every
    i32 (chrono's range is about +-262000 years), so the error branch is dead. *)
Definition timestamp_from_epoch (E : env) (data : bytes) : M (result Z) :=
  let? s := serverinfo E data in
  match st_epoch s with
  | None => Ret (Err "Epoch not found in serverinfo")
  | Some epoch => Ret (Ok epoch)
  end.

(** src/timestamp.rs:7-9 *)
Definition timestamp (E : env) (data : bytes) : M (result Z) :=
  let! r := timestamp_from_epoch E data in
  match r with
  | Ok t => Ret (Ok t)
  | Err _ => matchdate E data
  end.
