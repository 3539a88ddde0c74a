(** src/serverinfo.rs and src/filename.rs *)
From Verif.Model Require Import Base Env Bytesextra.

(** src/serverinfo.rs:11-12 *)
Definition MAX_OFFSET : N := 256.
Definition MAX_SIZE : N := 1024.

(** src/serverinfo.rs:15 *)
Definition FULLSERVERINFO : bytes := lit "fullserverinfo """.
Definition QUOTE : bytes := [x22].

(** src/serverinfo.rs:10-21 *)
Definition serverinfo_string (E : env) (data : bytes) : M (result str) :=
  let! head := slice_to data (MAX_OFFSET + MAX_SIZE) in
  let! o := offsets_between head FULLSERVERINFO QUOTE in
  match o with
  | None => Ret (Err "Serverinfo not found")
  | Some (from, to) =>
      let! d := slice data from to in
      Ret (Ok (to_utf8 E d))
  end.

(** src/serverinfo.rs:6-8 *)
Definition serverinfo (E : env) (data : bytes) : M (result Settings) :=
  let! r := serverinfo_string E data in
  match r with
  | Ok s => Ret (Ok (settings_from E s))
  | Err e => Ret (Err e)
  end.

(** src/filename.rs:5-10 *)
Definition filename (E : env) (data : bytes) : M (result str) :=
  let? s := serverinfo E data in
  match st_serverdemo s with
  | Some d => Ret (Ok d)
  | None => Ret (Err "Filename not found")
  end.
