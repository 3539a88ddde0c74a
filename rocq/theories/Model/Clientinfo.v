(** src/clientinfo.rs *)
From Verif.Model Require Import Base Env.

(** src/clientinfo.rs:14, 28 *)
Definition CMD_SPAWN : bytes := x09 :: lit "cmd spawn".
Definition NAME : bytes := lit "\name\".

(** src/clientinfo.rs:19-23 *)
Definition MAX_PLAYERS : N := 24.
Definition MAX_LOOKAHEAD : N := 512.
Definition CI_MIN_LEN : N := 7.
Definition CI_MAX_LEN : N := 256.

(** src/clientinfo.rs:27-49.  The sums are at most the length of the slice plus 24*512,
    so they cannot wrap.  Every round that goes on moves [offset] forward, so
    [S (length data)] rounds suffice. *)
Fixpoint clientinfo_loop (E : env) (fuel : nat) (data : bytes) (max_offset offset : N)
         (result : list str) : M (list str) :=
  match fuel with
  | O => OutOfFuel
  | S fuel' =>
      let! window := slice data offset (offset + MAX_LOOKAHEAD) in
      match find window NAME with
      | None => Ret result
      | Some o =>
          let name_offset := offset + o in
          let! before := slice_to data name_offset in
          match rfind_byte before x00 with
          | None => Ret result
          | Some z =>
              let from := z + 1 in
              let! after := slice_from data from in
              match find_byte after x00 with
              | None => Ret result
              | Some t =>
                  let to := from + t in
                  if (CI_MIN_LEN <=? to - from) && (to - from <=? CI_MAX_LEN) then
                    let! d := slice data from to in
                    let result := result ++ [to_unicode E d] in
                    if max_offset <=? to then Ret result
                    else clientinfo_loop E fuel' data max_offset to result
                  else Ret result
              end
          end
      end
  end.

(** src/clientinfo.rs:13-52 *)
Definition clientinfo_strings (E : env) (data : bytes) : M (result (list str)) :=
  match find data CMD_SPAWN with
  | None => Ret (Err "Unable to find clientinfo strings")
  | Some offset =>
      let! l := clientinfo_loop E (S (length data)) data
                  (offset + MAX_PLAYERS * MAX_LOOKAHEAD) offset [] in
      Ret (Ok l)
  end.

(** src/clientinfo.rs:5-11 *)
Definition clientinfo (E : env) (data : bytes) : M (result (list Clientinfo)) :=
  let? l := clientinfo_strings E data in
  Ret (Ok (map (clientinfo_from E) l)).
