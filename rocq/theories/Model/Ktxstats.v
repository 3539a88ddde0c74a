(** src/ktxstats.rs and src/server.rs *)
From Verif.Model Require Import Base Utf8Error Env Primitives Prot Frame.

(** src/ktxstats.rs:18 *)
Definition VERSION : bytes := lit "{""version"": ".

(** src/ktxstats.rs:16 *)
Definition TOTAL_HEADER_SIZE : N := MULTI_HEADER_SIZE + BLOCK_HEADER_SIZE.

(** src/ktxstats.rs:25-38.  Every round that goes on moves [offset] forward by at least
    the header, so [S (length data)] rounds suffice. *)
Fixpoint ktxstats_loop (E : env) (fuel : nat) (data : bytes) (offset : N) (content : bytes)
  : M bytes :=
  match fuel with
  | O => OutOfFuel
  | S fuel' =>
      let! a := uadd E usize_bound offset MULTI_HEADER_SIZE in
      let! d := slice_from data a in
      let! b := block_try_from E d in
      match b with
      | Err _ => Ret content
      | Ok info =>
          if negb (is_demoinfo (b_hidden_message info)) then Ret content
          else
            let! offset := uadd E usize_bound offset TOTAL_HEADER_SIZE in
            let! to := uadd E usize_bound offset (b_body_size info) in
            let! part := slice data offset to in
            let content := content ++ part in
            if b_number info =? 0 then Ret content
            else
              let! offset := uadd E usize_bound offset (b_body_size info) in
              ktxstats_loop E fuel' data offset content
      end
  end.

(** src/ktxstats.rs:15-41 *)
Definition ktxstats_string (E : env) (data : bytes) : M (result str) :=
  match rfind data VERSION with
  | None => Ret (Err "ktxstats not found")
  | Some offset =>
      let! offset := usub E usize_bound offset TOTAL_HEADER_SIZE in
      let! content := ktxstats_loop E (S (length data)) data offset [] in
      if utf8_valid content then Ret (Ok content) else Ret (Err (utf8_error_text content))
  end.

(** src/ktxstats.rs:10-13 *)
Definition ktxstats_v3 (E : env) (data : bytes) : M (result KtxstatsV3) :=
  let? s := ktxstats_string E data in
  Ret (ktxstats_from E s).

(** src/server.rs:11-16 *)
Record Server := mkServer {
  sv_hostname : str;
  sv_address : str;
  sv_ip : str;
  sv_port : N;
}.

(** [format!("{}", n)] for an unsigned integer *)
Definition display_N (n : N) : str := lit (decimal n).

(** src/server.rs:18-27 *)
Definition server_from (s : KtxstatsV3) : Server := {|
  sv_hostname := ks_hostname s;
  sv_address := ks_ip s ++ lit ":" ++ display_N (ks_port s);
  sv_ip := ks_ip s;
  sv_port := ks_port s;
|}.

(** src/server.rs:6-8 *)
Definition server (E : env) (data : bytes) : M (result Server) :=
  let? s := ktxstats_v3 E data in
  Ret (Ok (server_from s)).
