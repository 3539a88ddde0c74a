(** src/qw/message/*.rs *)
From Verif.Model Require Import Base Env Primitives Prot.

(** src/qw/message/message_type.rs:7-9 *)
Definition read_message_type (E : env) (c : cursor) : result MessageType * cursor :=
  match read_byte E c with
  | (Ok b, c') => (Ok (message_type_from b), c')
  | (Err e, c') => (Err e, c')
  end.

(** src/qw/message/print.rs:9-13 *)
Record Print := mkPrint { pr_id : PrintId; pr_content : bytes }.

(** derived PartialEq *)
Definition print_eqb (a b : Print) : bool :=
  print_id_eqb (pr_id a) (pr_id b) && beq (pr_content a) (pr_content b).

(** src/qw/message/print.rs:16-18 *)
Definition byte_size (p : Print) : N := len (pr_content p) + 2.

(** src/qw/message/print.rs:39-44 *)
Definition read_print (E : env) (c : cursor) : result Print * cursor :=
  match read_byte E c with
  | (Err e, c') => (Err e, c')
  | (Ok b, c') =>
      match read_bstring c' with
      | (Err e, c'') => (Err e, c'')
      | (Ok content, c'') => (Ok (mkPrint (print_id_from b) content), c'')
      end
  end.

(** src/qw/message/print.rs:33-35 *)
Definition print_try_from (E : env) (value : bytes) : result Print :=
  fst (read_print E (cursor_new value)).

(** src/qw/message/update_frags.rs:5-9 *)
Record UpdateFrags := mkUpdateFrags { uf_player_number : N; uf_frags : N }.

(** src/qw/message/update_frags.rs:20-25 *)
Definition read_update_frags (E : env) (c : cursor) : result UpdateFrags * cursor :=
  match read_byte E c with
  | (Err e, c') => (Err e, c')
  | (Ok b, c') =>
      match read_u16 E c' with
      | (Err e, c'') => (Err e, c'')
      | (Ok f, c'') => (Ok (mkUpdateFrags (n_of b) f), c'')
      end
  end.

(** src/qw/message/update_frags.rs:11-17 *)
Definition update_frags_try_from (E : env) (value : bytes) : result UpdateFrags :=
  fst (read_update_frags E (cursor_new value)).

(** src/qw/message/update_ping.rs:5-9 *)
Record UpdatePing := mkUpdatePing { up_player_number : N; up_ping : N }.

(** src/qw/message/update_ping.rs:20-27 *)
Definition read_update_ping (E : env) (c : cursor) : result UpdatePing * cursor :=
  match read_byte E c with
  | (Err e, c') => (Err e, c')
  | (Ok b, c') =>
      match read_u16 E c' with
      | (Err e, c'') => (Err e, c'')
      | (Ok p, c'') =>
          match read_byte E c'' with
          | (Err e, c3) => (Err e, c3)
          | (Ok _, c3) => (Ok (mkUpdatePing (n_of b) p), c3)
          end
      end
  end.

(** src/qw/message/update_ping.rs:11-17 *)
Definition update_ping_try_from (E : env) (value : bytes) : result UpdatePing :=
  fst (read_update_ping E (cursor_new value)).
