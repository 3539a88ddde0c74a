(** How much the loops of the source have to do. *)
From Verif.Model Require Import Base Env Primitives Prot Frame Message Flags Ping.
From Verif.Spec Require Import Loops.

(** The sum of the costs of the rounds a loop goes through. *)
Inductive total {St R : Type} (round : St -> M (St + R) -> Prop) (cost : St -> nat -> Prop) : nat -> St -> Prop :=
| total_later n c s s' : round s (Ret (inl s')) -> cost s c -> total round cost n s' -> total round cost (c + n) s
| total_last c s o : round s o -> (forall s', o <> Ret (inl s')) -> cost s c -> total round cost c s.

(** A round over frames costs one, and what is spent on the body if there is one to read. *)
Inductive frame_cost {St : Type} (E : env) (data : bytes) (reads : St -> bytes -> nat -> Prop) : N * St -> nat -> Prop :=
| cost_body index st i body n : from_data_and_index E data index = Ret (Ok i) -> i_body_size i <> 0 -> body_is data i body ->
    reads st body n -> frame_cost E data reads (index, st) (1 + n)
| cost_no_body index st : (forall i body, from_data_and_index E data index = Ret (Ok i) -> i_body_size i <> 0 -> ~ body_is data i body) ->
    frame_cost E data reads (index, st) 1.

(** The rounds over the messages of a body. *)
Definition prints_reads (E : env) (st : list Print) (body : bytes) (n : nat) : Prop :=
  exists o, ends (just (print_round E)) n (cursor_new body, st) o.
Definition pings_reads (E : env) (st : N * pings) (body : bytes) (n : nat) : Prop :=
  exists o, ends (just (ping_round E)) n (cursor_new body, snd st, false) o.
Definition flags_reads (E : env) (st : list bytes) (body : bytes) (n : nat) : Prop :=
  match find body (lit "flag") with
  | Some _ => exists o, ends (just (flag_round E)) n (cursor_new body, [], st) o
  | None => n = 0%nat
  end.

(** The loop does end, and whatever it costs is at most [bound]. *)
Definition costs_at_most {St R : Type} (round : St -> M (St + R) -> Prop) (cost : St -> nat -> Prop) (s : St) (bound : nat) : Prop :=
  (exists n, total round cost n s) /\ forall n, total round cost n s -> (n <= bound)%nat.
