(** More inputs on which functions panic: statistics, scores, players, teams, durations *)
From Coq Require Import Reals.
From Verif.Model Require Import Base Env Serverinfo Clients FragEvent.
From Verif.Spec Require Import Occ Mvd Messages Obituary Score Times Literal Stats Lax Panics Wrap.

(** ** Statistics *)
(** A block that is not complete, or whose frame header is not *)
Definition short_block (d : bytes) : Prop :=
  len d < 10 \/
  exists n, size_field d = Some n /\ 2 <= n /\ 18 <= len d /\ type_field d = Some 3 /\ len d < 16 + n.
(** A block that is too small to contain its own number *)
Definition tiny_block (d : bytes) : Prop := exists n, size_field d = Some n /\ n < 2.

(** Complete blocks, none of them the last one, and then one of these *)
Definition jams (p : panic) (d : bytes) : Prop :=
  exists bs rest, d = concat (map encode_block bs) ++ rest /\ Forall wf_block bs /\
    Forall (fun b => sb_number b <> 0) bs /\
    ((p = PSlice /\ short_block rest) \/ (p = POverflow /\ tiny_block rest)).

(** the statistics cannot be collected *)
Definition stats_jam (checks : bool) (data : bytes) (p : panic) : Prop :=
  exists k, last_at data version_mark k /\
    if checks
    then (k < 18 /\ p = POverflow) \/ (18 <= k /\ jams p (skipn (N.to_nat (k - 18)) data))
    else p = PSlice /\ forall text, 8 <= k -> ~ embeds_lax (from_block data k) text.

(** ** Scores *)
(** An obituary for which the list of clients is looked at *)
Definition asks_clients (E : env) (o : message * list frame) : Prop :=
  exists t v, trimmed (to_unicode E (m_text (fst o))) t /\ reads t (TeamkillByUnknown v) /\
    nearby_updates (fst o) (snd o) <> [].

(** the entries of the obituaries [os], with the clients [cs] *)
Definition entered (E : env) (cs : list Client) (os : list (message * list frame)) (l : list (str * Z)) : Prop :=
  exists per, l = concat per /\
    Forall2 (fun '(m, s) => scored cs (nearby_updates m s) (to_unicode E (m_text m))) os per.

Definition clients_of (r : M (result (list Client))) : list Client :=
  match r with Ret (Ok cs) => cs | _ => [] end.

(** ** Durations *)
Definition not_hoonymode (r : M (result Settings)) : Prop :=
  forall s, r = Ret (Ok s) -> st_mode s <> Some (lit "hoonymode").

(** a text that stands for a floating-point number, but not for a time in seconds below 2^64 *)
Definition no_time (t : bytes) : Prop :=
  (exists neg, infinity_text t neg) \/ nan_text t \/
  exists neg m k, number_text t neg m k /\
    (double (real_of neg m k) < 0 \/ 18446744073709551616 <= double (real_of neg m k))%R.
