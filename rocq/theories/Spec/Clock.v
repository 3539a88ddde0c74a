(** The time until an offset, on any bytes: [fs] are the complete frames, [rest] is what follows
    them.  [checks] tells whether an overflow of the 32-bit sum stops the program. *)
From Verif.Model Require Import Base Float.
From Verif.Spec Require Import Mvd Messages Times.

(** The time in the first byte of an incomplete frame *)
Definition head_time (rest : bytes) : N := match rest with t :: _ => n_of t | [] => 0 end.

Inductive clock (checks : bool) (fs : list frame) (rest : bytes) (target : N) : M N -> Prop :=
| clock_reads : stops (len (encode fs ++ rest)) rest \/ target <= len (encode fs) ->
    elapsed target fs < 4294967296 \/ checks = false ->
    clock checks fs rest target (Ret (elapsed target fs mod 4294967296))
| clock_overflows : checks = true -> 4294967296 <= elapsed target fs ->
    clock checks fs rest target (Panic POverflow)
| clock_short : overruns (len (encode fs ++ rest)) rest -> len (encode fs) < target ->
    checks = false \/ elapsed target fs + head_time rest < 4294967296 ->
    clock checks fs rest target (Panic PSlice)
| clock_short_overflows : overruns (len (encode fs ++ rest)) rest -> len (encode fs) < target ->
    checks = true -> 4294967296 <= elapsed target fs + head_time rest ->
    clock checks fs rest target (Panic POverflow).

(** The result of a duration function that reads the clock *)
Definition in_ns (r : M N) : M (result duration) :=
  match r with
  | Ret ms => Ret (Ok (Z.to_N (ms_to_ns ms)))
  | Panic p => Panic p
  | OutOfFuel => OutOfFuel
  end.
