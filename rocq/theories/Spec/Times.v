(** Durations: which frames count, and how milliseconds and decimal numbers become
    nanoseconds. *)
From Coq Require Import Reals.
From Flocq Require Import Core.Core.
From Verif.Model Require Import Base.
From Verif.Spec Require Import Occ Mvd.
Open Scope N_scope.

(** Milliseconds of the frames that start before offset [target]. *)
Definition elapsed (target : N) (fs : list frame) : N :=
  fold_right N.add 0
    (map (fun x => n_of (f_time (snd x))) (filter (fun x => fst x <? target) (located 0 fs))).

(** Where the match ends: at the last "The match is over", else at the last standby status,
    else at the end of the data. *)
Definition match_over : bytes := lit "The match is over".
Definition standby : bytes := lit "4status" ++ [x00] ++ lit "Standby" ++ [x00].
Definition end_marker (data : bytes) (i : N) : Prop :=
  last_at data match_over i \/
  (~ occurs data match_over /\ last_at data standby i) \/
  (~ occurs data match_over /\ ~ occurs data standby /\ i = len data).

(** Where the match starts: at the first matchdate print. *)
Definition matchdate_marker : bytes := [x08; x02] ++ lit "matchdate: ".

(** Single precision, round to nearest even: the real number nearest to [x] that has a
    24-bit mantissa. *)
Definition single (x : R) : R := round radix2 (FLT_exp (-149) 24) ZnearestE x.

(** The nanoseconds of [ms] milliseconds, computed in single precision as [ms / 1000]
    seconds and rounded to the nearest nanosecond. *)
Definition ms_to_ns (ms : N) : Z :=
  ZnearestE (single (single (IZR (Z.of_N ms)) / 1000) * 1000000000).

(** Decimal numerals *)
Definition digit_char (d : N) : byte := byte_of (48 + d).
Definition numeral (ds : list N) : str := map digit_char ds.
Definition number (ds : list N) : N := fold_left (fun v d => 10 * v + d) ds 0.
Definition wf_digits (ds : list N) : Prop := Forall (fun d => d < 10) ds.
