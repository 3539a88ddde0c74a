(** What the operations of the standard library promise that the code relies on. *)
From Coq Require Import Floats.SpecFloat.
From Verif.Model Require Import Base.
From Verif.Spec Require Import Occ Utf8.

(** [x] is what [d] has from offset [a] to offset [b]. *)
Definition part {A} (d : list A) (a b : N) (x : list A) : Prop :=
  exists p q, d = p ++ x ++ q /\ len p = a /\ len p + len x = b.

(** Offset [i] of the text is between two characters, or at its end or beginning. *)
Definition between_chars (d : bytes) (i : N) : Prop := i <= len d /\ ~ inside_char d i.

(** [f] with [v] for [k] *)
Definition put {K V} (k : K) (v : V) (f f' : K -> option V) : Prop :=
  f' k = Some v /\ forall k', k' <> k -> f' k' = f k'.

(** [r] is the first [f x] that is there *)
Definition first_some {A B} (f : A -> option B) (l : list A) (r : option B) : Prop :=
  match r with
  | Some b => exists u x v, l = u ++ x :: v /\ f x = Some b /\ Forall (fun y => f y = None) u
  | None => Forall (fun y => f y = None) l
  end.

(** [n] is at most [m * 2^e]. *)
Definition reaches (m : positive) (e n : Z) : Prop := (n * 2 ^ Z.max 0 (- e) <= Zpos m * 2 ^ Z.max 0 e)%Z.
(** [n] is the integer part of [m * 2^e], or the integer nearest to it, the larger one of two. *)
Definition integer_part (m : positive) (e : Z) (n : N) : Prop := reaches m e (Z.of_N n) /\ ~ reaches m e (Z.of_N n + 1).
Definition nearest (m : positive) (e : Z) (n : N) : Prop :=
  reaches (2 * m) e (2 * Z.of_N n - 1) /\ ~ reaches (2 * m) e (2 * Z.of_N n + 1).
(** [x as u32]: values that are too large become the largest number, and everything that is not positive becomes 0. *)
Definition cast_of (rule : positive -> Z -> N -> Prop) (x : spec_float) (r : N) : Prop :=
  match x with
  | S754_finite false m e => exists n, rule m e n /\ ((n < 4294967296 /\ r = n) \/ (4294967296 <= n /\ r = 4294967295))
  | S754_infinity false => r = 4294967295
  | S754_finite true _ _ | S754_infinity true | S754_zero _ | S754_nan => r = 0
  end.
