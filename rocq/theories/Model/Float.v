(** IEEE 754 single and double precision as far as /repo uses it, on top of the
    executable reference [Coq.Floats.SpecFloat]; and [std::time::Duration]. *)
From Coq Require Import Floats.SpecFloat.
From Verif.Model Require Import Base.
Open Scope N_scope.

(** [x as f32] for an unsigned integer: round to nearest, ties to even *)
Definition f32_of_N (n : N) : spec_float := binary_normalize 24 128 (Z.of_N n) 0 false.

(** f32 [/] *)
Definition f32_div (x y : spec_float) : spec_float := SFdiv 24 128 x y.

(** the integer part of [m * 2^e] *)
Definition floor_scaled (m : positive) (e : Z) : N :=
  match e with
  | Z0 => Npos m
  | Zpos k => Npos m * 2 ^ Npos k
  | Zneg k => Npos m / 2 ^ Npos k
  end.

(** [m * 2^e] rounded to an integer, halves up *)
Definition round_scaled (m : positive) (e : Z) : N :=
  match e with
  | Z0 => Npos m
  | Zpos k => Npos m * 2 ^ Npos k
  | Zneg k => (2 * Npos m + 2 ^ Npos k) / (2 * 2 ^ Npos k)
  end.

Definition u32_max : N := 4294967295.

(** [x as u32] (saturating) for an f32 *)
Definition f32_to_u32 (x : spec_float) : N :=
  match x with
  | S754_finite false m e => N.min u32_max (floor_scaled m e)
  | S754_infinity false => u32_max
  | _ => 0
  end.

(** [x.round() as u32] for an f32: [round] rounds half away from zero, its result is
    exact *)
Definition f32_round_to_u32 (x : spec_float) : N :=
  match x with
  | S754_finite false m e => N.min u32_max (round_scaled m e)
  | S754_infinity false => u32_max
  | _ => 0
  end.

(** [m * 2^e] rounded to an integer, ties to even *)
Definition div_half_even (a b : N) : N :=
  let q := a / b in
  let r := a mod b in
  match N.compare (2 * r) b with
  | Lt => q
  | Gt => q + 1
  | Eq => if N.even q then q else q + 1
  end.

(** A [Duration] is its number of nanoseconds. *)
Definition duration := N.
Definition NANOS : N := 1000000000.

(** [Duration::from_secs_f32] / [from_secs_f64] (std, `try_from_secs!`): the nanosecond
    count nearest to the value, ties to even; panics if the value is negative, NaN,
    infinite or at least 2^64 seconds.  (Values in (-0.5ns, 0) are negative and panic;
    -0.0 does not.) *)
Definition from_secs (x : spec_float) : M duration :=
  match x with
  | S754_zero _ => Ret 0
  | S754_finite false m (Zneg k) => Ret (div_half_even (Npos m * NANOS) (2 ^ Npos k))
  | S754_finite false m Z0 =>
      if Npos m <? 18446744073709551616 then Ret (Npos m * NANOS) else Panic PDurationFrom
  | S754_finite false m (Zpos k) =>
      if Npos m * 2 ^ Npos k <? 18446744073709551616 then Ret (Npos m * 2 ^ Npos k * NANOS)
      else Panic PDurationFrom
  | _ => Panic PDurationFrom
  end.

(** [a - b] on Durations *)
Definition duration_sub (a b : duration) : M duration :=
  if b <=? a then Ret (a - b) else Panic PDurationSub.

(** [str::parse::<f64>()]: the grammar of [f64::from_str]; the value is the double
    nearest to the decimal number (std guarantees correct rounding), the exponent being read as
    in [exp_digits]. *)
Definition digit (b : byte) : option N :=
  if in_range b 0x30 0x39 then Some (n_of b - 0x30) else None.

(** a maximal run of digits: (value, count, rest), starting from value [v] *)
Fixpoint digits (s : str) (v : N) (n : N) : N * N * str :=
  match s with
  | b :: s' =>
      match digit b with
      | Some d => digits s' (10 * v + d) (n + 1)
      | None => (v, n, s)
      end
  | [] => (v, n, [])
  end.

Definition lower (b : byte) : byte :=
  if in_range b 0x41 0x5A then
    match Byte.of_N (n_of b + 32) with Some c => c | None => b end
  else b.

(** the digits of an exponent: (value, count, rest); [core::num::dec2flt] adds no digit to a value
    that has reached 0x10000 *)
Fixpoint exp_digits (s : str) (v : N) (n : N) : N * N * str :=
  match s with
  | b :: s' =>
      match digit b with
      | Some d => exp_digits s' (if v <? 0x10000 then 10 * v + d else v) (n + 1)
      | None => (v, n, s)
      end
  | [] => (v, n, [])
  end.

(** the optional exponent; [None] if malformed *)
Definition parse_exp (s : str) : option Z :=
  match s with
  | [] => Some 0%Z
  | b :: s' =>
      if Byte.eqb (lower b) x65 then
        let (neg, s'') :=
          match s' with
          | c :: r => if Byte.eqb c x2d then (true, r) else if Byte.eqb c x2b then (false, r)
                      else (false, s')
          | [] => (false, s')
          end in
        match exp_digits s'' 0 0 with
        | (v, n, []) => if n =? 0 then None
                        else Some (if neg : bool then (- Z.of_N v)%Z else Z.of_N v)
        | _ => None
        end
      else None
  end.

(** nearest double to [(-1)^neg * m * 10^k] *)
Definition f64_of_decimal (neg : bool) (m : N) (k : Z) : spec_float :=
  match m with
  | N0 => S754_zero neg
  | Npos p =>
      match k with
      | Zneg j =>
          let '(mz, ez, lz) :=
            SFdiv_core_binary 53 1024 (Zpos p) 0 (10 ^ Zpos j) 0 in
          binary_round_aux 53 1024 neg mz ez lz
      | _ =>
          let z := (Zpos p * 10 ^ k)%Z in
          binary_normalize 53 1024 (if neg then - z else z) 0 neg
      end
  end.

Definition parse_f64 (s : str) : result spec_float :=
  let (neg, s) :=
    match s with
    | b :: r => if Byte.eqb b x2d then (true, r) else if Byte.eqb b x2b then (false, r)
                else (false, s)
    | [] => (false, s)
    end in
  let l := map lower s in
  if beq l (lit "inf") || beq l (lit "infinity") then Ok (S754_infinity neg)
  else if beq l (lit "nan") then Ok S754_nan
  else
    let '(v, n, s) := digits s 0 0 in
    let '(v, n, frac, s) :=
      match s with
      | b :: r =>
          if Byte.eqb b x2e then
            let '(v', n', r') := digits r v 0 in (v', n + n', n', r')
          else (v, n, 0, s)
      | [] => (v, n, 0, s)
      end in
    if n =? 0 then Err "invalid float literal"
    else match parse_exp s with
         | Some e => Ok (f64_of_decimal neg v (e - Z.of_N frac))
         | None => Err "invalid float literal"
         end.
