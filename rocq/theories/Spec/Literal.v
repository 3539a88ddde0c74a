(** Texts of floating-point numbers, the numbers they stand for, and durations in seconds. *)
From Coq Require Import Reals.
From Flocq Require Import Core.Core.
From Verif.Model Require Import Base.
From Verif.Spec Require Import Occ Times.
Open Scope N_scope.

Definition sign_text (neg : bool) (s : bytes) : Prop :=
  if neg then s = lit "-" else s = [] \/ s = lit "+".

(** digits with or without a point, at least one digit; the number is [m / 10^frac] *)
Definition mantissa_text (s : bytes) (m frac : N) : Prop :=
  exists ip fp, wf_digits ip /\ wf_digits fp /\ ip ++ fp <> [] /\
    m = number (ip ++ fp) /\ frac = len fp /\
    ((fp = [] /\ s = numeral ip) \/ s = numeral ip ++ lit "." ++ numeral fp).

(** [v] is what the digits [ds] of an exponent are taken for: the number, except that no further
    digit is looked at once the number has reached 65536. *)
Definition taken (ds : list N) (v : N) : Prop :=
  exists seen unseen, ds = seen ++ unseen /\ v = number seen /\ (unseen = [] \/ 65536 <= v) /\
    forall a b, seen = a ++ b -> b <> [] -> number a < 65536.

(** nothing, or the letter e, a sign or none, and digits, which stand for a number as told by
    [reading] *)
Definition exponent_text (reading : list N -> N -> Prop) (s : bytes) (e : Z) : Prop :=
  (s = [] /\ e = 0%Z) \/
  exists letter sign neg ds v,
    (letter = lit "e" \/ letter = lit "E") /\ sign_text neg sign /\ wf_digits ds /\ ds <> [] /\
    s = letter ++ sign ++ numeral ds /\ reading ds v /\
    e = (if neg : bool then - Z.of_N v else Z.of_N v)%Z.

Definition decimal_text (reading : list N -> N -> Prop) (s : bytes) (neg : bool) (m : N) (k : Z) : Prop :=
  exists sign mantissa exponent frac e,
    s = sign ++ mantissa ++ exponent /\ sign_text neg sign /\ mantissa_text mantissa m frac /\
    exponent_text reading exponent e /\ k = (e - Z.of_N frac)%Z.

(** [s] is taken for the number [m * 10^k], negated if [neg] *)
Definition number_text : bytes -> bool -> N -> Z -> Prop := decimal_text taken.

(** [s] is the text of the number [m * 10^k], negated if [neg]: the exponent is what is written *)
Definition written_text : bytes -> bool -> N -> Z -> Prop := decimal_text (fun ds v => v = number ds).

(** the same letters, small or capital *)
Definition spells (s : bytes) (w : string) : Prop :=
  Forall2 (fun b c => b = c \/ n_of b + 32 = n_of c) s (lit w).

Definition infinity_text (s : bytes) (neg : bool) : Prop :=
  exists sign w, s = sign ++ w /\ sign_text neg sign /\ (spells w "inf" \/ spells w "infinity").
Definition nan_text (s : bytes) : Prop :=
  exists sign neg w, s = sign ++ w /\ sign_text neg sign /\ spells w "nan".

Definition float_text (s : bytes) : Prop :=
  (exists neg m k, number_text s neg m k) \/ (exists neg, infinity_text s neg) \/ nan_text s.

Definition real_of (neg : bool) (m : N) (k : Z) : R :=
  ((if neg then -1 else 1) * IZR (Z.of_N m) * powerRZ 10 k)%R.

(** Double precision, round to nearest even: the real number nearest to [x] that has a 53-bit
    mantissa. *)
Definition double (x : R) : R := round radix2 (FLT_exp (-1074) 53) ZnearestE x.

(** [t] stands between the first mention of the duration in the statistics [s] and the next
    comma. *)
Definition duration_text (s t : bytes) : Prop :=
  exists a b, s = a ++ lit """duration"": " ++ t ++ lit "," ++ b /\
    first_at s (lit """duration"": ") (len a) /\ t <> [] /\ ~ In x2c t.
