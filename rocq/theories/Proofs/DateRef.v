(** A date parser that does what is asked of chrono's: it shows that the hypothesis of the
    theorems about matchdate() can be met, and it serves in the examples. *)
From Coq Require Import Lia ZifyN ZifyBool.
From Verif.Model Require Import Base.
From Verif.Spec Require Import Utf8 Dates.
From Verif.Proofs Require Import BaseFacts Utf8Facts.
Open Scope N_scope.
Local Arguments Z.mul : simpl never.
Local Arguments Z.add : simpl never.
Local Arguments Z.sub : simpl never.
Local Arguments n_of : simpl never.
Local Arguments char_of : simpl never.

Definition value (b : byte) : N := n_of b - 48.
Definition value2 (a b : byte) : N := 10 * value a + value b.

Definition read_sign (s : bytes) : option (bool * bytes) :=
  match s with
  | x2b :: r => Some (false, r)
  | x2d :: r => Some (true, r)
  | xe2 :: x88 :: x92 :: r => Some (true, r)
  | _ => None
  end.

Definition read_date (s : bytes) : result Z :=
  match s with
  | y1 :: y2 :: y3 :: y4 :: _ :: m1 :: m2 :: _ :: d1 :: d2 :: _ :: h1 :: h2 :: _ :: i1 :: i2 :: _ :: s1 :: s2 :: r =>
      let m := mkMoment (100 * value2 y1 y2 + value2 y3 y4) (value2 m1 m2) (value2 d1 d2)
                        (value2 h1 h2) (value2 i1 i2) (value2 s1 s2) in
      match read_sign r with
      | Some (neg, [a; b; _; c; d]) =>
          let off := Z.of_N (60 * value2 a b + value2 c d) in
          Ok (if neg then seconds m + 60 * off else seconds m - 60 * off)%Z
      | _ => Err "input is too short"
      end
  | _ => Err "input is too short"
  end.

Lemma value_char : forall d, d < 10 -> value (char_of d) = d.
Proof. intros d H. unfold value, char_of. rewrite n_of_small by lia. lia. Qed.

Lemma value2_two : forall n, n < 100 -> value2 (char_of (n / 10 mod 10)) (char_of (n mod 10)) = n.
Proof. intros n H. unfold value2. rewrite !value_char by lia. lia. Qed.

Lemma value_four : forall n, n < 10000 ->
  100 * value2 (char_of (n / 1000 mod 10)) (char_of (n / 100 mod 10)) + value2 (char_of (n / 10 mod 10)) (char_of (n mod 10)) = n.
Proof. intros n H. unfold value2. rewrite !value_char by lia. lia. Qed.

Lemma month_days_le : forall y m, month_days y m <= 31.
Proof. intros y m. unfold month_days. destruct (m =? 2), (leap y), ((m =? 4) || (m =? 6) || (m =? 9) || (m =? 11)); lia. Qed.

Lemma read_moment : forall m sign neg off, valid_moment m -> off < 1440 ->
  (forall r, read_sign (sign ++ r) = Some (neg, r)) ->
  read_date (moment_text m ++ sign ++ two_digits (off / 60) ++ lit ":" ++ two_digits (off mod 60)) =
  Ok (if neg : bool then seconds m + 60 * Z.of_N off else seconds m - 60 * Z.of_N off)%Z.
Proof.
  intros [y mo d h i s] sign neg off [V1 [V2 [V3 [V4 [V5 V6]]]]] B S. cbn [mo_year mo_month mo_day mo_hour mo_minute mo_second] in *.
  pose proof (month_days_le y mo) as MD.
  unfold moment_text, four_digits, two_digits. cbn [mo_year mo_month mo_day mo_hour mo_minute mo_second].
  change (lit "-") with [x2d]. change (lit " ") with [x20]. change (lit ":") with [x3a].
  cbn [app read_date]. rewrite S. rewrite value_four by exact V1. rewrite !value2_two by lia.
  replace (60 * (off / 60) + off mod 60) with off by lia. reflexivity.
Qed.

Lemma read_date_proof : forall m sign off, valid_moment m -> off < 1440 ->
  (sign = lit "+" -> read_date (moment_text m ++ sign ++ two_digits (off / 60) ++ lit ":" ++ two_digits (off mod 60))
     = Ok (seconds m - 60 * Z.of_N off)%Z) /\
  (In sign minus_signs -> read_date (moment_text m ++ sign ++ two_digits (off / 60) ++ lit ":" ++ two_digits (off mod 60))
     = Ok (seconds m + 60 * Z.of_N off)%Z).
Proof.
  intros m sign off V B. split.
  - intros ->. apply (read_moment m (lit "+") false off V B). reflexivity.
  - intros [<- | [<- | []]].
    + apply (read_moment m (lit "-") true off V B). reflexivity.
    + apply (read_moment m (encode_char 8722) true off V B). intros r.
      replace (encode_char 8722) with [xe2; x88; x92] by (vm_compute; reflexivity). reflexivity.
Qed.
