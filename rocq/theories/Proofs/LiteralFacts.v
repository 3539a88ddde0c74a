(** Texts of floating-point numbers. *)
From Coq Require Import Lia ZifyN ZifyNat ZifyBool.
From Coq Require Import Reals Lra.
From Coq Require Import Floats.SpecFloat.
From Flocq Require Import Core.Core IEEE754.BinarySingleNaN.
From Verif.Model Require Import Base Env Bytesextra Serverinfo Ktxstats Float Duration.
From Verif.Spec Require Import Occ Mvd Utf8 Times Literal.
From Verif.Proofs Require Import BaseFacts FrameFacts Utf8Facts FloatFacts RoundFacts TimeFacts DecimalFacts.
Open Scope N_scope.

(** The parser, after the sign *)
Definition strip_sign (s : str) : bool * str :=
  match s with
  | b :: r => if Byte.eqb b x2d then (true, r) else if Byte.eqb b x2b then (false, r)
              else (false, s)
  | [] => (false, s)
  end.

Definition parse_number (neg : bool) (s : str) : result spec_float :=
  let '(v, n, s) := digits s 0 0 in
  let '(v, n, frac, s) :=
    match s with
    | b :: r =>
        if Byte.eqb b x2e then
          let '(v', n', r') := digits r v 0 in (v', n + n', n', r')
        else (v, n, 0, s)
    | [] => (v, n, 0, s)
    end in
  if n =? 0 then Err "invalid float literal"
  else match parse_exp s with
       | Some e => Ok (f64_of_decimal neg v (e - Z.of_N frac))
       | None => Err "invalid float literal"
       end.

Definition parse_unsigned (neg : bool) (s : str) : result spec_float :=
  let l := map lower s in
  if beq l (lit "inf") || beq l (lit "infinity") then Ok (S754_infinity neg)
  else if beq l (lit "nan") then Ok S754_nan
  else parse_number neg s.

Lemma parse_f64_eq : forall s, parse_f64 s = let (neg, u) := strip_sign s in parse_unsigned neg u.
Proof. reflexivity. Qed.

(** Runs of digits *)
Lemma digit_inv : forall b d, digit b = Some d -> d < 10 /\ b = digit_char d.
Proof.
  intros b d H. unfold digit in H. destruct (in_range b 48 57) eqn:R; [| discriminate].
  unfold in_range in R. injection H as <-. split; [lia |]. apply n_of_inj.
  rewrite n_of_digit_char by lia. lia.
Qed.

Lemma digit_run : forall s, exists ds r, wf_digits ds /\ s = numeral ds ++ r /\ no_digit r.
Proof.
  induction s as [| b s (ds & r & W & E & D)].
  - exists [], []. repeat split. constructor.
  - destruct (digit b) as [d |] eqn:B.
    + apply digit_inv in B. destruct B as [B ->]. exists (d :: ds), r. split; [constructor; assumption |].
      split; [simpl; rewrite E; reflexivity | assumption].
    + exists [], (b :: s). repeat split; [constructor | exact B].
Qed.

Lemma lower_e : forall b, Byte.eqb (lower b) x65 = true <-> [b] = lit "e" \/ [b] = lit "E".
Proof.
  intros b. split.
  - destruct b; intros H; vm_compute in H; try discriminate H; [right | left]; reflexivity.
  - intros [H | H]; injection H as ->; reflexivity.
Qed.

Lemma digit_char_not : forall d, d < 10 ->
  Byte.eqb (digit_char d) x2d = false /\ Byte.eqb (digit_char d) x2b = false.
Proof. intros d H. destruct (head_facts (digit_char d)) as (A & B & _); [right; eauto | split; assumption]. Qed.

Lemma strip_sign_numeral : forall neg sign ds, sign_text neg sign -> wf_digits ds -> ds <> [] ->
  strip_sign (sign ++ numeral ds) = (neg, numeral ds).
Proof.
  intros neg sign ds S W NE. destruct neg.
  - unfold sign_text in S. subst sign. reflexivity.
  - destruct S as [-> | ->]; [| reflexivity]. destruct ds as [| d ds]; [congruence |]. inv W.
    cbn [app numeral map strip_sign]. destruct (digit_char_not d) as [-> ->]; [assumption | reflexivity].
Qed.

Lemma parse_exp_strip : forall b s, Byte.eqb (lower b) x65 = true ->
  parse_exp (b :: s) =
  let (neg, s'') := strip_sign s in
  match exp_digits s'' 0 0 with
  | (v, n, []) => if n =? 0 then None else Some (if neg : bool then (- Z.of_N v)%Z else Z.of_N v)
  | _ => None
  end.
Proof. intros b s H. cbn [parse_exp]. rewrite H. reflexivity. Qed.

Lemma strip_sign_inv : forall s neg u, strip_sign s = (neg, u) ->
  exists sign, s = sign ++ u /\ sign_text neg sign.
Proof.
  intros s neg u H. destruct s as [| b r]; cbn [strip_sign] in H.
  - inv H. exists []. split; [reflexivity | left; reflexivity].
  - destruct (Byte.eqb b x2d) eqn:B1; [| destruct (Byte.eqb b x2b) eqn:B2].
    + apply byte_eqb_true in B1. inv H. exists (lit "-"). split; reflexivity.
    + apply byte_eqb_true in B2. inv H. exists (lit "+"). split; [reflexivity | right; reflexivity].
    + inv H. exists []. split; [reflexivity | left; reflexivity].
Qed.

(** The digits of an exponent *)
Definition clip (ds : list N) (v : N) : N :=
  fold_left (fun v d => if v <? 65536 then 10 * v + d else v) ds v.

Lemma exp_digits_numeral : forall ds s v n, wf_digits ds -> no_digit s ->
  exp_digits (numeral ds ++ s) v n = (clip ds v, n + len ds, s).
Proof.
  induction ds as [| d ds IH]; intros s v n W D.
  - rewrite len_nil, N.add_0_r. destruct s as [| b s]; [reflexivity |]. cbn in D |- *. rewrite D. reflexivity.
  - inv W. cbn [numeral map app exp_digits]. rewrite digit_of_char by assumption. fold (numeral ds).
    rewrite IH by assumption. rewrite len_cons. cbn [clip fold_left]. f_equal. f_equal. lia.
Qed.

Lemma clip_last : forall ds d, clip (ds ++ [d]) 0 =
  if clip ds 0 <? 65536 then 10 * clip ds 0 + d else clip ds 0.
Proof. intros. unfold clip. rewrite fold_left_app. reflexivity. Qed.

Lemma number_last : forall ds d, number (ds ++ [d]) = 10 * number ds + d.
Proof. intros. unfold number. rewrite fold_left_app. reflexivity. Qed.

Lemma clip_done : forall ds v, 65536 <= v -> clip ds v = v.
Proof.
  induction ds as [| d ds IH]; intros v H; [reflexivity |]. cbn [clip fold_left].
  replace (v <? 65536) with false by lia. apply IH. exact H.
Qed.

Lemma clip_seen : forall seen, (forall a b, seen = a ++ b -> b <> [] -> number a < 65536) ->
  clip seen 0 = number seen.
Proof.
  intros seen. induction seen as [| d seen IH] using rev_ind; intros H; [reflexivity |].
  rewrite clip_last, number_last. rewrite IH.
  - pose proof (H seen [d] eq_refl) as X. assert (number seen < 65536) by (apply X; discriminate).
    replace (number seen <? 65536) with true by lia. reflexivity.
  - intros a b -> NE. apply (H a (b ++ [d])); [symmetry; apply app_assoc | destruct b; discriminate].
Qed.

Lemma taken_clip : forall ds, taken ds (clip ds 0).
Proof.
  intros ds. induction ds as [| d ds (seen & unseen & -> & V & U & P)] using rev_ind.
  - exists [], []. split; [reflexivity |]. split; [reflexivity |]. split; [left; reflexivity |].
    intros a b H NE. symmetry in H. apply app_eq_nil in H. destruct H as [_ ->]. congruence.
  - rewrite clip_last. destruct (clip (seen ++ unseen) 0 <? 65536) eqn:C.
    + destruct U as [-> | U]; [| lia]. rewrite app_nil_r in *. exists (seen ++ [d]), [].
      split; [rewrite app_nil_r; reflexivity |]. split; [rewrite number_last, V; reflexivity |].
      split; [left; reflexivity |]. intros a b H NE.
      destruct (exists_last NE) as [b' [x ->]]. rewrite app_assoc in H. apply app_inj_tail in H.
      destruct H as [H ->]. destruct b' as [| y b'].
      * rewrite app_nil_r in H. subst a. lia.
      * apply (P a (y :: b')); [exact H | discriminate].
    + exists seen, (unseen ++ [d]). split; [symmetry; apply app_assoc |]. split; [exact V |].
      split; [right; lia | exact P].
Qed.

Lemma taken_iff : forall ds v, taken ds v <-> v = clip ds 0.
Proof.
  intros ds v. split; [| intros ->; apply taken_clip].
  intros (seen & unseen & -> & -> & U & P). unfold clip. rewrite fold_left_app.
  fold (clip seen 0). rewrite (clip_seen seen P). destruct U as [-> | U]; [reflexivity |].
  symmetry. apply clip_done. exact U.
Qed.

Lemma parse_exp_iff : forall s e, parse_exp s = Some e <-> exponent_text taken s e.
Proof.
  intros s e. split.
  - intros H. destruct s as [| b s].
    + left. simpl in H. inv H. split; reflexivity.
    + right. destruct (Byte.eqb (lower b) x65) eqn:B; [| cbn [parse_exp] in H; rewrite B in H; discriminate].
      rewrite parse_exp_strip in H by assumption. apply lower_e in B.
      destruct (strip_sign s) as [neg u] eqn:S. apply strip_sign_inv in S. destruct S as [sign [-> S]].
      destruct (digit_run u) as (ds & r & W & -> & D). rewrite exp_digits_numeral in H by assumption.
      destruct r; [| discriminate]. destruct (0 + len ds =? 0) eqn:Z; [discriminate |]. injection H as <-.
      exists [b], sign, neg, ds, (clip ds 0). rewrite app_nil_r. repeat split; try assumption; [| apply taken_clip].
      intros ->. rewrite len_nil in Z. discriminate.
  - intros [[-> ->] | (letter & sign & neg & ds & v & L & S & W & NE & -> & T & ->)]; [reflexivity |].
    apply taken_iff in T. subst v.
    assert (exists b, letter = [b] /\ Byte.eqb (lower b) x65 = true) as [b [-> B]].
    { destruct L as [-> | ->]; eexists; split; reflexivity. }
    cbn [app]. rewrite parse_exp_strip by assumption.
    rewrite (strip_sign_numeral neg sign ds S W NE). rewrite <- (app_nil_r (numeral ds)).
    rewrite exp_digits_numeral by (auto; exact I). apply len_pos in NE.
    replace (0 + len ds =? 0) with false by lia. reflexivity.
Qed.

Lemma exponent_no_digit : forall s e, exponent_text taken s e -> no_digit s.
Proof.
  intros s e [[-> _] | (letter & sign & neg & ds & v & L & _ & _ & _ & -> & _)]; [exact I |].
  destruct L as [-> | ->]; reflexivity.
Qed.

Lemma exponent_head : forall b s e, exponent_text taken (b :: s) e -> Byte.eqb b x2e = false.
Proof.
  intros b s e [[H _] | (letter & sign & neg & ds & v & L & _ & _ & _ & H & _)]; [discriminate |].
  destruct L as [-> | ->]; injection H as -> _; reflexivity.
Qed.

Lemma parse_number_iff : forall neg s f, parse_number neg s = Ok f <->
  exists mantissa exponent m frac e, s = mantissa ++ exponent /\ mantissa_text mantissa m frac /\
    exponent_text taken exponent e /\ f = f64_of_decimal neg m (e - Z.of_N frac).
Proof.
  intros neg s f. split.
  - intros H. unfold parse_number in H. destruct (digit_run s) as (ip & r & Wi & -> & D).
    rewrite digits_numeral in H by assumption. cbv beta iota zeta in H.
    assert (Plain : (if 0 + len ip =? 0 then Err "invalid float literal"
        else match parse_exp r with
             | Some e => Ok (f64_of_decimal neg (number ip) (e - Z.of_N 0))
             | None => Err "invalid float literal" end) = Ok f ->
        exists mantissa exponent m frac e, numeral ip ++ r = mantissa ++ exponent /\
          mantissa_text mantissa m frac /\ exponent_text taken exponent e /\ f = f64_of_decimal neg m (e - Z.of_N frac)).
    { intros K. destruct (0 + len ip =? 0) eqn:Z; [discriminate |].
      destruct (parse_exp r) as [e |] eqn:P; [| discriminate]. injection K as <-. apply parse_exp_iff in P.
      exists (numeral ip), r, (number ip), 0, e. split; [reflexivity |]. split; [| split; [assumption | reflexivity]].
      exists ip, []. rewrite app_nil_r. repeat split; try assumption; [constructor | | left; split; reflexivity].
      intros ->. rewrite len_nil in Z. discriminate. }
    destruct r as [| b r]; [exact (Plain H) |].
    destruct (Byte.eqb b x2e) eqn:B; [| exact (Plain H)]. clear Plain.
    apply byte_eqb_true in B. subst b. destruct (digit_run r) as (fp & q & Wf & -> & D').
    rewrite digits_numeral in H by assumption. cbv beta iota zeta in H.
    destruct (0 + len ip + (0 + len fp) =? 0) eqn:Z; [discriminate |].
    destruct (parse_exp q) as [e |] eqn:P; [| discriminate]. injection H as <-. apply parse_exp_iff in P.
    exists (numeral ip ++ lit "." ++ numeral fp), q, (number (ip ++ fp)), (len fp), e.
    split; [rewrite <- !app_assoc; reflexivity |].
    split; [| split; [assumption |]].
    + exists ip, fp. repeat split; try assumption; [| right; reflexivity].
      intros K. apply app_eq_nil in K. destruct K as [-> ->]. rewrite !len_nil in Z. discriminate.
    + rewrite number_app. reflexivity.
  - intros (mt & ex & m & frac & e & -> & (ip & fp & Wi & Wf & NE & -> & -> & M) & X & ->).
    pose proof (exponent_no_digit ex e X) as D. apply len_pos in NE. rewrite len_app in NE.
    unfold parse_number. destruct M as [[-> ->] | ->].
    + rewrite digits_numeral by assumption. cbv beta iota zeta. rewrite app_nil_r. rewrite len_nil in *.
      destruct ex as [| b ex].
      * replace (0 + len ip =? 0) with false by lia. apply parse_exp_iff in X. rewrite X. reflexivity.
      * rewrite (exponent_head b ex e X). replace (0 + len ip =? 0) with false by lia.
        apply parse_exp_iff in X. rewrite X. reflexivity.
    + rewrite <- !app_assoc. rewrite digits_numeral by (auto; reflexivity). cbv beta iota zeta.
      change (lit "." ++ numeral fp ++ ex) with (x2e :: numeral fp ++ ex). cbv iota.
      rewrite digits_numeral by assumption. change (Byte.eqb x2e x2e) with true. cbv beta iota zeta.
      replace (0 + len ip + (0 + len fp) =? 0) with false by lia.
      apply parse_exp_iff in X. rewrite X, number_app. reflexivity.
Qed.

(** Names *)
Lemma lower_letter : forall b c, 97 <= n_of c <= 122 ->
  (lower b = c <-> b = c \/ n_of b + 32 = n_of c).
Proof.
  intros b c H. unfold lower, in_range. destruct ((65 <=? n_of b) && (n_of b <=? 90)) eqn:R.
  - assert (B : n_of b + 32 < 256) by lia.
    assert (L : exists x, Byte.of_N (n_of b + 32) = Some x /\ n_of x = n_of b + 32).
    { exists (byte_of (n_of b + 32)). pose proof (n_of_byte_of (n_of b + 32)) as V.
      rewrite N.mod_small in V by exact B. split; [| exact V].
      generalize (byte_of (n_of b + 32)) V. intros x <-. apply Byte.of_to_N. }
    destruct L as [x [-> V]]. split.
    + intros <-. right. symmetry. exact V.
    + intros [-> | K]; [lia |]. apply n_of_inj. lia.
  - split; [intros ->; left; reflexivity |]. intros [-> | K]; [reflexivity | lia].
Qed.

Lemma spells_iff : forall w s, Forall (fun c => 97 <= n_of c <= 122) (lit w) ->
  (beq (map lower s) (lit w) = true <-> spells s w).
Proof.
  intros w s H. rewrite beq_eq. unfold spells. revert s. induction (lit w) as [| c l IH]; intros s.
  - destruct s; simpl; split; intros K; try constructor; try discriminate; inv K.
  - inv H. specialize (IH H3). destruct s as [| b s].
    + split; intros K; [discriminate | inv K].
    + cbn [map]. split.
      * intros K. injection K as K1 K2. constructor; [apply lower_letter; assumption | apply IH; assumption].
      * intros K. inv K. f_equal; [apply lower_letter; assumption | apply IH; assumption].
Qed.

Ltac letters := cbn; repeat constructor; vm_compute; discriminate.
Lemma spells_inf : forall s, beq (map lower s) (lit "inf") = true <-> spells s "inf".
Proof. intros. apply spells_iff. letters. Qed.
Lemma spells_infinity : forall s, beq (map lower s) (lit "infinity") = true <-> spells s "infinity".
Proof. intros. apply spells_iff. letters. Qed.
Lemma spells_nan : forall s, beq (map lower s) (lit "nan") = true <-> spells s "nan".
Proof. intros. apply spells_iff. letters. Qed.

(** what an unsigned text may start with *)
Definition head_ok (s : bytes) : Prop :=
  match s with b :: _ => Byte.eqb b x2d = false /\ Byte.eqb b x2b = false | [] => False end.

Lemma strip_sign_head : forall neg sign u, sign_text neg sign -> head_ok u ->
  strip_sign (sign ++ u) = (neg, u).
Proof.
  intros neg sign u S H. destruct u as [| b u]; [contradiction |]. destruct H as [H1 H2]. destruct neg.
  - unfold sign_text in S. subst sign. reflexivity.
  - destruct S as [-> | ->]; [| reflexivity]. cbn [app strip_sign]. rewrite H1, H2. reflexivity.
Qed.

Lemma spells_head : forall s w, spells s w -> match lit w with c :: _ => 97 <= n_of c | [] => False end ->
  head_ok s.
Proof.
  intros s w H L. unfold spells in H. destruct (lit w) as [| c l]; [contradiction |].
  inversion H as [| b c' s' l' HB HT]; subst. simpl.
  split; apply byte_eqb_false; intros ->; destruct HB as [<- | K].
  - vm_compute in L. apply L. reflexivity.
  - change (n_of x2d) with 45 in K. lia.
  - vm_compute in L. apply L. reflexivity.
  - change (n_of x2b) with 43 in K. lia.
Qed.

Lemma mantissa_head : forall s m frac r, mantissa_text s m frac -> number_head (s ++ r).
Proof.
  intros s m frac r (ip & fp & Wi & Wf & NE & _ & _ & M). destruct ip as [| d ip].
  - destruct M as [[-> ->] | ->]; [contradiction NE; reflexivity |].
    exists x2e, (numeral fp ++ r). split; [reflexivity | left; reflexivity].
  - inv Wi. destruct M as [[-> ->] | ->].
    + apply numeral_head. assumption.
    + rewrite <- app_assoc. apply numeral_head. assumption.
Qed.

Lemma number_head_ok : forall s, number_head s -> head_ok s /\
  beq (map lower s) (lit "inf") = false /\ beq (map lower s) (lit "infinity") = false /\
  beq (map lower s) (lit "nan") = false.
Proof.
  intros s [b [r [-> H]]]. destruct (head_facts b H) as [H1 [H2 [H3 [H4 H5]]]].
  split; [split; assumption |]. cbn [map]. rewrite H3.
  apply byte_eqb_false in H4, H5.
  split; [| split]; simpl; rewrite ?H4, ?H5; reflexivity.
Qed.

(** The three kinds of texts *)
Lemma parse_number_text : forall s neg m k, number_text s neg m k ->
  parse_f64 s = Ok (f64_of_decimal neg m k).
Proof.
  intros s neg m k (sign & mt & ex & frac & e & -> & S & M & X & ->).
  destruct (number_head_ok (mt ++ ex) (mantissa_head mt m frac ex M)) as [H [I1 [I2 I3]]].
  rewrite parse_f64_eq, (strip_sign_head neg sign _ S H). unfold parse_unsigned. rewrite I1, I2, I3.
  cbn [orb]. apply parse_number_iff. exists mt, ex, m, frac, e. auto.
Qed.

Lemma parse_infinity_text : forall s neg, infinity_text s neg -> parse_f64 s = Ok (S754_infinity neg).
Proof.
  intros s neg (sign & w & -> & S & W).
  assert (H : head_ok w) by (destruct W as [W | W]; apply (spells_head _ _ W); vm_compute; discriminate).
  rewrite parse_f64_eq, (strip_sign_head neg sign _ S H). unfold parse_unsigned.
  destruct W as [W | W]; [apply spells_inf in W; rewrite W; reflexivity |].
  apply spells_infinity in W. rewrite W, orb_true_r. reflexivity.
Qed.

Lemma parse_nan_text : forall s, nan_text s -> parse_f64 s = Ok S754_nan.
Proof.
  intros s (sign & neg & w & -> & S & W).
  assert (H : head_ok w) by (apply (spells_head _ _ W); vm_compute; discriminate).
  rewrite parse_f64_eq, (strip_sign_head neg sign _ S H). unfold parse_unsigned.
  apply spells_nan in W. apply beq_eq in W. rewrite W. reflexivity.
Qed.

Lemma parse_f64_ok : forall s f, parse_f64 s = Ok f -> float_text s.
Proof.
  intros s f H. rewrite parse_f64_eq in H. destruct (strip_sign s) as [neg u] eqn:S.
  apply strip_sign_inv in S. destruct S as [sign [-> S]]. unfold parse_unsigned in H.
  destruct (beq (map lower u) (lit "inf")) eqn:I1.
  { right; left. exists neg, sign, u. apply spells_inf in I1. auto. }
  destruct (beq (map lower u) (lit "infinity")) eqn:I2.
  { right; left. exists neg, sign, u. apply spells_infinity in I2. auto. }
  destruct (beq (map lower u) (lit "nan")) eqn:I3.
  { right; right. exists sign, neg, u. apply spells_nan in I3. auto. }
  cbn [orb] in H. apply parse_number_iff in H. destruct H as (mt & ex & m & frac & e & -> & M & X & _).
  left. exists neg, m, (e - Z.of_N frac)%Z, sign, mt, ex, frac, e. auto.
Qed.

Lemma parse_f64_accepts : forall s, (exists f, parse_f64 s = Ok f) <-> float_text s.
Proof.
  intros s. split; [intros [f H]; eapply parse_f64_ok; exact H |].
  intros [(neg & m & k & H) | [[neg H] | H]]; eexists;
    [apply parse_number_text | apply parse_infinity_text | apply parse_nan_text]; exact H.
Qed.

(** The double nearest to a decimal number *)
Definition f64_result (f : spec_float) (neg : bool) (x : R) : Prop :=
  SpecFloat.valid_binary 53 1024 f = true /\
  if Rlt_bool (Rabs (r64 x)) (bpow radix2 1024)
  then SF2R radix2 f = r64 x /\ is_finite_SF f = true /\ sign_SF f = neg
  else f = S754_infinity neg.

Lemma real_of_pow10 : forall neg m k,
  real_of neg m k = ((if neg then -1 else 1) * (IZR (Z.of_N m) * pow10 k))%R.
Proof. intros. unfold real_of, pow10. rewrite bpow_powerRZ. simpl radix_val. rewrite Rmult_assoc. reflexivity. Qed.

Lemma binary_round_result : forall neg p,
  f64_result (SpecFloat.binary_round 53 1024 neg p 0) neg ((if neg then -1 else 1) * IZR (Z.pos p)).
Proof.
  intros neg p. rewrite (binary_round_equiv 53 1024).
  generalize (binary_round_correct 53 1024 Hp64 Hm64 mode_NE neg p 0). cbv zeta. intros [V H].
  split; [exact V |].
  replace (F2R (Float radix2 (cond_Zopp neg (Z.pos p)) 0)) with ((if neg then -1 else 1) * IZR (Z.pos p))%R in H.
  - exact H.
  - destruct neg; unfold F2R; cbn [Fnum Fexp cond_Zopp bpow]; [| lra].
    rewrite opp_IZR. lra.
Qed.

Lemma f64_of_decimal_result : forall neg m k, f64_result (f64_of_decimal neg m k) neg (real_of neg m k).
Proof.
  intros neg m k. rewrite real_of_pow10. destruct m as [| p].
  - unfold f64_of_decimal. split; [reflexivity |]. change (Z.of_N 0) with 0%Z. rewrite Rmult_0_l, Rmult_0_r.
    assert (Z : r64 0 = 0%R) by (unfold r64, rnd; apply round_0; auto with typeclass_instances).
    rewrite Z, Rabs_R0. rewrite Rlt_bool_true by apply bpow_gt_0. repeat split.
  - change (Z.of_N (N.pos p)) with (Z.pos p).
    assert (Pos : forall z, (0 < z)%Z ->
      f64_result (SpecFloat.binary_normalize 53 1024 (if neg then - z else z) 0 neg) neg
        ((if neg then -1 else 1) * IZR z)).
    { intros z Hz. destruct z as [| q | q]; try lia. destruct neg; exact (binary_round_result _ q). }
    unfold f64_of_decimal. destruct k as [| j | j].
    + rewrite pow10_nonneg by lia. rewrite <- mult_IZR. apply Pos. lia.
    + rewrite pow10_nonneg by lia. rewrite <- mult_IZR. apply Pos. lia.
    + rewrite pow10_neg.
      assert (T : exists t, (10 ^ Z.pos j)%Z = Z.pos t).
      { assert (0 < 10 ^ Z.pos j)%Z by lia. destruct (10 ^ Z.pos j)%Z; try lia. eauto. }
      destruct T as [t T]. rewrite T.
      generalize (Bdiv_correct_aux 53 1024 Hp64 Hm64 mode_NE neg p 0 false t 0). cbv zeta.
      destruct (SFdiv_core_binary 53 1024 (Z.pos p) 0 (Z.pos t) 0) as [[mz ez] lz].
      rewrite (binary_round_aux_equiv 53 1024). rewrite xorb_false_r. intros [V B].
      split; [exact V |].
      replace (F2R (Float radix2 (cond_Zopp neg (Z.pos p)) 0) / F2R (Float radix2 (cond_Zopp false (Z.pos t)) 0))%R
        with ((if neg then -1 else 1) * (IZR (Z.pos p) * / IZR (Z.pos t)))%R in B; [exact B |].
      unfold Rdiv. destruct neg; unfold F2R; cbn [Fnum Fexp cond_Zopp bpow].
      * rewrite opp_IZR, !Rmult_1_r. ring.
      * rewrite !Rmult_1_r. ring.
Qed.

(** Seconds to nanoseconds, all cases *)
Lemma mantissa_small : forall m e, SpecFloat.bounded 53 1024 m e = true -> (Z.pos m < 2 ^ 53)%Z.
Proof.
  intros m e H. unfold SpecFloat.bounded in H. apply andb_prop in H. destruct H as [H _].
  unfold SpecFloat.canonical_mantissa in H. apply Zeq_bool_eq in H.
  rewrite Digits.Zpos_digits2_pos in H. unfold SpecFloat.fexp in H.
  rewrite <- (Z.abs_eq (Z.pos m)) by lia. apply (Digits.Zpower_gt_Zdigits radix2). lia.
Qed.

Lemma double_r64 : forall x, double x = r64 x.
Proof. reflexivity. Qed.

Lemma from_secs_result : forall f neg x, f64_result f neg x -> (neg = true -> x <= 0)%R -> (neg = false -> 0 <= x)%R ->
  ((0 <= r64 x < 18446744073709551616)%R ->
     exists d, from_secs f = Ret d /\ Z.of_N d = ZnearestE (r64 x * 1000000000)) /\
  ((r64 x < 0 \/ 18446744073709551616 <= r64 x)%R -> from_secs f = Panic PDurationFrom).
Proof.
  intros f neg x [V H] SN SP.
  assert (B64 : (18446744073709551616 < bpow radix2 1024)%R).
  { replace 18446744073709551616%R with (bpow radix2 64) by (simpl; unfold Z.pow_pos; simpl; lra).
    apply bpow_lt. lia. }
  assert (Sn : neg = true -> (r64 x <= 0)%R).
  { intros K. specialize (SN K). replace 0%R with (r64 0) by (unfold r64, rnd; apply round_0; auto with typeclass_instances).
    apply r64_le. exact SN. }
  assert (Sp : neg = false -> (0 <= r64 x)%R).
  { intros K. specialize (SP K). replace 0%R with (r64 0) by (unfold r64, rnd; apply round_0; auto with typeclass_instances).
    apply r64_le. exact SP. }
  destruct (Rlt_bool_spec (Rabs (r64 x)) (bpow radix2 1024)) as [L | L].
  - destruct H as [R [F S]]. destruct neg.
    + specialize (Sn eq_refl). destruct f as [s | s | | s m e]; simpl in F, S; try discriminate; subst s; simpl in R.
      * rewrite <- R. split.
        -- intros _. exists 0. split; [reflexivity |]. rewrite Rmult_0_l. change 0%R with (IZR 0).
           rewrite Znearest_IZR. reflexivity.
        -- intros [K | K]; lra.
      * assert (N : (r64 x < 0)%R).
        { rewrite <- R. apply F2R_lt_0. simpl. lia. }
        split; [intros K; lra | reflexivity].
    + specialize (Sp eq_refl). split.
      * intros [_ K]. apply from_secs_stands; [| exact K]. repeat split; assumption.
      * intros [K | K]; [lra |].
        destruct f as [s | s | | s m e]; simpl in F, S; try discriminate; subst s; simpl in R.
        -- lra.
        -- unfold from_secs. rewrite <- R in K. destruct e as [| k | k].
           ++ rewrite F2R_0e in K. apply le_IZR in K.
              replace (N.pos m <? 18446744073709551616) with false by lia. reflexivity.
           ++ rewrite F2R_pos in K. apply le_IZR in K.
              assert (EQ : (Z.pos m * 2 ^ Z.pos k = Z.of_N (N.pos m * 2 ^ N.pos k))%Z).
              { rewrite N2Z.inj_mul, N2Z.inj_pow. reflexivity. }
              rewrite EQ in K.
              replace (N.pos m * 2 ^ N.pos k <? 18446744073709551616) with false by lia. reflexivity.
           ++ exfalso. simpl in V. apply mantissa_small in V. rewrite F2R_neg in K.
              assert (P : (1 <= IZR (2 ^ Z.pos k))%R) by (apply IZR_le; lia).
              assert (M : (IZR (Z.pos m) < 9007199254740992)%R) by (apply IZR_lt; exact V).
              assert (D : (IZR (Z.pos m) / IZR (2 ^ Z.pos k) <= IZR (Z.pos m))%R).
              { apply Rmult_le_reg_r with (IZR (2 ^ Z.pos k)); [lra |]. unfold Rdiv.
                rewrite Rmult_assoc, Rinv_l, Rmult_1_r by lra.
                assert (0 < IZR (Z.pos m))%R by (apply IZR_lt; lia). nra. }
              lra.
  - subst f. split.
    + intros [K1 K2]. rewrite Rabs_pos_eq in L by exact K1. lra.
    + intros _. destruct neg; reflexivity.
Qed.

Lemma real_of_sign : forall neg m k,
  ((neg = true -> real_of neg m k <= 0) /\ (neg = false -> 0 <= real_of neg m k))%R.
Proof.
  intros neg m k. rewrite real_of_pow10.
  assert (P : (0 <= IZR (Z.of_N m) * pow10 k)%R).
  { apply Rmult_le_pos; [apply IZR_le; lia | apply bpow_ge_0]. }
  split; intros ->; lra.
Qed.

Lemma number_seconds : forall neg m k,
  ((0 <= double (real_of neg m k) < 18446744073709551616)%R ->
     exists d, from_secs (f64_of_decimal neg m k) = Ret d /\
       Z.of_N d = ZnearestE (double (real_of neg m k) * 1000000000)) /\
  ((double (real_of neg m k) < 0 \/ 18446744073709551616 <= double (real_of neg m k))%R ->
     from_secs (f64_of_decimal neg m k) = Panic PDurationFrom).
Proof.
  intros neg m k. rewrite double_r64. destruct (real_of_sign neg m k) as [S1 S2].
  apply (from_secs_result _ neg); [apply f64_of_decimal_result | exact S1 | exact S2].
Qed.

(** What follows an ASCII character starts a character. *)
Lemma encode_char_ascii : forall c b t, scalar c -> encode_char c = b :: t -> n_of b < 128 -> t = [].
Proof.
  intros c b t S H L. unfold encode_char in H. unfold scalar in S.
  destruct (c <? 0x80) eqn:C1; [congruence |]. exfalso.
  destruct (c <? 0x800) eqn:C2; [| destruct (c <? 0x10000) eqn:C3];
    injection H as <- <-; rewrite n_of_small in L by lia; lia.
Qed.

Lemma after_ascii : forall a b c r, utf8_text (a ++ b :: c :: r) -> n_of b < 128 -> is_cont c = false.
Proof.
  intros a b c r [cs [F D]] L. revert a D. induction cs as [| k cs IH]; intros a D.
  - destruct a; discriminate.
  - inversion F as [| ? ? S F']; subst. destruct (char_bytes k S) as [h [t [Q [NH T]]]].
    rewrite encode_text_cons, Q in D. destruct a as [| a0 a].
    + cbn [app] in D. injection D as -> D.
      assert (t = []) by (apply (encode_char_ascii k h t S Q L)). subst t. cbn [app] in D.
      destruct cs as [| k' cs]; [discriminate |]. inversion F' as [| ? ? S' F'']; subst.
      destruct (char_bytes k' S') as [h' [t' [Q' [NH' _]]]]. rewrite encode_text_cons, Q' in D.
      injection D as -> _. exact NH'.
    + cbn [app] in D. injection D as -> D.
      assert (B : is_cont b = false) by (unfold is_cont, in_range; lia).
      clear Q NH.
      assert (G : exists a', a' ++ b :: c :: r = encode_text cs).
      { revert a D. induction t as [| x t IHt]; intros a D.
        - exists a. exact D.
        - inversion T as [| ? ? X T']; subst. destruct a as [| y a]; cbn [app] in D; injection D as -> D.
          + congruence.
          + apply (IHt T' a D). }
      destruct G as [a' G]. exact (IH F' a' G).
Qed.

Lemma ktx_utf8 : forall E data s, ktxstats_string E data = Ret (Ok s) -> utf8_text s.
Proof.
  intros E data s H. unfold ktxstats_string in H. destruct (rfind data VERSION); [| discriminate].
  destruct (usub E usize_bound n TOTAL_HEADER_SIZE) as [o | |]; cbn [bind] in H; try discriminate.
  destruct (ktxstats_loop E (S (length data)) data o []) as [c | |]; cbn [bind] in H; try discriminate.
  destruct (utf8_valid c) eqn:V; [| discriminate]. injection H as <-. apply utf8_valid_iff. exact V.
Qed.

Lemma duration_text_unique : forall s t u, duration_text s t -> duration_text s u -> t = u.
Proof.
  intros s t u [a [b [S [F [NE NC]]]]] [a' [b' [S' [F' [NE' NC']]]]].
  pose proof (first_at_unique _ _ _ _ F F') as L.
  rewrite S in S'. apply app_inj_len in S'; [| exact L]. destruct S' as [_ S']. apply app_inv_head in S'.
  pose proof (first_comma t b NC) as P. pose proof (first_comma u b' NC') as P'. rewrite S' in P.
  pose proof (first_at_unique _ _ _ _ P P') as L'.
  apply app_inj_len in S'; [apply S' | exact L'].
Qed.

Lemma duration_text_dec : forall s, (exists t, duration_text s t) \/
  offsets_between s DURATION_KEY COMMA = Ret None.
Proof.
  intros s. unfold offsets_between. destruct (find s DURATION_KEY) as [i |] eqn:F; [| right; reflexivity].
  apply find_some in F. destruct F as [[a [b [S L]]] M]. subst i.
  rewrite <- len_app. rewrite S at 1. rewrite app_assoc, slice_from_app. cbn [bind].
  destruct (find b COMMA) as [j |] eqn:C; [| right; reflexivity].
  unfold COMMA, lit in C. cbn in C. change (find b [x2c] = Some j) in C.
  apply find_byte_some in C. destruct C as [t [r [B [J NC]]]].
  destruct t as [| t0 t].
  - right. subst j. rewrite len_nil. replace (_ <? _) with false by lia. reflexivity.
  - left. exists (t0 :: t), a, r. split; [| split; [| split; [discriminate | exact NC]]].
    + rewrite S, B. reflexivity.
    + split; [exists a, b; split; [exact S | reflexivity] | exact M].
Qed.

Lemma ktx_text_parsed : forall E data s t, ktxstats_string E data = Ret (Ok s) -> duration_text s t ->
  match_duration_from_ktxstats E data =
    match parse_f64 t with Err e => Ret (Err e) | Ok f => let! d := from_secs f in Ret (Ok d) end.
Proof.
  intros E data s t K [a [b [S [F [NE NC]]]]]. pose proof (ktx_utf8 E data s K) as U.
  assert (B : match t with c :: _ => is_cont c = false | [] => True end).
  { destruct t as [| c t]; [exact I |]. rewrite S in U.
    replace (a ++ lit """duration"": " ++ (c :: t) ++ lit "," ++ b)
      with ((a ++ lit """duration"":") ++ x20 :: c :: (t ++ lit "," ++ b)) in U.
    - apply (after_ascii _ _ _ _ U). reflexivity.
    - rewrite <- app_assoc. reflexivity. }
  unfold match_duration_from_ktxstats. rewrite K. cbn [bind].
  rewrite (offsets_between_at s DURATION_KEY COMMA a t b S F (first_comma t b NC) NE). cbn [bind].
  assert (X : str_slice s (len a + len DURATION_KEY) (len a + len DURATION_KEY + len t) = Ret t).
  { rewrite S, app_assoc, <- len_app. exact (str_slice_mid (a ++ DURATION_KEY) t x2c b B eq_refl). }
  rewrite X. reflexivity.
Qed.

Lemma ktx_text_missing : forall E data s, ktxstats_string E data = Ret (Ok s) ->
  (forall t, ~ duration_text s t) ->
  match_duration_from_ktxstats E data = Ret (Err "Duration not found in ktxstats").
Proof.
  intros E data s K H. unfold match_duration_from_ktxstats. rewrite K. cbn [bind].
  destruct (duration_text_dec s) as [[t D] | D]; [exfalso; exact (H t D) |].
  rewrite D. reflexivity.
Qed.

Lemma stats_number_proof : forall E data s t neg m k,
  ktxstats_string E data = Ret (Ok s) -> duration_text s t -> number_text t neg m k ->
  ((0 <= double (real_of neg m k) < 18446744073709551616)%R ->
   exists d, match_duration_from_ktxstats E data = Ret (Ok d) /\
     Z.of_N d = ZnearestE (double (real_of neg m k) * 1000000000)) /\
  ((double (real_of neg m k) < 0 \/ 18446744073709551616 <= double (real_of neg m k))%R ->
   match_duration_from_ktxstats E data = Panic PDurationFrom).
Proof.
  intros E data s t neg m k K D T. rewrite (ktx_text_parsed E data s t K D), (parse_number_text t neg m k T).
  destruct (number_seconds neg m k) as [H1 H2]. split; intros H.
  - destruct (H1 H) as [d [-> Z]]. exists d. auto.
  - rewrite (H2 H). reflexivity.
Qed.

Lemma stats_special_proof : forall E data s t,
  ktxstats_string E data = Ret (Ok s) -> duration_text s t ->
  (exists neg, infinity_text t neg) \/ nan_text t ->
  match_duration_from_ktxstats E data = Panic PDurationFrom.
Proof.
  intros E data s t K D T. rewrite (ktx_text_parsed E data s t K D).
  destruct T as [[neg T] | T].
  - rewrite (parse_infinity_text t neg T). destruct neg; reflexivity.
  - rewrite (parse_nan_text t T). reflexivity.
Qed.

Lemma parse_f64_err : forall s e, parse_f64 s = Err e -> e = "invalid float literal"%string.
Proof.
  intros s e H. rewrite parse_f64_eq in H. destruct (strip_sign s) as [neg u]. unfold parse_unsigned in H.
  destruct (beq (map lower u) (lit "inf") || beq (map lower u) (lit "infinity")); [discriminate |].
  destruct (beq (map lower u) (lit "nan")); [discriminate |]. unfold parse_number in H.
  destruct (digits u 0 0) as [[v n] u']. 
  destruct (match u' with [] => _ | b :: r => _ end) as [[[v' n'] fr] u''].
  destruct (n' =? 0); [injection H as <-; reflexivity |].
  destruct (parse_exp u''); [discriminate |]. injection H as <-. reflexivity.
Qed.

Lemma stats_other_proof : forall E data s t,
  ktxstats_string E data = Ret (Ok s) -> duration_text s t -> ~ float_text t ->
  match_duration_from_ktxstats E data = Ret (Err "invalid float literal").
Proof.
  intros E data s t K D T. rewrite (ktx_text_parsed E data s t K D).
  destruct (parse_f64 t) as [f | e] eqn:P; [exfalso; apply T; eapply parse_f64_ok; exact P |].
  assert (NE : t <> []) by (destruct D as [a [b [_ [_ [NE _]]]]]; exact NE).
  rewrite (parse_f64_err t e P). reflexivity.
Qed.

Lemma match_source_proof : forall E data r, serverinfo E data = Ret r ->
  (forall s, r = Ok s -> st_mode s <> Some (lit "hoonymode")) ->
  (forall d, match_duration_from_ktxstats E data = Ret (Ok d) -> match_duration E data = Ret (Ok d)) /\
  (forall e, match_duration_from_ktxstats E data = Ret (Err e) ->
     match_duration E data = match_duration_from_seeking E data) /\
  (forall p, match_duration_from_ktxstats E data = Panic p -> match_duration E data = Panic p).
Proof.
  intros E data r S H. split; [| split].
  - intros d K. apply (match_duration_ktx_proof E data r d S H K).
  - intros e K. apply (match_duration_seeking_proof E data r e S H K).
  - intros p K. unfold match_duration. rewrite S. cbn [bind]. rewrite (hoony_false r H), K. reflexivity.
Qed.

Lemma number_text_unique : forall s neg m k neg' m' k', number_text s neg m k -> number_text s neg' m' k' ->
  f64_of_decimal neg m k = f64_of_decimal neg' m' k'.
Proof. intros. apply parse_number_text in H, H0. congruence. Qed.

Lemma double_range_proof : forall x, (0 <= x <= 9223372036854775808)%R ->
  (0 <= double x < 18446744073709551616)%R.
Proof.
  intros x [L U]. rewrite double_r64.
  assert (G : r64 (bpow radix2 63) = bpow radix2 63).
  { unfold r64, rnd. apply round_generic; [auto with typeclass_instances |].
    apply generic_format_bpow. vm_compute; discriminate. }
  assert (Q : bpow radix2 63 = 9223372036854775808%R) by (simpl; unfold Z.pow_pos; simpl; lra).
  rewrite Q in G. split.
  - replace 0%R with (r64 0) by (unfold r64, rnd; apply round_0; auto with typeclass_instances).
    apply r64_le. exact L.
  - apply Rle_lt_trans with (r64 9223372036854775808); [apply r64_le; exact U |]. rewrite G. lra.
Qed.
