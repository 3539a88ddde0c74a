(** What the two single-precision roundings in averages and durations do to integers. *)
From Coq Require Import ZArith Reals Lia Lra Psatz.
From Coq Require Import Floats.SpecFloat.
From Flocq Require Import Core.Core Calc.Operations IEEE754.BinarySingleNaN Relative.
From Verif.Model Require Import Base Float Duration.
From Verif.Proofs Require Import FloatFacts.
Open Scope Z_scope.

Global Instance Hp32 : Prec_gt_0 24 := eq_refl.
Global Instance Hm32 : Prec_lt_emax 24 128 := eq_refl.
Global Instance Hp64 : Prec_gt_0 53 := eq_refl.
Global Instance Hm64 : Prec_lt_emax 53 1024 := eq_refl.

Definition r32 : R -> R := rnd 24 128.
Definition r64 : R -> R := rnd 53 1024.

(** absolute error *)
Lemma rnd_error : forall prec emax, Prec_gt_0 prec -> forall x k,
  (0 <= x < bpow radix2 k)%R -> SpecFloat.emin prec emax <= k - prec ->
  (Rabs (rnd prec emax x - x) <= / 2 * bpow radix2 (k - prec))%R.
Proof.
  intros prec emax Hp x k [X0 X1] He.
  apply Rle_trans with (/ 2 * ulp radix2 (SpecFloat.fexp prec emax) x)%R.
  - unfold rnd. apply error_le_half_ulp. apply fexp_correct. exact Hp.
  - apply Rmult_le_compat_l; [lra |].
    destruct (Req_dec x 0) as [-> | N0].
    + change (SpecFloat.fexp prec emax) with (FLT_exp (SpecFloat.emin prec emax) prec).
      rewrite ulp_FLT_0 by exact Hp. apply bpow_le. exact He.
    + rewrite ulp_neq_0 by exact N0. apply bpow_le. unfold cexp, SpecFloat.fexp.
      assert (mag radix2 x <= k).
      { apply mag_le_bpow; [exact N0 |]. rewrite Rabs_pos_eq by exact X0. exact X1. }
      lia.
Qed.

(** relative error *)
Lemma r32_rel : forall x, (1 / 16777216 <= x)%R -> (r32 x <= x * (1 + / 16777216))%R.
Proof.
  intros x H. unfold r32, rnd.
  change (SpecFloat.fexp 24 128) with (FLT_exp (SpecFloat.emin 24 128) 24).
  destruct (relative_error_N_FLT_ex radix2 (SpecFloat.emin 24 128) 24 Hp32 (fun z => negb (Z.even z)) x) as [eps [He ->]].
  - rewrite Rabs_pos_eq by lra. apply Rle_trans with (1 / 16777216)%R; [| exact H].
    apply Rle_trans with (bpow radix2 (-24)); [apply bpow_le; vm_compute; discriminate |].
    simpl. unfold Z.pow_pos; simpl. lra.
  - apply Rmult_le_compat_l; [lra |]. apply Rplus_le_compat_l.
    apply Rle_trans with (Rabs eps); [apply Rle_abs |].
    apply Rle_trans with (1 := He). simpl. unfold Z.pow_pos; simpl. lra.
Qed.

Lemma r32_int : forall z, 0 <= z <= 16777216 -> r32 (IZR z) = IZR z.
Proof.
  intros z H. unfold r32. destruct (Z.eq_dec z 16777216) as [-> | N].
  - replace (IZR 16777216) with (F2R (Float radix2 1 24)) by (unfold F2R; simpl; unfold Z.pow_pos; simpl; lra).
    apply (rnd_exact 24 128); [reflexivity | vm_compute; discriminate].
  - replace (IZR z) with (F2R (Float radix2 z 0)) by (unfold F2R; simpl; lra).
    apply (rnd_exact 24 128); [change (2 ^ 24) with 16777216; lia | vm_compute; discriminate].
Qed.

(** [z / 2] for odd or even [z] *)
Lemma r32_half : forall z, 0 <= z < 16777216 -> r32 (IZR z / 2) = (IZR z / 2)%R.
Proof.
  intros z H. unfold r32.
  replace (IZR z / 2)%R with (F2R (Float radix2 z (-1))) by (unfold F2R; simpl; lra).
  apply (rnd_exact 24 128); [change (2 ^ 24) with 16777216; lia | vm_compute; discriminate].
Qed.

Lemma r32_le : forall x y, (x <= y)%R -> (r32 x <= r32 y)%R.
Proof. apply (rnd_le 24 128 Hp32). Qed.

Lemma bpow128 : (340282366920938463463374607431768211456 = bpow radix2 128)%R.
Proof. reflexivity. Qed.

Lemma r32_small : forall x, (x <= 18446744073709551616)%R -> (r32 x < bpow radix2 128)%R.
Proof.
  intros x H. apply Rle_lt_trans with (r32 (F2R (Float radix2 1 64))).
  - apply r32_le. unfold F2R; simpl; unfold Z.pow_pos; simpl; lra.
  - unfold r32. rewrite (rnd_exact 24 128); [| reflexivity | vm_compute; discriminate].
    rewrite <- bpow128. unfold F2R; simpl; unfold Z.pow_pos; simpl; lra.
Qed.

(** integers *)
Lemma f32_of_N_stands : forall n, (n < 18446744073709551616)%N -> stands (f32_of_N n) (r32 (IZR (Z.of_N n))).
Proof.
  intros n H. unfold f32_of_N. apply (of_Z_stands 24 128 Hp32 Hm32); [lia |].
  apply r32_small. apply IZR_le. lia.
Qed.

Lemma f32_of_N_exact : forall n, (n <= 16777216)%N -> stands (f32_of_N n) (IZR (Z.of_N n)).
Proof.
  intros n H. rewrite <- r32_int by lia. apply f32_of_N_stands. lia.
Qed.

Lemma f32_div_stands : forall x y a b, stands x a -> stands y b -> (1 <= b)%R -> (a <= 18446744073709551616)%R ->
  stands (f32_div x y) (r32 (a / b)).
Proof.
  intros x y a b Hx Hy Pb La. unfold f32_div. pose proof (stands_ge_0 _ _ Hx) as Pa.
  apply (div_stands 24 128 Hp32 Hm32); try assumption; [lra |].
  apply r32_small. apply Rle_trans with a; [| exact La].
  apply Rmult_le_reg_r with b; [lra |]. unfold Rdiv. rewrite Rmult_assoc, Rinv_l, Rmult_1_r by lra. nra.
Qed.

(** floor of a rounded quotient *)
Lemma floor_quotient : forall a b, 0 <= a < 8388608 -> 0 < b <= 16777216 ->
  Zfloor (r32 (IZR a / IZR b)) = a / b.
Proof.
  intros a b Ha Hb.
  assert (Pb : (1 <= IZR b)%R) by (apply IZR_le; lia).
  set (q := a / b).
  pose proof (Z.div_mod a b ltac:(lia)) as D. pose proof (Z.mod_pos_bound a b ltac:(lia)) as MB. fold q in D.
  assert (Q0 : 0 <= q) by (apply Z.div_pos; lia).
  assert (Qa : q <= a) by (apply Z.div_le_upper_bound; nia).
  apply Zfloor_imp. split.
  - rewrite <- (r32_int q) by lia. apply r32_le.
    apply Rmult_le_reg_r with (IZR b); [lra |]. unfold Rdiv. rewrite Rmult_assoc, Rinv_l, Rmult_1_r by lra.
    rewrite <- mult_IZR. apply IZR_le. lia.
  - assert (X : (IZR a / IZR b <= IZR (q + 1) - / IZR b)%R).
    { apply Rmult_le_reg_r with (IZR b); [lra |]. unfold Rdiv.
      rewrite Rmult_assoc, Rinv_l, Rmult_1_r, Rmult_minus_distr_r, Rinv_l by lra.
      rewrite <- mult_IZR, <- minus_IZR. apply IZR_le. lia. }
    destruct (Z.eq_dec q 0) as [Z0 | N0].
    + rewrite Z0 in X |- *. change (0 + 1) with 1 in *.
      apply Rle_lt_trans with (16777215 / 16777216)%R; [| lra].
      assert (R : r32 (16777215 / 16777216) = (16777215 / 16777216)%R).
      { unfold r32. replace (16777215 / 16777216)%R with (F2R (Float radix2 16777215 (-24)))
          by (unfold F2R; simpl; unfold Z.pow_pos; simpl; lra).
        apply (rnd_exact 24 128); [reflexivity | vm_compute; discriminate]. }
      rewrite <- R. apply r32_le. apply Rle_trans with (1 := X).
      assert (/ 16777216 <= / IZR b)%R; [| lra].
      apply Rinv_le; [lra |]. apply IZR_le. lia.
    + assert (Q1 : 1 <= q) by lia.
      assert (Lo : (1 <= IZR a / IZR b)%R).
      { apply Rmult_le_reg_r with (IZR b); [lra |]. unfold Rdiv. rewrite Rmult_assoc, Rinv_l, Rmult_1_r, Rmult_1_l by lra.
        apply IZR_le. nia. }
      apply Rle_lt_trans with (IZR a / IZR b * (1 + / 16777216))%R; [apply r32_rel; lra |].
      apply Rle_lt_trans with ((IZR (q + 1) - / IZR b) * (1 + / 16777216))%R;
        [apply Rmult_le_compat_r; [lra | exact X] |].
      apply Rmult_lt_reg_r with (IZR b); [lra |].
      replace ((IZR (q + 1) - / IZR b) * (1 + / 16777216) * IZR b)%R
        with ((IZR (q + 1) * IZR b - 1) * (1 + / 16777216))%R by (field; lra).
      rewrite <- mult_IZR.
      assert (B : ((q + 1) * b <= 16777216)) by nia.
      apply IZR_le in B. lra.
Qed.

(** rounding half up of a rounded quotient *)
Lemma half_up_quotient : forall a b, 0 <= a -> 0 < b -> a + b <= 8388608 ->
  Zfloor (r32 (IZR a / IZR b) + / 2) = (2 * a + b) / (2 * b).
Proof.
  intros a b Ha Hb Hab.
  assert (Pb : (1 <= IZR b)%R) by (apply IZR_le; lia).
  set (r := (2 * a + b) / (2 * b)).
  pose proof (Z.div_mod (2 * a + b) (2 * b) ltac:(lia)) as D.
  pose proof (Z.mod_pos_bound (2 * a + b) (2 * b) ltac:(lia)) as MB. fold r in D.
  assert (R0 : 0 <= r) by (apply Z.div_pos; lia).
  assert (Ra : r <= a + 1) by (apply Z.div_le_upper_bound; nia).
  apply Zfloor_imp. rewrite plus_IZR. split.
  - destruct (Z.eq_dec r 0) as [Z0 | N0].
    + rewrite Z0. assert (0 <= r32 (IZR a / IZR b))%R; [| simpl; lra].
      apply (rnd_ge_0 24 128 Hp32). apply Rmult_le_pos; [apply IZR_le; lia |].
      left. apply Rinv_0_lt_compat. lra.
    + assert (L : (IZR (2 * r - 1) / 2 <= r32 (IZR a / IZR b))%R).
      { rewrite <- (r32_half (2 * r - 1)) by lia. apply r32_le.
        apply Rmult_le_reg_r with (2 * IZR b)%R; [lra |].
        replace (IZR (2 * r - 1) / 2 * (2 * IZR b))%R with (IZR (2 * r - 1) * IZR b)%R by field.
        replace (IZR a / IZR b * (2 * IZR b))%R with (2 * IZR a)%R by (field; lra).
        rewrite <- !mult_IZR. apply IZR_le. nia. }
      rewrite minus_IZR, mult_IZR in L. lra.
  - assert (X : (IZR a / IZR b <= IZR r + / 2 - / (2 * IZR b))%R).
    { apply Rmult_le_reg_r with (2 * IZR b)%R; [lra |].
      replace (IZR a / IZR b * (2 * IZR b))%R with (2 * IZR a)%R by (field; lra).
      replace ((IZR r + / 2 - / (2 * IZR b)) * (2 * IZR b))%R with (2 * IZR r * IZR b + IZR b - 1)%R by (field; lra).
      rewrite <- !mult_IZR, <- plus_IZR, <- minus_IZR. apply IZR_le. nia. }
    assert (G : (r32 (IZR a / IZR b) < IZR r + / 2)%R); [| simpl; lra].
    destruct (Z.eq_dec r 0) as [Z0 | N0].
    + rewrite Z0 in X |- *.
      apply Rle_lt_trans with (16777215 / 33554432)%R; [| simpl; lra].
      assert (R : r32 (16777215 / 33554432) = (16777215 / 33554432)%R).
      { unfold r32. replace (16777215 / 33554432)%R with (F2R (Float radix2 16777215 (-25)))
          by (unfold F2R; simpl; unfold Z.pow_pos; simpl; lra).
        apply (rnd_exact 24 128); [reflexivity | vm_compute; discriminate]. }
      rewrite <- R. apply r32_le. apply Rle_trans with (1 := X).
      assert (/ 33554432 <= / (2 * IZR b))%R; [| simpl; lra].
      apply Rinv_le; [lra |]. assert (IZR b <= 8388608)%R by (apply IZR_le; lia). lra.
    + assert (Lo : (1 / 16777216 <= IZR a / IZR b)%R).
      { apply Rmult_le_reg_r with (IZR b); [lra |]. unfold Rdiv at 2. rewrite Rmult_assoc, Rinv_l, Rmult_1_r by lra.
        assert (1 <= a) by nia. assert (IZR b <= 8388608)%R by (apply IZR_le; lia).
        assert (1 <= IZR a)%R by (apply IZR_le; lia). lra. }
      apply Rle_lt_trans with (IZR a / IZR b * (1 + / 16777216))%R; [apply r32_rel; exact Lo |].
      apply Rle_lt_trans with ((IZR r + / 2 - / (2 * IZR b)) * (1 + / 16777216))%R;
        [apply Rmult_le_compat_r; [lra | exact X] |].
      apply Rmult_lt_reg_r with (2 * IZR b)%R; [lra |].
      replace ((IZR r + / 2 - / (2 * IZR b)) * (1 + / 16777216) * (2 * IZR b))%R
        with ((2 * IZR r * IZR b + IZR b - 1) * (1 + / 16777216))%R by (field; lra).
      replace ((IZR r + / 2) * (2 * IZR b))%R with (2 * IZR r * IZR b + IZR b)%R by field.
      rewrite <- !mult_IZR, <- !plus_IZR.
      assert (B : (2 * r * b + b <= 16777216)) by nia.
      apply IZR_le in B. lra.
Qed.

(** [sum as f32 / count as f32] truncated, as pings are averaged *)
Lemma average_floor : forall sum count, (sum < 65536)%N -> (0 < count < 9223372036854775808)%N ->
  f32_to_u32 (f32_div (f32_of_N sum) (f32_of_N count)) = (sum / count)%N.
Proof.
  intros sum count Hs Hc. apply N2Z.inj. rewrite N2Z.inj_div.
  pose proof (f32_of_N_exact sum ltac:(lia)) as Ss.
  destruct (N.le_gt_cases count 16777216) as [C | C].
  - pose proof (f32_of_N_exact count C) as Sc.
    rewrite (f32_to_u32_stands _ (r32 (IZR (Z.of_N sum) / IZR (Z.of_N count)))).
    + rewrite floor_quotient by lia. apply Z.min_r.
      apply Z.le_trans with (Z.of_N sum); [| lia]. apply Z.div_le_upper_bound; nia.
    + apply f32_div_stands; auto; apply IZR_le; lia.
  - pose proof (f32_of_N_stands count ltac:(lia)) as Sc.
    assert (B : (16777216 <= r32 (IZR (Z.of_N count)))%R).
    { rewrite <- (r32_int 16777216) by lia. apply r32_le. apply IZR_le. lia. }
    rewrite (f32_to_u32_stands _ (r32 (IZR (Z.of_N sum) / r32 (IZR (Z.of_N count))))).
    + rewrite (Z.div_small (Z.of_N sum) (Z.of_N count)) by lia.
      replace (Zfloor _) with 0; [reflexivity |]. symmetry. apply Zfloor_imp. split.
      * apply (rnd_ge_0 24 128 Hp32). apply Rmult_le_pos; [apply IZR_le; lia |].
        left. apply Rinv_0_lt_compat. lra.
      * apply Rle_lt_trans with (r32 (1 / 2)).
        -- apply r32_le. apply Rmult_le_reg_r with (r32 (IZR (Z.of_N count))); [lra |].
           unfold Rdiv at 1. rewrite Rmult_assoc, Rinv_l, Rmult_1_r by lra.
           assert (IZR (Z.of_N sum) <= 65536)%R by (apply IZR_le; lia). lra.
        -- change 1%R with (IZR 1) at 1. rewrite r32_half by lia. simpl. lra.
    + apply f32_div_stands; auto; [lra | apply IZR_le; lia].
Qed.

(** [(ping as f32 / players as f32).round()] *)
Lemma average_half_up : forall sum count, (0 < count)%N -> (sum + count <= 8388608)%N ->
  f32_round_to_u32 (f32_div (f32_of_N sum) (f32_of_N count)) = ((2 * sum + count) / (2 * count))%N.
Proof.
  intros sum count Hc H. apply N2Z.inj. rewrite N2Z.inj_div.
  pose proof (f32_of_N_exact sum ltac:(lia)) as Ss. pose proof (f32_of_N_exact count ltac:(lia)) as Sc.
  rewrite (f32_round_to_u32_stands _ (r32 (IZR (Z.of_N sum) / IZR (Z.of_N count)))).
  - rewrite half_up_quotient by lia. rewrite N2Z.inj_add, !N2Z.inj_mul. cbn [Z.of_N]. apply Z.min_r.
    apply Z.le_trans with (Z.of_N sum + 1); [| lia]. apply Z.div_le_upper_bound; nia.
  - apply f32_div_stands; auto; apply IZR_le; lia.
Qed.

(** Milliseconds to durations *)

Lemma r32_ge_0 : forall x, (0 <= x)%R -> (0 <= r32 x)%R.
Proof. apply (rnd_ge_0 24 128 Hp32). Qed.

Lemma ZnearestE_le : forall x y, (x <= y)%R -> ZnearestE x <= ZnearestE y.
Proof. intros. apply Zrnd_le; [apply valid_rnd_N | assumption]. Qed.

Definition secs_of_ms (ms : Z) : R := r32 (r32 (IZR ms) / 1000).

Lemma duration_of_ms_value : forall ms, (ms < 4294967296)%N ->
  exists d, duration_of_ms ms = Ret d /\ Z.of_N d = ZnearestE (secs_of_ms (Z.of_N ms) * 1000000000).
Proof.
  intros ms H. unfold duration_of_ms.
  pose proof (f32_of_N_stands ms ltac:(lia)) as Sm. pose proof (f32_of_N_exact 1000 ltac:(lia)) as Sk.
  change (Z.of_N 1000) with 1000 in Sk.
  assert (L : (r32 (IZR (Z.of_N ms)) <= 4294967296)%R).
  { replace 4294967296%R with (r32 (F2R (Float radix2 1 32))).
    - apply r32_le. unfold F2R; simpl; unfold Z.pow_pos; simpl. rewrite Rmult_1_l. apply IZR_le. lia.
    - unfold r32. rewrite (rnd_exact 24 128); [| reflexivity | vm_compute; discriminate].
      unfold F2R; simpl; unfold Z.pow_pos; simpl; lra. }
  apply (from_secs_stands _ (secs_of_ms (Z.of_N ms))).
  - apply f32_div_stands; auto; lra.
  - unfold secs_of_ms. apply Rle_lt_trans with (r32 (F2R (Float radix2 1 32))).
    + apply r32_le. unfold F2R; simpl; unfold Z.pow_pos; simpl. pose proof (stands_ge_0 _ _ Sm). lra.
    + unfold r32. rewrite (rnd_exact 24 128); [| reflexivity | vm_compute; discriminate].
      unfold F2R; simpl; unfold Z.pow_pos; simpl; lra.
Qed.

Lemma secs_of_ms_mono : forall a b, a <= b -> (secs_of_ms a <= secs_of_ms b)%R.
Proof.
  intros a b H. unfold secs_of_ms. apply r32_le. apply Rmult_le_compat_r; [lra |].
  apply r32_le. apply IZR_le. exact H.
Qed.

Lemma duration_of_ms_mono : forall a b da db, (a <= b < 4294967296)%N ->
  duration_of_ms a = Ret da -> duration_of_ms b = Ret db -> (da <= db)%N.
Proof.
  intros a b da db H A B.
  destruct (duration_of_ms_value a ltac:(lia)) as [da' [A' VA]].
  destruct (duration_of_ms_value b ltac:(lia)) as [db' [B' VB]].
  rewrite A in A'. rewrite B in B'. inversion A'; inversion B'; subst.
  apply N2Z.inj_le. rewrite VA, VB. apply ZnearestE_le. apply Rmult_le_compat_r; [lra |].
  apply secs_of_ms_mono. lia.
Qed.

Lemma secs_exact_arg : forall ms, 0 <= ms <= 16777216 -> secs_of_ms ms = r32 (IZR ms / 1000).
Proof. intros. unfold secs_of_ms. rewrite r32_int by assumption. reflexivity. Qed.

Lemma Znearest_near : forall x, (Rabs (IZR (ZnearestE x) - x) <= / 2)%R.
Proof. intros. rewrite Rabs_minus_sym. apply Znearest_half. Qed.

Lemma duration_of_ms_error : forall ms, (ms < 16384000)%N ->
  exists d, duration_of_ms ms = Ret d /\
    2 * Z.abs (Z.of_N d - 1000000 * Z.of_N ms) < 1000000.
Proof.
  intros ms H. destruct (duration_of_ms_value ms ltac:(lia)) as [d [D V]]. exists d. split; [exact D |].
  rewrite secs_exact_arg in V by lia. set (x := (IZR (Z.of_N ms) / 1000)%R) in V.
  assert (X0 : (0 <= IZR (Z.of_N ms))%R) by (apply IZR_le; lia).
  assert (X1 : (IZR (Z.of_N ms) <= 16383999)%R) by (apply IZR_le; lia).
  assert (Er : (Rabs (r32 x - x) <= / 2 * bpow radix2 (14 - 24))%R).
  { apply (rnd_error 24 128 Hp32); [| vm_compute; discriminate].
    unfold x. simpl. unfold Z.pow_pos; simpl. lra. }
  simpl in Er. unfold Z.pow_pos in Er; simpl in Er.
  pose proof (Znearest_near (r32 x * 1000000000)) as Nr. rewrite <- V in Nr.
  apply Rabs_le_inv in Er. apply Rabs_le_inv in Nr.
  assert (B : (-499999 < IZR (Z.of_N d - 1000000 * Z.of_N ms) < 499999)%R).
  { rewrite minus_IZR, mult_IZR. unfold x in Er, Nr. lra. }
  destruct B as [B1 B2]. apply lt_IZR in B1. apply lt_IZR in B2. lia.
Qed.

Lemma duration_of_ms_secs : forall ms, (ms < 16777216)%N ->
  exists d, duration_of_ms ms = Ret d /\ (d / 1000000000 = ms / 1000)%N.
Proof.
  intros ms H. destruct (duration_of_ms_value ms ltac:(lia)) as [d [D V]]. exists d. split; [exact D |].
  rewrite secs_exact_arg in V by lia. set (x := (IZR (Z.of_N ms) / 1000)%R) in V.
  apply N2Z.inj. rewrite !N2Z.inj_div. change (Z.of_N 1000000000) with 1000000000. change (Z.of_N 1000) with 1000.
  set (M := Z.of_N ms) in *. set (q := M / 1000).
  pose proof (Z.div_mod M 1000 ltac:(lia)) as DM. pose proof (Z.mod_pos_bound M 1000 ltac:(lia)) as MB. fold q in DM.
  assert (HM : 0 <= M < 16777216) by (unfold M; lia).
  assert (L : q * 1000000000 <= Z.of_N d).
  { rewrite V, <- (Znearest_IZR (q * 1000000000)). apply ZnearestE_le. rewrite mult_IZR.
    apply Rmult_le_compat_r; [lra |]. rewrite <- (r32_int q) by lia. apply r32_le. unfold x.
    apply Rmult_le_reg_r with 1000%R; [lra |]. unfold Rdiv. rewrite Rmult_assoc, Rinv_l, Rmult_1_r by lra.
    rewrite <- mult_IZR. apply IZR_le. lia. }
  assert (U : Z.of_N d < (q + 1) * 1000000000).
  { assert (X0 : (0 <= IZR M)%R) by (apply IZR_le; lia).
    assert (X1 : (IZR M <= 16777215)%R) by (apply IZR_le; lia).
    assert (X2 : (x <= IZR (q + 1) - / 1000)%R).
    { unfold x. apply Rmult_le_reg_r with 1000%R; [lra |].
      replace (IZR M / 1000 * 1000)%R with (IZR M) by field.
      replace ((IZR (q + 1) - / 1000) * 1000)%R with (IZR (q + 1) * 1000 - 1)%R by field.
      rewrite <- mult_IZR, <- minus_IZR. apply IZR_le. lia. }
    assert (Er : (Rabs (r32 x - x) <= / 2 * bpow radix2 (15 - 24))%R).
    { apply (rnd_error 24 128 Hp32); [| vm_compute; discriminate].
      unfold x. simpl. unfold Z.pow_pos; simpl. lra. }
    simpl in Er. unfold Z.pow_pos in Er; simpl in Er.
    pose proof (Znearest_near (r32 x * 1000000000)) as Nr. rewrite <- V in Nr.
    apply Rabs_le_inv in Er. apply Rabs_le_inv in Nr.
    apply lt_IZR. rewrite mult_IZR. lra. }
  rewrite (Z.div_unique (Z.of_N d) 1000000000 q (Z.of_N d - 1000000000 * q)); lia.
Qed.

Lemma duration_of_ms_whole : forall s, (s <= 16777)%N ->
  duration_of_ms (1000 * s) = Ret (s * 1000000000)%N.
Proof.
  intros s H. destruct (duration_of_ms_value (1000 * s) ltac:(lia)) as [d [-> V]]. f_equal.
  apply N2Z.inj. rewrite V, secs_exact_arg by lia.
  replace (IZR (Z.of_N (1000 * s)) / 1000)%R with (IZR (Z.of_N s)).
  - rewrite r32_int by lia. rewrite <- mult_IZR, Znearest_IZR. lia.
  - rewrite N2Z.inj_mul, mult_IZR. simpl. field.
Qed.

(** Decimal numbers to doubles *)
Definition pow10 (k : Z) : R := bpow (Build_radix 10 eq_refl) k.

Lemma pow10_neg : forall j, pow10 (Zneg j) = (/ IZR (10 ^ Zpos j))%R.
Proof. reflexivity. Qed.
Lemma pow10_nonneg : forall k, 0 <= k -> pow10 k = IZR (10 ^ k).
Proof. intros k H. symmetry. exact (IZR_Zpower (Build_radix 10 eq_refl) k H). Qed.

Lemma r64_le : forall x y, (x <= y)%R -> (r64 x <= r64 y)%R.
Proof. apply (rnd_le 53 1024 Hp64). Qed.

Lemma r64_small : forall x, (x <= 18446744073709551616)%R -> (r64 x < bpow radix2 1024)%R.
Proof.
  intros x H. apply Rle_lt_trans with (r64 (bpow radix2 64)).
  - apply r64_le. simpl. unfold Z.pow_pos; simpl. lra.
  - unfold r64. replace (bpow radix2 64) with (F2R (Float radix2 1 64)) by (unfold F2R; simpl; lra).
    rewrite (rnd_exact 53 1024); [| reflexivity | vm_compute; discriminate].
    unfold F2R. cbn [Fnum Fexp]. rewrite Rmult_1_l. apply bpow_lt. lia.
Qed.

Lemma f64_of_decimal_stands : forall m k,
  (IZR (Z.of_N m) * pow10 k <= 18446744073709551616)%R ->
  stands (f64_of_decimal false m k) (r64 (IZR (Z.of_N m) * pow10 k)).
Proof.
  intros m k H. destruct m as [| p].
  - unfold f64_of_decimal, stands. simpl. repeat split. rewrite Rmult_0_l.
    unfold r64, rnd. rewrite round_0; auto with typeclass_instances.
  - change (Z.of_N (N.pos p)) with (Z.pos p) in *.
    assert (Pos : forall z, 0 <= z -> (IZR z <= 18446744073709551616)%R ->
              stands (SpecFloat.binary_normalize 53 1024 z 0 false) (r64 (IZR z))).
    { intros z Hz L. apply (of_Z_stands 53 1024 Hp64 Hm64); [exact Hz |]. apply r64_small. exact L. }
    unfold f64_of_decimal. destruct k as [| j | j].
    + rewrite pow10_nonneg in * by lia. rewrite <- mult_IZR in *. apply Pos; [lia | exact H].
    + rewrite pow10_nonneg in * by lia. rewrite <- mult_IZR in *. apply Pos; [lia | exact H].
    + rewrite pow10_neg in *.
      assert (T : exists t, 10 ^ Z.pos j = Z.pos t).
      { assert (0 < 10 ^ Z.pos j) by lia. destruct (10 ^ Z.pos j); try lia. eauto. }
      destruct T as [t T]. rewrite T in *.
      generalize (Bdiv_correct_aux 53 1024 Hp64 Hm64 mode_NE false p 0 false t 0). cbv zeta. intros [_ B].
      destruct (SFdiv_core_binary 53 1024 (Z.pos p) 0 (Z.pos t) 0) as [[mz ez] lz].
      rewrite binary_round_aux_equiv. simpl xorb in *.
      change (cond_Zopp false (Z.pos p)) with (Z.pos p) in B.
      change (cond_Zopp false (Z.pos t)) with (Z.pos t) in B.
      rewrite !F2R_0e in B.
      change (round radix2 (SpecFloat.fexp 53 1024) (round_mode mode_NE) (IZR (Z.pos p) / IZR (Z.pos t)))
        with (r64 (IZR (Z.pos p) * / IZR (Z.pos t))) in B.
      rewrite Rlt_bool_true in B.
      * destruct B as [B1 [B2 B3]]. repeat split; assumption.
      * rewrite Rabs_pos_eq; [apply r64_small; exact H |]. apply (rnd_ge_0 53 1024 Hp64).
        apply Rmult_le_pos; [apply IZR_le; lia |]. left. apply Rinv_0_lt_compat. apply IZR_lt. lia.
Qed.

(** A decimal with at most nine fractional digits below 2^23 gives exactly that many
    nanoseconds. *)
Lemma from_secs_decimal : forall m k, 0 <= k <= 9 ->
  (Z.of_N m < 8388608 * 10 ^ k) ->
  from_secs (f64_of_decimal false m (- k)) = Ret (m * 10 ^ Z.to_N (9 - k))%N.
Proof.
  intros m k Hk Hm.
  assert (P : (pow10 (- k) = / IZR (10 ^ k))%R).
  { unfold pow10. rewrite bpow_opp. f_equal. exact (pow10_nonneg k (proj1 Hk)). }
  assert (T : 1 <= 10 ^ k) by (apply (Z.pow_le_mono_r 10 0 k); lia).
  assert (TR : (1 <= IZR (10 ^ k))%R) by (apply IZR_le; exact T).
  set (x := (IZR (Z.of_N m) * pow10 (- k))%R).
  assert (X0 : (0 <= x)%R).
  { unfold x. rewrite P. apply Rmult_le_pos; [apply IZR_le; lia |]. left. apply Rinv_0_lt_compat. lra. }
  assert (X1 : (x < 8388608)%R).
  { unfold x. rewrite P. apply Rmult_lt_reg_r with (IZR (10 ^ k)); [lra |].
    rewrite Rmult_assoc, Rinv_l, Rmult_1_r by lra. rewrite <- mult_IZR. apply IZR_lt. exact Hm. }
  assert (X2 : (x <= 18446744073709551616)%R) by lra.
  pose proof (f64_of_decimal_stands m (- k) X2) as S. fold x in S.
  assert (Er : (Rabs (r64 x - x) <= / 2 * bpow radix2 (23 - 53))%R).
  { apply (rnd_error 53 1024 Hp64); [| vm_compute; discriminate]. simpl. unfold Z.pow_pos; simpl. lra. }
  simpl in Er. unfold Z.pow_pos in Er; simpl in Er. apply Rabs_le_inv in Er.
  destruct (from_secs_stands _ _ S) as [d [-> V]]; [lra |]. f_equal. apply N2Z.inj. rewrite V.
  assert (XI : (x * 1000000000 = IZR (Z.of_N (m * 10 ^ Z.to_N (9 - k))))%R).
  { rewrite N2Z.inj_mul, N2Z.inj_pow, Z2N.id by lia. change (Z.of_N 10) with 10.
    unfold x. rewrite P, mult_IZR.
    replace 1000000000%R with (IZR (10 ^ k * 10 ^ (9 - k))).
    - rewrite mult_IZR. field. lra.
    - rewrite <- Z.pow_add_r by lia. replace (k + (9 - k)) with 9 by lia. reflexivity. }
  apply Znearest_imp. rewrite <- XI. apply Rabs_lt. lra.
Qed.
