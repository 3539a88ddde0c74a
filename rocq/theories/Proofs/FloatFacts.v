(** The executable floats of [Model/Float.v] and the real numbers they stand for (through
    Flocq's [SF2R] and [round]). *)
From Coq Require Import ZArith Reals Lia Lra Psatz.
From Coq Require Import Floats.SpecFloat.
From Flocq Require Import Core.Core Calc.Operations IEEE754.BinarySingleNaN Relative.
From Verif.Model Require Import Base Float.
Open Scope Z_scope.

Section Generic.
  Context (prec emax : Z) (Hp : Prec_gt_0 prec) (Hm : Prec_lt_emax prec emax).

  (** rounding to nearest, ties to even *)
  Definition rnd (x : R) : R := round radix2 (SpecFloat.fexp prec emax) ZnearestE x.

  Global Instance fexp_valid : Valid_exp (SpecFloat.fexp prec emax) := fexp_correct prec emax Hp.

  (** [x] is a finite float that is not negative and has the value [r] *)
  Definition stands (x : spec_float) (r : R) : Prop :=
    is_finite_SF x = true /\ sign_SF x = false /\ SF2R radix2 x = r.

  Lemma round_nearest_even_equiv : forall s m l,
    round_nearest_even m l = choice_mode mode_NE s m l.
  Proof.
    intros s m l. case l; [reflexivity | intro c].
    case c; [| reflexivity ..]. now simpl; unfold Round.cond_incr; case Z.even.
  Qed.

  Lemma binary_round_aux_equiv : forall sx mx ex lx,
    SpecFloat.binary_round_aux prec emax sx mx ex lx
    = BinarySingleNaN.binary_round_aux prec emax mode_NE sx mx ex lx.
  Proof.
    intros. unfold SpecFloat.binary_round_aux, BinarySingleNaN.binary_round_aux.
    set (mrse' := shr_fexp _ _ _ _ _). case mrse'; intros mrs' e'; simpl.
    now rewrite (round_nearest_even_equiv sx).
  Qed.

  Lemma binary_round_equiv : forall s m e,
    SpecFloat.binary_round prec emax s m e = BinarySingleNaN.binary_round prec emax mode_NE s m e.
  Proof.
    intros. unfold SpecFloat.binary_round, BinarySingleNaN.binary_round, shl_align_fexp.
    set (mez := shl_align _ _ _); case mez as [mz ez]. apply binary_round_aux_equiv.
  Qed.

  Lemma rnd_ge_0 : forall x, (0 <= x)%R -> (0 <= rnd x)%R.
  Proof. intros x H. unfold rnd. rewrite <- (round_0 radix2 (SpecFloat.fexp prec emax) ZnearestE). apply round_le; auto with typeclass_instances. Qed.

  Lemma rnd_le : forall x y, (x <= y)%R -> (rnd x <= rnd y)%R.
  Proof. intros. unfold rnd. apply round_le; auto with typeclass_instances. Qed.

  (** integers to floats *)
  Lemma of_Z_stands : forall z, 0 <= z -> (rnd (IZR z) < bpow radix2 emax)%R ->
    stands (SpecFloat.binary_normalize prec emax z 0 false) (rnd (IZR z)).
  Proof.
    intros z Hz Ho. unfold SpecFloat.binary_normalize. destruct z as [| p | p]; [| | lia].
    - unfold stands. simpl. repeat split. unfold rnd. rewrite round_0; auto with typeclass_instances.
    - rewrite binary_round_equiv.
      generalize (binary_round_correct prec emax Hp Hm mode_NE false p 0). cbv zeta. intros [_ H].
      change (F2R (Float radix2 (cond_Zopp false (Z.pos p)) 0)) with (F2R (Float radix2 (Z.pos p) 0)) in H.
      replace (F2R (Float radix2 (Z.pos p) 0)) with (IZR (Z.pos p)) in H by (unfold F2R; simpl; lra).
      change (round radix2 (SpecFloat.fexp prec emax) (round_mode mode_NE) (IZR (Z.pos p))) with (rnd (IZR (Z.pos p))) in H.
      rewrite Rlt_bool_true in H.
      + destruct H as [H1 [H2 H3]]. repeat split; assumption.
      + rewrite Rabs_pos_eq; [exact Ho |]. apply rnd_ge_0. apply IZR_le. lia.
  Qed.

  Lemma rnd_exact : forall m e, Z.abs m < 2 ^ prec -> SpecFloat.emin prec emax <= e ->
    rnd (F2R (Float radix2 m e)) = F2R (Float radix2 m e).
  Proof.
    intros m e Hmm He. unfold rnd. apply round_generic; auto with typeclass_instances.
    apply (generic_format_FLT radix2 (SpecFloat.emin prec emax) prec).
    exists (Float radix2 m e); [reflexivity | exact Hmm | exact He].
  Qed.

  Lemma stands_finite : forall x r, stands x r -> (0 < r)%R ->
    exists m e, x = S754_finite false m e /\ r = F2R (Float radix2 (Zpos m) e).
  Proof.
    intros x r [F [S V]] P. destruct x as [s | s | | s m e]; simpl in *; try discriminate; try lra.
    subst s. exists m, e. split; [reflexivity | symmetry; exact V].
  Qed.

  Lemma stands_ge_0 : forall x r, stands x r -> (0 <= r)%R.
  Proof.
    intros x r [F [S V]]. destruct x as [s | s | | s m e]; simpl in *; try discriminate; subst r; try lra.
    subst s. apply F2R_ge_0. simpl. lia.
  Qed.

  (** division *)
  Lemma div_stands : forall x y a b, stands x a -> stands y b -> (0 < b)%R ->
    (rnd (a / b) < bpow radix2 emax)%R ->
    stands (SFdiv prec emax x y) (rnd (a / b)).
  Proof.
    intros x y a b Hx Hy Pb Ho.
    destruct (stands_finite y b Hy Pb) as [my [ey [-> Eb]]].
    pose proof (stands_ge_0 _ _ Hx) as Pa. destruct Hx as [F [S V]].
    destruct x as [s | s | | s mx ex]; simpl in F, S; try discriminate; subst s.
    - simpl in V. subst a. unfold SFdiv. unfold stands. simpl. repeat split.
      unfold Rdiv. rewrite Rmult_0_l. unfold rnd. rewrite round_0; auto with typeclass_instances.
    - generalize (Bdiv_correct_aux prec emax Hp Hm mode_NE false mx ex false my ey).
      cbv zeta. intros [_ H]. unfold SFdiv.
      destruct (SFdiv_core_binary prec emax (Z.pos mx) ex (Z.pos my) ey) as [[mz ez] lz].
      rewrite binary_round_aux_equiv. simpl xorb in *.
      change (cond_Zopp false (Z.pos mx)) with (Z.pos mx) in H.
      change (cond_Zopp false (Z.pos my)) with (Z.pos my) in H.
      simpl in V. rewrite V, <- Eb in H.
      change (round radix2 (SpecFloat.fexp prec emax) (round_mode mode_NE) (a / b)) with (rnd (a / b)) in H.
      rewrite Rlt_bool_true in H.
      + destruct H as [H1 [H2 H3]]. repeat split; assumption.
      + rewrite Rabs_pos_eq; [exact Ho |]. apply rnd_ge_0. apply Rmult_le_pos; [exact Pa |].
        left. apply Rinv_0_lt_compat. exact Pb.
  Qed.
End Generic.

(** Integer parts *)
Lemma F2R_neg : forall m k, F2R (Float radix2 (Zpos m) (Zneg k)) = (IZR (Zpos m) / IZR (2 ^ Zpos k))%R.
Proof. intros. unfold F2R, Rdiv. reflexivity. Qed.

Lemma F2R_pos : forall m k, F2R (Float radix2 (Zpos m) (Zpos k)) = IZR (Zpos m * 2 ^ Zpos k).
Proof. intros. unfold F2R. rewrite mult_IZR. reflexivity. Qed.

Lemma F2R_0e : forall m, F2R (Float radix2 (Zpos m) 0) = IZR (Zpos m).
Proof. intros. unfold F2R. simpl. lra. Qed.

Lemma Zfloor_div : forall a b, 0 < b -> Zfloor (IZR a / IZR b) = a / b.
Proof.
  intros a b H. apply Zfloor_imp.
  pose proof (Z.div_mod a b ltac:(lia)) as D. pose proof (Z.mod_pos_bound a b H) as B.
  assert (Pb : (0 < IZR b)%R) by (apply IZR_lt; lia).
  split.
  - apply Rmult_le_reg_r with (IZR b); [exact Pb |]. unfold Rdiv. rewrite Rmult_assoc, Rinv_l, Rmult_1_r by lra.
    rewrite <- mult_IZR. apply IZR_le. lia.
  - apply Rmult_lt_reg_r with (IZR b); [exact Pb |]. unfold Rdiv. rewrite Rmult_assoc, Rinv_l, Rmult_1_r by lra.
    rewrite <- mult_IZR. apply IZR_lt. lia.
Qed.

Lemma floor_scaled_spec : forall m e,
  Z.of_N (floor_scaled m e) = Zfloor (F2R (Float radix2 (Zpos m) e)).
Proof.
  intros m e. destruct e as [| k | k]; unfold floor_scaled.
  - rewrite F2R_0e, Zfloor_IZR. reflexivity.
  - rewrite F2R_pos, Zfloor_IZR, N2Z.inj_mul, N2Z.inj_pow. reflexivity.
  - rewrite F2R_neg, Zfloor_div by lia. rewrite N2Z.inj_div, N2Z.inj_pow. reflexivity.
Qed.

Lemma round_scaled_spec : forall m e,
  Z.of_N (round_scaled m e) = Zfloor (F2R (Float radix2 (Zpos m) e) + / 2).
Proof.
  intros m e. destruct e as [| k | k]; unfold round_scaled.
  - rewrite F2R_0e. symmetry. apply Zfloor_imp. rewrite plus_IZR. simpl. lra.
  - rewrite F2R_pos, N2Z.inj_mul, N2Z.inj_pow. symmetry. apply Zfloor_imp. rewrite plus_IZR. simpl. lra.
  - rewrite F2R_neg. rewrite N2Z.inj_div, N2Z.inj_add, !N2Z.inj_mul, !N2Z.inj_pow. cbn [Z.of_N].
    rewrite <- Zfloor_div by lia. f_equal. rewrite plus_IZR, !mult_IZR.
    assert ((0 < IZR (2 ^ Z.pos k))%R) by (apply IZR_lt; lia). field. lra.
Qed.

Lemma div_half_even_spec : forall a b, (0 < b)%N ->
  Z.of_N (div_half_even a b) = ZnearestE (IZR (Z.of_N a) / IZR (Z.of_N b)).
Proof.
  intros a b H. unfold div_half_even.
  set (A := Z.of_N a). set (B := Z.of_N b).
  assert (HB : 0 < B) by (unfold B; lia).
  assert (Q : Z.of_N (a / b)%N = A / B) by (unfold A, B; rewrite N2Z.inj_div; reflexivity).
  assert (Rm : Z.of_N (a mod b)%N = A mod B) by (unfold A, B; rewrite N2Z.inj_mod; reflexivity).
  pose proof (Z.div_mod A B ltac:(lia)) as D. pose proof (Z.mod_pos_bound A B HB) as MB.
  unfold Znearest. rewrite Zfloor_div by exact HB.
  assert (Pb : (0 < IZR B)%R) by (apply IZR_lt; lia).
  assert (X : (IZR A / IZR B - IZR (A / B) = IZR (A mod B) / IZR B)%R).
  { rewrite D at 1. rewrite plus_IZR, mult_IZR. field. lra. }
  assert (Ceil : A mod B <> 0 -> Zceil (IZR A / IZR B) = A / B + 1).
  { intros N0. apply Zceil_imp. replace (A / B + 1 - 1) with (A / B) by ring. rewrite plus_IZR. split.
    - assert (0 < IZR (A mod B) / IZR B)%R; [| lra].
      apply Rdiv_lt_0_compat; [apply IZR_lt; lia | exact Pb].
    - assert (IZR (A mod B) / IZR B <= 1)%R; [| simpl; lra].
      apply Rmult_le_reg_r with (IZR B); [exact Pb |]. unfold Rdiv. rewrite Rmult_assoc, Rinv_l, Rmult_1_r by lra.
      rewrite Rmult_1_l. apply IZR_le. lia. }
  destruct (N.compare_spec (2 * (a mod b)) b) as [C | C | C].
  - rewrite Rcompare_Eq.
    + destruct (N.even (a / b)) eqn:Ev.
      * replace (Z.even (A / B)) with true; [simpl; rewrite <- Q; reflexivity |].
        rewrite <- Q. rewrite <- Ev. destruct (a / b)%N as [| [p | p |]]; reflexivity.
      * replace (Z.even (A / B)) with false; [simpl; rewrite Ceil; lia |].
        rewrite <- Q, <- Ev. destruct (a / b)%N as [| [p | p |]]; reflexivity.
    + rewrite X. assert (2 * (A mod B) = B) by lia. rewrite <- H0 at 2. rewrite mult_IZR.
      assert (0 < IZR (A mod B))%R by (apply IZR_lt; lia). field. lra.
  - rewrite Rcompare_Lt; [exact Q |]. rewrite X.
    apply Rmult_lt_reg_r with (IZR B); [exact Pb |]. unfold Rdiv. rewrite Rmult_assoc, Rinv_l, Rmult_1_r by lra.
    assert (2 * (A mod B) < B) by lia. apply IZR_lt in H0. rewrite mult_IZR in H0. lra.
  - rewrite Rcompare_Gt; [rewrite Ceil; lia |]. rewrite X.
    apply Rmult_lt_reg_r with (IZR B); [exact Pb |]. unfold Rdiv. rewrite Rmult_assoc, Rinv_l, Rmult_1_r by lra.
    assert (B < 2 * (A mod B)) by lia. apply IZR_lt in H0. rewrite mult_IZR in H0. lra.
Qed.

(** [as u32] *)
Lemma f32_to_u32_stands : forall x r, stands x r ->
  Z.of_N (f32_to_u32 x) = Z.min 4294967295 (Zfloor r).
Proof.
  intros x r [F [S V]]. destruct x as [s | s | | s m e]; simpl in F, S; try discriminate; subst s; simpl in V.
  - subst r. rewrite Zfloor_IZR. reflexivity.
  - subst r. unfold f32_to_u32. rewrite N2Z.inj_min, floor_scaled_spec. reflexivity.
Qed.

Lemma f32_round_to_u32_stands : forall x r, stands x r ->
  Z.of_N (f32_round_to_u32 x) = Z.min 4294967295 (Zfloor (r + / 2)).
Proof.
  intros x r [F [S V]]. destruct x as [s | s | | s m e]; simpl in F, S; try discriminate; subst s; simpl in V.
  - subst r. unfold f32_round_to_u32. replace (Zfloor (0 + / 2)) with 0; [reflexivity |].
    symmetry. apply Zfloor_imp. simpl. lra.
  - subst r. unfold f32_round_to_u32. rewrite N2Z.inj_min, round_scaled_spec. reflexivity.
Qed.

Lemma Znearest_IZR : forall z, ZnearestE (IZR z) = z.
Proof. intros. apply Zrnd_IZR. apply valid_rnd_N. Qed.

(** seconds to nanoseconds *)
Lemma from_secs_stands : forall x r, stands x r -> (r < 18446744073709551616)%R ->
  exists d, from_secs x = Ret d /\ Z.of_N d = ZnearestE (r * 1000000000).
Proof.
  intros x r [F [S V]] L. destruct x as [s | s | | s m e]; simpl in F, S; try discriminate; subst s; simpl in V.
  - subst r. exists 0%N. split; [reflexivity |]. rewrite Rmult_0_l.
    change 0%R with (IZR 0). rewrite Znearest_IZR. reflexivity.
  - subst r. unfold from_secs. destruct e as [| k | k].
    + rewrite F2R_0e in L |- *. replace (N.pos m <? 18446744073709551616)%N with true.
      * eexists. split; [reflexivity |]. rewrite <- mult_IZR, Znearest_IZR. rewrite N2Z.inj_mul. reflexivity.
      * symmetry. apply N.ltb_lt. apply lt_IZR in L. lia.
    + rewrite F2R_pos in L |- *.
      assert (EQ : Z.pos m * 2 ^ Z.pos k = Z.of_N (N.pos m * 2 ^ N.pos k)%N).
      { rewrite N2Z.inj_mul, N2Z.inj_pow. reflexivity. }
      rewrite EQ in *.
      replace (N.pos m * 2 ^ N.pos k <? 18446744073709551616)%N with true.
      * eexists. split; [reflexivity |]. rewrite <- mult_IZR, Znearest_IZR. rewrite N2Z.inj_mul. reflexivity.
      * symmetry. apply N.ltb_lt. apply lt_IZR in L. lia.
    + eexists. split; [reflexivity |]. rewrite div_half_even_spec.
      * f_equal. rewrite F2R_neg, N2Z.inj_mul, N2Z.inj_pow, mult_IZR. cbn [Z.of_N NANOS].
        unfold Rdiv. ring.
      * apply N.neq_0_lt_0. apply N.pow_nonzero. discriminate.
Qed.
