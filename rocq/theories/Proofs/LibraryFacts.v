(** The standard library operations of Model/Base.v and Model/Env.v meet their contracts. *)
From Coq Require Import Lia ZifyN ZifyNat ZifyBool Permutation Sorted.
From Coq Require Import Floats.SpecFloat.
From Verif.Model Require Import Base Env Float.
From Verif.Spec Require Import Occ Order Mvd Utf8 Obituary Times Wrap Library.
From Verif.Proofs Require Import BaseFacts Utf8Facts OrderFacts PrintFacts ObituaryFacts PingFacts WrapFacts.
Open Scope N_scope.

(** ** Slices *)
Lemma slice_contract : forall A (d : list A) a b,
  (forall x, slice d a b = Ret x <-> part d a b x) /\
  (slice d a b = Panic PSlice <-> ~ (a <= b /\ b <= len d)) /\
  ((exists x, slice d a b = Ret x) \/ slice d a b = Panic PSlice).
Proof.
  intros A d a b. split; [| split].
  - intros x. split.
    + intros H. apply slice_inv in H. destruct H as [p [q [-> [<- [L M]]]]]. exists p, q. repeat split. lia.
    + intros [p [q [-> [<- <-]]]]. apply slice_app.
  - unfold slice. destruct (N.leb_spec a b), (N.leb_spec b (len d)); cbn [andb]; split; intros H1; try discriminate; try reflexivity; try lia; exfalso; apply H1; lia.
  - unfold slice. destruct ((a <=? b) && (b <=? len d)); eauto.
Qed.

Lemma slice_from_contract : forall A (d : list A) a,
  (forall x, slice_from d a = Ret x <-> part d a (len d) x) /\
  (slice_from d a = Panic PSlice <-> len d < a) /\
  ((exists x, slice_from d a = Ret x) \/ slice_from d a = Panic PSlice).
Proof.
  intros A d a. split; [| split].
  - intros x. split.
    + intros H. apply slice_from_inv in H. destruct H as [p [-> <-]]. exists p, []. rewrite app_nil_r, len_app. auto.
    + intros [p [q [-> [<- L]]]]. rewrite !len_app in L. assert (q = []) as -> by (apply len_0; lia).
      rewrite app_nil_r. apply slice_from_app.
  - unfold slice_from. destruct (N.leb_spec a (len d)); split; intros H1; try discriminate; try reflexivity; lia.
  - unfold slice_from. destruct (a <=? len d); eauto.
Qed.

Lemma slice_to_contract : forall A (d : list A) b,
  (forall x, slice_to d b = Ret x <-> part d 0 b x) /\
  (slice_to d b = Panic PSlice <-> len d < b) /\
  ((exists x, slice_to d b = Ret x) \/ slice_to d b = Panic PSlice).
Proof.
  intros A d b. split; [| split].
  - intros x. split.
    + intros H. apply slice_to_inv in H. destruct H as [q [-> <-]]. exists [], q. auto.
    + intros [p [q [-> [L <-]]]]. apply len_0 in L. subst p. cbn [app]. rewrite len_nil. apply slice_to_app.
  - unfold slice_to. destruct (N.leb_spec b (len d)); split; intros H1; try discriminate; try reflexivity; lia.
  - unfold slice_to. destruct (b <=? len d); eauto.
Qed.

(** ** Slices of text *)
Lemma boundary_between : forall d i, utf8_text d -> (i <=? len d) && is_char_boundary d i = true <-> between_chars d i.
Proof.
  intros d i T. unfold between_chars. destruct (N.leb_spec i (len d)) as [L | L]; cbn [andb]; [| split; [discriminate | lia]].
  rewrite <- (is_char_boundary_iff d i T L). destruct (is_char_boundary d i); split; auto; try discriminate.
  - intros _. split; [exact L | discriminate].
  - intros [_ H]. exfalso. apply H. reflexivity.
Qed.

Lemma str_from_contract : forall d a, utf8_text d ->
  (forall x, str_from d a = Ret x <-> between_chars d a /\ part d a (len d) x) /\
  (str_from d a = Panic PCharBoundary <-> ~ between_chars d a).
Proof.
  intros d a T. pose proof (boundary_between d a T) as B. unfold str_from.
  destruct ((a <=? len d) && is_char_boundary d a) eqn:Q.
  - pose proof (proj1 B eq_refl) as BC. split; [| split; [discriminate | contradiction]].
    intros x. rewrite <- (proj1 (slice_from_contract _ d a) x). unfold slice_from.
    replace (a <=? len d) with true by lia. tauto.
  - assert (~ between_chars d a) as NB by (intros X; apply B in X; discriminate). split; [| tauto].
    intros x. split; [discriminate | tauto].
Qed.

Lemma str_to_contract : forall d b, utf8_text d ->
  (forall x, str_to d b = Ret x <-> between_chars d b /\ part d 0 b x) /\
  (str_to d b = Panic PCharBoundary <-> ~ between_chars d b).
Proof.
  intros d a T. pose proof (boundary_between d a T) as B. unfold str_to.
  destruct ((a <=? len d) && is_char_boundary d a) eqn:Q.
  - pose proof (proj1 B eq_refl) as BC. split; [| split; [discriminate | contradiction]].
    intros x. rewrite <- (proj1 (slice_to_contract _ d a) x). unfold slice_to.
    replace (a <=? len d) with true by lia. tauto.
  - assert (~ between_chars d a) as NB by (intros X; apply B in X; discriminate). split; [| tauto].
    intros x. split; [discriminate | tauto].
Qed.

Lemma str_slice_contract : forall d a b, utf8_text d ->
  (forall x, str_slice d a b = Ret x <-> between_chars d a /\ between_chars d b /\ part d a b x) /\
  (str_slice d a b = Panic PCharBoundary <-> ~ (a <= b /\ between_chars d a /\ between_chars d b)).
Proof.
  intros d a b T. pose proof (boundary_between d a T) as BA. pose proof (boundary_between d b T) as BB. unfold str_slice.
  destruct ((a <=? b) && (b <=? len d) && is_char_boundary d a && is_char_boundary d b) eqn:Q.
  - apply andb_true_iff in Q. destruct Q as [Q Q4]. apply andb_true_iff in Q. destruct Q as [Q Q3].
    apply andb_true_iff in Q. destruct Q as [Q1 Q2]. apply N.leb_le in Q1. apply N.leb_le in Q2.
    assert (between_chars d a) as CA by (apply BA; rewrite Q3, andb_true_r; apply N.leb_le; lia).
    assert (between_chars d b) as CB by (apply BB; rewrite Q4, andb_true_r; apply N.leb_le; lia).
    split; [| split; [discriminate |]].
    + intros x. rewrite <- (proj1 (slice_contract _ d a b) x). unfold slice.
      apply N.leb_le in Q1. apply N.leb_le in Q2. rewrite Q1, Q2. cbn [andb]. tauto.
    + intros H. exfalso. apply H. auto.
  - assert (~ (a <= b /\ between_chars d a /\ between_chars d b)) as NB.
    { intros [L [X Y]]. apply BA in X. apply BB in Y. apply andb_true_iff in X. apply andb_true_iff in Y.
      apply N.leb_le in L. destruct X as [_ X], Y as [Y1 Y2]. rewrite L, Y1, X, Y2 in Q. discriminate. }
    split; [| tauto]. intros x. split; [discriminate |]. intros [X [Y [p [q [_ [P1 P2]]]]]]. exfalso. apply NB.
    split; [lia | auto].
Qed.

(** ** Characters *)
Lemma char_count_app : forall a b, char_count (a ++ b) = char_count a + char_count b.
Proof. intros a b. unfold char_count. rewrite filter_app, len_app. reflexivity. Qed.

Lemma char_count_text : forall cs, Forall scalar cs -> char_count (encode_text cs) = len cs.
Proof.
  intros cs F. induction F as [| c cs C F IH]; [reflexivity |].
  rewrite encode_text_cons, char_count_app, IH, len_cons. f_equal.
  destruct (char_bytes c C) as [b [t [-> [B T]]]]. unfold char_count. cbn [filter]. rewrite B. cbn [negb]. rewrite len_cons.
  assert (filter (fun x => negb (is_cont x)) t = []) as ->; [| reflexivity].
  clear B. induction T as [| x t X T IHt]; [reflexivity |]. cbn [filter]. rewrite X. exact IHt.
Qed.

(** ** Order *)
Lemma str_cmp_contract : forall a b,
  (str_cmp a b = Lt <-> text_lt a b) /\ (str_cmp a b = Eq <-> a = b) /\ (str_cmp a b = Gt <-> text_lt b a).
Proof.
  intros a b. pose proof (str_cmp_cases a b) as C. pose proof (text_lt_irrefl a) as I.
  destruct (str_cmp a b).
  - subst b. repeat split; auto; try discriminate; contradiction.
  - destruct C as [C1 [C2 C3]]. repeat split; auto; try discriminate; contradiction.
  - destruct C as [C1 [C2 C3]]. repeat split; auto; try discriminate; contradiction.
Qed.

Lemma sort_contract : forall A (before : A -> A -> Prop) cmp, key_order before ->
  (forall x y, cmp x y = Gt <-> before y x) ->
  forall l r, sort_by cmp l = r <-> stable_order before l r.
Proof.
  intros A before cmp KO CMP l r. split.
  - intros <-. apply (stable_order_sort before cmp KO CMP).
  - intros S. exact (stable_order_unique _ before KO l _ _ (stable_order_sort before cmp KO CMP l) S).
Qed.

(** ** Maps *)
Lemma map_contract : forall K V (eqb : K -> K -> bool), (forall a b, eqb a b = true <-> a = b) ->
  forall k (v d : V) m,
  put k v (fun x => aget eqb x m) (fun x => aget eqb x (aset eqb k v m)) /\
  (aget eqb k m = None <-> ~ In k (map fst m)) /\
  (NoDup (map fst m) -> (aget eqb k m = Some v <-> In (k, v) m)) /\
  (NoDup (map fst m) -> NoDup (map fst (aset eqb k v m))) /\
  (aget eqb k m = None -> aset eqb k v m = m ++ [(k, v)] /\ aget_or eqb k d m = d) /\
  (forall w, aget eqb k m = Some w -> map fst (aset eqb k v m) = map fst m /\ aget_or eqb k d m = w).
Proof.
  intros K V eqb ok k v d m. repeat split.
  - apply aget_aset_same. exact ok.
  - intros k' N. apply aget_aset_other; assumption.
  - apply aget_none. exact ok.
  - apply aget_none. exact ok.
  - apply aget_in. exact ok.
  - induction m as [| [k0 v0] m IH]; intros I; [destruct I |]. inv H. cbn [aget]. destruct I as [I | I].
    + injection I as -> ->. replace (eqb k k) with true; [reflexivity |]. symmetry. apply ok. reflexivity.
    + destruct (eqb k k0) eqn:Q; [| apply IH; assumption]. apply ok in Q. subst k0. exfalso. apply H2.
      change k with (fst (k, v)). apply in_map. exact I.
  - apply aset_nodup. exact ok.
  - apply aset_fresh; [exact ok |]. apply (aget_none eqb ok). assumption.
  - unfold aget_or. rewrite H. reflexivity.
  - rewrite aset_keys by exact ok. replace (existsb (eqb k) (map fst m)) with true; [reflexivity |]. symmetry.
    apply existsb_exists. exists k. split; [| apply ok; reflexivity]. apply (aget_in eqb ok) in H.
    change k with (fst (k, w)). apply in_map. exact H.
  - unfold aget_or. rewrite H. reflexivity.
Qed.

Lemma find_map_first : forall A B (f : A -> option B) l, first_some f l (find_map f l).
Proof.
  intros A B f l. unfold first_some. induction l as [| x l IH]; cbn [find_map]; [constructor |].
  destruct (f x) as [b |] eqn:X; [exists [], x, l; auto |].
  destruct (find_map f l) as [b |].
  - destruct IH as [u [y [v [-> [Y F]]]]]. exists (x :: u), y, v. auto.
  - constructor; assumption.
Qed.

Lemma first_some_find : forall A B (f : A -> option B) l r, first_some f l r -> r = find_map f l.
Proof.
  intros A B f l [b |]; cbn [first_some].
  - intros (u & x & v & -> & X & F). induction F as [| y u Y F IH]; cbn [app find_map]; [rewrite X; reflexivity | rewrite Y; exact IH].
  - intros F. induction F as [| y u Y F IH]; cbn [find_map]; [reflexivity | rewrite Y; exact IH].
Qed.
Lemma find_map_contract : forall A B (f : A -> option B) l r, find_map f l = r <-> first_some f l r.
Proof. intros A B f l r. split; [intros <-; apply find_map_first | intros H; symmetry; apply first_some_find; exact H]. Qed.

(** ** Integers *)
Lemma uadd_contract : forall E bound a b, 0 < bound ->
  (a + b < bound -> uadd E bound a b = Ret (a + b)) /\
  (bound <= a + b -> if checked E then uadd E bound a b = Panic POverflow
                     else exists r, uadd E bound a b = Ret r /\ low_part bound (a + b) r).
Proof.
  intros E bound a b P. unfold uadd. destruct (N.ltb_spec (a + b) bound); split; intros L; try lia; auto.
  destruct (checked E); [reflexivity |]. eexists. split; [reflexivity |]. apply low_part_mod. exact P.
Qed.

Lemma usub_contract : forall E bound a b, b < bound ->
  (b <= a -> exists r, usub E bound a b = Ret r /\ r + b = a) /\
  (a < b -> if checked E then usub E bound a b = Panic POverflow
            else exists r, usub E bound a b = Ret r /\ r < bound /\ r + b = a + bound).
Proof.
  intros E bound a b B. unfold usub. destruct (N.leb_spec b a); split; intros L; try lia.
  - eexists. split; [reflexivity |]. lia.
  - destruct (checked E); [reflexivity |]. eexists. split; [reflexivity |]. rewrite N.mod_small by lia. lia.
Qed.

Lemma wrap_signed : forall z, signed32 z (wrap_i32 z).
Proof.
  intros z. unfold signed32, fits32, wrap_i32. pose proof (Z.mod_pos_bound (z + 2147483648) 4294967296 ltac:(lia)).
  split; [lia |]. exists ((z + 2147483648) / 4294967296)%Z. pose proof (Z.div_mod (z + 2147483648) 4294967296 ltac:(lia)). lia.
Qed.

Lemma iadd_contract : forall E a b,
  (fits32 (a + b) -> iadd E a b = Ret (a + b)%Z) /\
  (~ fits32 (a + b) -> if checked E then iadd E a b = Panic POverflow
                       else exists r, iadd E a b = Ret r /\ signed32 (a + b) r).
Proof.
  intros E a b. unfold iadd, fits32, i32_min, i32_max.
  destruct ((-2147483648 <=? a + b)%Z && (a + b <=? 2147483647)%Z) eqn:Q; split; intros L; try lia; auto.
  destruct (checked E); [reflexivity |]. eexists. split; [reflexivity | apply wrap_signed].
Qed.

Lemma casts_contract : forall z,
  (as_u8 z < 256 /\ exists k, z = (Z.of_N (as_u8 z) + k * 256)%Z) /\
  (as_u32 z < 4294967296 /\ exists k, z = (Z.of_N (as_u32 z) + k * 4294967296)%Z).
Proof.
  intros z. unfold as_u8, as_u32.
  pose proof (Z.mod_pos_bound z 256 ltac:(lia)). pose proof (Z.mod_pos_bound z 4294967296 ltac:(lia)).
  pose proof (Z.div_mod z 256 ltac:(lia)). pose proof (Z.div_mod z 4294967296 ltac:(lia)).
  split; (split; [lia |]).
  - exists (z / 256)%Z. lia.
  - exists (z / 4294967296)%Z. lia.
Qed.

(** ** Floats to integers *)
Lemma pow_pos : forall k, (0 < 2 ^ Zpos k)%Z.
Proof. intros k. apply Z.pow_pos_nonneg; lia. Qed.

Lemma floor_contract : forall m e, integer_part m e (floor_scaled m e).
Proof.
  intros m e. unfold integer_part, reaches. destruct e as [| k | k]; unfold floor_scaled.
  - cbn [Z.opp Z.max Z.compare Z.pow]. lia.
  - change (Z.max 0 (- Zpos k)) with 0%Z. change (Z.max 0 (Zpos k)) with (Zpos k).
    rewrite N2Z.inj_mul, N2Z.inj_pow. cbn [Z.of_N Z.pow]. lia.
  - change (Z.max 0 (- Zneg k)) with (Zpos k). change (Z.max 0 (Zneg k)) with 0%Z.
    rewrite N2Z.inj_div, N2Z.inj_pow. cbn [Z.of_N Z.pow]. pose proof (pow_pos k) as P. unfold Z.pow in P.
    pose proof (Z.mul_div_le (Zpos m) _ P) as A. pose proof (Z.mul_succ_div_gt (Zpos m) _ P) as B. lia.
Qed.

Lemma round_contract : forall m e, nearest m e (round_scaled m e).
Proof.
  intros m e. unfold nearest, reaches. destruct e as [| k | k]; unfold round_scaled.
  - cbn [Z.opp Z.max Z.compare Z.pow]. lia.
  - change (Z.max 0 (- Zpos k)) with 0%Z. change (Z.max 0 (Zpos k)) with (Zpos k).
    rewrite N2Z.inj_mul, N2Z.inj_pow. pose proof (pow_pos k) as P. cbn [Z.of_N]. rewrite Pos2Z.inj_mul. cbn [Z.pow]. lia.
  - change (Z.max 0 (- Zneg k)) with (Zpos k). change (Z.max 0 (Zneg k)) with 0%Z.
    rewrite N2Z.inj_div, N2Z.inj_add, !N2Z.inj_mul, !N2Z.inj_pow. pose proof (pow_pos k) as P. cbn [Z.of_N].
    set (q := (2 ^ Zpos k)%Z) in *. rewrite Pos2Z.inj_mul. change (2 ^ 0)%Z with 1%Z.
    pose proof (Z.mul_div_le (2 * Zpos m + q) (2 * q) ltac:(lia)) as A.
    pose proof (Z.mul_succ_div_gt (2 * Zpos m + q) (2 * q) ltac:(lia)) as B. lia.
Qed.

Lemma saturated_contract : forall n, (n < 4294967296 /\ N.min u32_max n = n) \/ (4294967296 <= n /\ N.min u32_max n = 4294967295).
Proof. intros n. unfold u32_max. lia. Qed.

Lemma reaches_less : forall m e n k, (k <= n)%Z -> reaches m e n -> reaches m e k.
Proof. intros m e n k L H. unfold reaches in *. pose proof (Z.pow_nonneg 2 (Z.max 0 (- e)) ltac:(lia)). nia. Qed.
Lemma integer_part_unique : forall m e a b, integer_part m e a -> integer_part m e b -> a = b.
Proof.
  intros m e a b [A1 A2] [B1 B2]. destruct (N.lt_trichotomy a b) as [L | [L | L]]; [| exact L |]; exfalso;
    [apply A2; eapply reaches_less; [| exact B1] | apply B2; eapply reaches_less; [| exact A1]]; lia.
Qed.
Lemma nearest_unique : forall m e a b, nearest m e a -> nearest m e b -> a = b.
Proof.
  intros m e a b [A1 A2] [B1 B2]. destruct (N.lt_trichotomy a b) as [L | [L | L]]; [| exact L |]; exfalso;
    [apply A2; eapply reaches_less; [| exact B1] | apply B2; eapply reaches_less; [| exact A1]]; lia.
Qed.
Lemma cast_unique : forall (rule : positive -> Z -> N -> Prop), (forall m e a b, rule m e a -> rule m e b -> a = b) ->
  forall x r s, cast_of rule x r -> cast_of rule x s -> r = s.
Proof.
  intros rule U [z | [|] | | [|] m e] r s A B; cbn [cast_of] in A, B; try congruence.
  destruct A as (n & A & X), B as (k & B & Y). pose proof (U _ _ _ _ A B). subst k. lia.
Qed.

Lemma float_casts_contract : forall x r, (cast_of integer_part x r <-> r = f32_to_u32 x) /\ (cast_of nearest x r <-> r = f32_round_to_u32 x).
Proof.
  assert (forall x, cast_of integer_part x (f32_to_u32 x) /\ cast_of nearest x (f32_round_to_u32 x)) as C.
  { intros [s | [|] | | [|] m e]; split; try reflexivity; cbn [cast_of f32_to_u32 f32_round_to_u32]; eexists;
      (split; [first [apply floor_contract | apply round_contract] | apply saturated_contract]). }
  intros x r. destruct (C x) as [A B]. split; (split; [intros H | intros ->; assumption]).
  - exact (cast_unique _ integer_part_unique _ _ _ H A).
  - exact (cast_unique _ nearest_unique _ _ _ H B).
Qed.
