(** Facts about the vocabulary of [Model/Base.v]. *)
From Coq Require Import Lia ZifyN ZifyNat ZifyBool.
From Verif.Model Require Import Base.
From Verif.Spec Require Import Occ.

Ltac inv H := inversion H; subst; clear H.

Arguments N.add : simpl never.
Arguments N.sub : simpl never.
Arguments N.mul : simpl never.
Arguments N.div : simpl never.
Arguments N.modulo : simpl never.
Arguments N.leb : simpl never.
Arguments N.ltb : simpl never.
Arguments N.eqb : simpl never.

Lemma byte_eqb_true : forall a b, Byte.eqb a b = true <-> a = b.
Proof.
  intros a b. split.
  - apply Byte.byte_dec_bl.
  - intros ->. apply Byte.byte_dec_lb. reflexivity.
Qed.

Lemma byte_eqb_refl : forall a, Byte.eqb a a = true.
Proof. intros a. apply byte_eqb_true. reflexivity. Qed.

Lemma byte_eqb_false : forall a b, Byte.eqb a b = false <-> a <> b.
Proof.
  intros a b. split.
  - intros H E. apply byte_eqb_true in E. congruence.
  - intros H. destruct (Byte.eqb a b) eqn:E; [| reflexivity].
    apply byte_eqb_true in E. contradiction.
Qed.

Lemma n_of_lt : forall b, n_of b < 256.
Proof. intros b. unfold n_of. pose proof (Byte.to_N_bounded b). lia. Qed.

Lemma n_of_inj : forall a b, n_of a = n_of b -> a = b.
Proof.
  intros a b H. unfold n_of in H.
  pose proof (Byte.of_to_N a) as A. pose proof (Byte.of_to_N b) as B. congruence.
Qed.

(** Booleans on byte strings *)
Lemma beq_eq : forall a b, beq a b = true <-> a = b.
Proof.
  induction a as [| x a IH]; destruct b as [| y b]; simpl; try (split; congruence).
  rewrite andb_true_iff, IH, byte_eqb_true. split; intros H; [destruct H | inversion H]; subst; auto.
Qed.

Lemma beq_refl : forall a, beq a a = true.
Proof. intros; apply beq_eq; reflexivity. Qed.

Lemma beq_neq : forall a b, beq a b = false <-> a <> b.
Proof.
  intros a b. split.
  - intros H E. apply beq_eq in E. congruence.
  - intros H. destruct (beq a b) eqn:E; [apply beq_eq in E; contradiction | reflexivity].
Qed.

Lemma beq_sym : forall a b, beq a b = beq b a.
Proof.
  intros a b. destruct (beq a b) eqn:E.
  - apply beq_eq in E. subst. symmetry. apply beq_refl.
  - apply beq_neq in E. symmetry. apply beq_neq. congruence.
Qed.

Lemma bytes_eq_dec : forall a b : bytes, {a = b} + {a <> b}.
Proof.
  intros a b. destruct (beq a b) eqn:E.
  - left. apply beq_eq. exact E.
  - right. apply beq_neq. exact E.
Qed.

(** Lengths *)
Lemma len_nil : forall A, len (@nil A) = 0.
Proof. reflexivity. Qed.
Lemma len_cons : forall A (x : A) l, len (x :: l) = 1 + len l.
Proof. intros. unfold len. simpl length. lia. Qed.
Lemma len_app : forall A (a b : list A), len (a ++ b) = len a + len b.
Proof. intros. unfold len. rewrite app_length. lia. Qed.
Lemma len_rev : forall A (a : list A), len (rev a) = len a.
Proof. intros. unfold len. rewrite rev_length. reflexivity. Qed.
Lemma len_map : forall A B (f : A -> B) l, len (map f l) = len l.
Proof. intros. unfold len. rewrite map_length. reflexivity. Qed.
Lemma len_0 : forall A (l : list A), len l = 0 -> l = [].
Proof. intros A [| x l] H; [reflexivity | rewrite len_cons in H; lia]. Qed.
Lemma len_pos : forall A (l : list A), l <> [] -> 0 < len l.
Proof. intros A [| x l] H; [congruence | rewrite len_cons; lia]. Qed.
Lemma len_skipn : forall A n (l : list A), len (skipn n l) = len l - N.of_nat n.
Proof. intros. unfold len. rewrite skipn_length. lia. Qed.
Lemma len_firstn : forall A n (l : list A), len (firstn n l) = N.min (N.of_nat n) (len l).
Proof. intros. unfold len. rewrite firstn_length. lia. Qed.
Lemma to_nat_len : forall A (l : list A), N.to_nat (len l) = length l.
Proof. intros. unfold len. lia. Qed.

Lemma skipn_app_exact : forall A (a b : list A), skipn (length a) (a ++ b) = b.
Proof. intros. rewrite skipn_app, skipn_all, Nat.sub_diag. reflexivity. Qed.
Lemma firstn_app_exact : forall A (a b : list A), firstn (length a) (a ++ b) = a.
Proof. intros. rewrite firstn_app, firstn_all, Nat.sub_diag. simpl. apply app_nil_r. Qed.

Lemma skipn_len_app : forall A (a b : list A), skipn (N.to_nat (len a)) (a ++ b) = b.
Proof. intros. rewrite to_nat_len. apply skipn_app_exact. Qed.
Lemma firstn_len_app : forall A (a b : list A), firstn (N.to_nat (len a)) (a ++ b) = a.
Proof. intros. rewrite to_nat_len. apply firstn_app_exact. Qed.

(** Every index into a list splits it. *)
Lemma split_at : forall A (l : list A) i, i <= len l ->
  exists a b, l = a ++ b /\ len a = i.
Proof.
  intros A l i H. exists (firstn (N.to_nat i) l), (skipn (N.to_nat i) l).
  split. { symmetry. apply firstn_skipn. }
  rewrite len_firstn. lia.
Qed.

Lemma app_inj_len : forall A (a b c d : list A), a ++ b = c ++ d -> len a = len c -> a = c /\ b = d.
Proof.
  intros A a. induction a as [| x a IH]; intros b c d H L.
  - destruct c; [auto | rewrite len_cons, len_nil in L; lia].
  - destruct c as [| y c]; [rewrite len_cons, len_nil in L; lia |].
    rewrite !len_cons in L. simpl in H. inversion H; subst.
    destruct (IH b c d) as [-> ->]; auto. lia.
Qed.

(** the shorter of two prefixes of one list is a prefix of the longer *)
Lemma app_eq_prefix : forall A (a b c d : list A),
  a ++ b = c ++ d -> len a <= len c -> exists e, c = a ++ e /\ b = e ++ d.
Proof.
  intros A a. induction a as [| x a IH]; intros b c d H L.
  - exists c. auto.
  - destruct c as [| y c]; [rewrite len_cons, len_nil in L; lia |].
    rewrite !len_cons in L. simpl in H. inversion H; subst.
    destruct (IH b c d) as [e [-> ->]]; auto; [lia |]. exists e. auto.
Qed.

(** Slices *)
Lemma slice_app : forall A (a b c : list A),
  slice (a ++ b ++ c) (len a) (len a + len b) = Ret b.
Proof.
  intros. unfold slice, sub_list.
  replace ((len a <=? len a + len b) && (len a + len b <=? len (a ++ b ++ c))) with true.
  2: { rewrite !len_app. symmetry. lia. }
  rewrite skipn_len_app.
  replace (len a + len b - len a) with (len b) by lia. rewrite firstn_len_app. reflexivity.
Qed.

Lemma slice_ret : forall A (d : list A) a b, a <= b -> b <= len d -> slice d a b = Ret (sub_list d a b).
Proof. intros. unfold slice. replace ((a <=? b) && (b <=? len d)) with true by lia. reflexivity. Qed.

Lemma slice_panic : forall A (d : list A) a b, len d < b -> slice d a b = Panic PSlice.
Proof. intros. unfold slice. replace ((a <=? b) && (b <=? len d)) with false by lia. reflexivity. Qed.

Lemma slice_inv : forall A (d : list A) a b x, slice d a b = Ret x ->
  exists p q, d = p ++ x ++ q /\ len p = a /\ len x = b - a /\ a <= b.
Proof.
  intros A d a b x H. unfold slice in H.
  destruct ((a <=? b) && (b <=? len d)) eqn:C; inv H.
  exists (firstn (N.to_nat a) d), (skipn (N.to_nat (b - a)) (skipn (N.to_nat a) d)).
  unfold sub_list. rewrite !firstn_skipn. rewrite !len_firstn, len_skipn.
  repeat split; lia.
Qed.

Lemma slice_not_fuel : forall A (d : list A) a b, slice d a b <> OutOfFuel.
Proof. intros. unfold slice. destruct (_ && _); congruence. Qed.

Lemma slice_from_app : forall A (a b : list A), slice_from (a ++ b) (len a) = Ret b.
Proof.
  intros. unfold slice_from. rewrite len_app.
  replace (len a <=? len a + len b) with true by lia.
  rewrite skipn_len_app. reflexivity.
Qed.

Lemma slice_from_0 : forall A (a : list A), slice_from a 0 = Ret a.
Proof. intros. apply (slice_from_app A [] a). Qed.

Lemma slice_from_panic : forall A (d : list A) a, len d < a -> slice_from d a = Panic PSlice.
Proof. intros. unfold slice_from. replace (a <=? len d) with false by lia. reflexivity. Qed.

Lemma slice_from_inv : forall A (d : list A) a x, slice_from d a = Ret x ->
  exists p, d = p ++ x /\ len p = a.
Proof.
  intros A d a x H. unfold slice_from in H. destruct (a <=? len d) eqn:C; inv H.
  exists (firstn (N.to_nat a) d). rewrite firstn_skipn, len_firstn. split; [auto | lia].
Qed.

Lemma slice_to_app : forall A (a b : list A), slice_to (a ++ b) (len a) = Ret a.
Proof.
  intros. unfold slice_to. rewrite len_app.
  replace (len a <=? len a + len b) with true by lia.
  rewrite firstn_len_app. reflexivity.
Qed.

Lemma slice_to_inv : forall A (d : list A) b x, slice_to d b = Ret x ->
  exists q, d = x ++ q /\ len x = b.
Proof.
  intros A d b x H. unfold slice_to in H. destruct (b <=? len d) eqn:C; inv H.
  exists (skipn (N.to_nat b) d). rewrite firstn_skipn, len_firstn. split; [auto | lia].
Qed.

(** Prefix, suffix *)
Lemma starts_with_true : forall p d, starts_with d p = true <-> exists r, d = p ++ r.
Proof.
  induction p as [| x p IH]; intros d; simpl.
  - split; [intros _; exists d; reflexivity | auto].
  - destruct d as [| y d].
    + split; [congruence | intros [r H]; discriminate].
    + rewrite andb_true_iff, IH, byte_eqb_true. split.
      * intros [-> [r ->]]. exists r. reflexivity.
      * intros [r H]. inversion H; subst. split; [reflexivity | exists r; reflexivity].
Qed.

Lemma starts_with_app : forall p r, starts_with (p ++ r) p = true.
Proof. intros. apply starts_with_true. exists r. reflexivity. Qed.

Lemma ends_with_true : forall d p, ends_with d p = true <-> exists a, d = a ++ p.
Proof.
  intros d p. unfold ends_with. rewrite starts_with_true. split.
  - intros [r H]. exists (rev r). rewrite <- (rev_involutive d), H, rev_app_distr, rev_involutive. reflexivity.
  - intros [a ->]. exists (rev a). apply rev_app_distr.
Qed.

(** Search *)
Lemma occurs_at_nil : forall p i, occurs_at [] p i -> p = [] /\ i = 0.
Proof.
  intros p i [a [b [H L]]]. symmetry in H. apply app_eq_nil in H. destruct H as [-> H].
  apply app_eq_nil in H. destruct H as [-> ->]. auto.
Qed.

Lemma occurs_at_cons : forall x d p i,
  occurs_at (x :: d) p i <->
  (i = 0 /\ starts_with (x :: d) p = true) \/ (0 < i /\ occurs_at d p (i - 1)).
Proof.
  intros x d p i. split.
  - intros [a [b [H L]]]. destruct a as [| y a].
    + left. split; [symmetry; exact L |]. apply starts_with_true. exists b. exact H.
    + right. rewrite len_cons in L. inversion H; subst. split; [lia |].
      exists a, b. split; [reflexivity | lia].
  - intros [[-> H] | [Hi [a [b [H L]]]]].
    + apply starts_with_true in H. destruct H as [r H]. exists [], r. auto.
    + exists (x :: a), b. rewrite len_cons. subst d. split; [reflexivity | lia].
Qed.

Lemma occurs_iff : forall d p, occurs d p <-> exists i, occurs_at d p i.
Proof.
  intros d p. split.
  - intros [a [b H]]. exists (len a), a, b. auto.
  - intros [i [a [b [H _]]]]. exists a, b. exact H.
Qed.

Lemma occurs_at_le : forall d p i, occurs_at d p i -> i + len p <= len d.
Proof. intros d p i [a [b [-> <-]]]. rewrite !len_app. lia. Qed.

Lemma find_at_some : forall d p i k,
  find_at k d p = Some i <-> k <= i /\ first_at d p (i - k).
Proof.
  induction d as [| x d IH]; intros p i k; simpl.
  - destruct (starts_with [] p) eqn:E.
    + apply starts_with_true in E. destruct E as [r E]. symmetry in E. apply app_eq_nil in E.
      destruct E as [-> ->]. split.
      * intros H. inv H. split; [lia |]. replace (i - i) with 0 by lia.
        split; [exists [], []; auto | intros; lia].
      * intros [H [O _]]. apply occurs_at_nil in O. destruct O. f_equal. lia.
    + split; [congruence |]. intros [_ [O _]]. apply occurs_at_nil in O. destruct O as [-> _].
      simpl in E. discriminate.
  - destruct (starts_with (x :: d) p) eqn:E.
    + split.
      * intros H. inv H. split; [lia |]. replace (i - i) with 0 by lia. split; [| intros; lia].
        apply occurs_at_cons. left. auto.
      * intros [H [O F]]. f_equal. assert (i - k <= 0); [| lia].
        apply F. apply occurs_at_cons. left. auto.
    + rewrite IH. split.
      * intros [H [O F]]. split; [lia |]. split.
        -- apply occurs_at_cons. right. split; [lia |]. replace (i - k - 1) with (i - N.succ k) by lia. exact O.
        -- intros j Oj. apply occurs_at_cons in Oj. destruct Oj as [[_ C] | [Hj Oj]]; [congruence |].
           apply F in Oj. lia.
      * intros [H [O F]]. apply occurs_at_cons in O. destruct O as [[_ C] | [Hi O]]; [congruence |].
        split; [lia |]. split.
        -- replace (i - N.succ k) with (i - k - 1) by lia. exact O.
        -- intros j Oj. assert (i - k <= j + 1); [| lia]. apply F.
           apply occurs_at_cons. right. split; [lia |]. replace (j + 1 - 1) with j by lia. exact Oj.
Qed.

Lemma find_at_none : forall d p k, find_at k d p = None <-> ~ occurs d p.
Proof.
  induction d as [| x d IH]; intros p k; simpl.
  - destruct (starts_with [] p) eqn:E.
    + split; [congruence |]. intros H. exfalso. apply H.
      apply starts_with_true in E. destruct E as [r E]. exists [], r. exact E.
    + split; [| auto]. intros _ O. apply occurs_iff in O. destruct O as [i O].
      apply occurs_at_nil in O. destruct O as [-> _]. simpl in E. discriminate.
  - destruct (starts_with (x :: d) p) eqn:E.
    + split; [congruence |]. intros H. exfalso. apply H.
      apply starts_with_true in E. destruct E as [r E]. exists [], r. exact E.
    + rewrite IH. split; intros H O; apply H; apply occurs_iff; apply occurs_iff in O; destruct O as [i O].
      * apply occurs_at_cons in O. destruct O as [[_ C] | [_ O]]; [congruence | eauto].
      * exists (i + 1). apply occurs_at_cons. right. split; [lia |].
        replace (i + 1 - 1) with i by lia. exact O.
Qed.

Lemma find_some : forall d p i, find d p = Some i <-> first_at d p i.
Proof.
  intros. unfold find. rewrite find_at_some. replace (i - 0) with i by lia.
  split; [intros [_ H]; exact H | intros H; split; [lia | exact H]].
Qed.

Lemma find_none : forall d p, find d p = None <-> ~ occurs d p.
Proof. intros. apply find_at_none. Qed.

Lemma rfind_at_none : forall d p k, rfind_at k d p = None <-> ~ occurs d p.
Proof.
  induction d as [| x d IH]; intros p k; simpl rfind_at.
  - destruct (starts_with [] p) eqn:E.
    + split; [congruence |]. intros H. exfalso. apply H.
      apply starts_with_true in E. destruct E as [r E]. exists [], r. exact E.
    + split; [| auto]. intros _ O. apply occurs_iff in O. destruct O as [i O].
      apply occurs_at_nil in O. destruct O as [-> _]. simpl in E. discriminate.
  - destruct (rfind_at (N.succ k) d p) eqn:R.
    + split; [congruence |]. intros H. exfalso.
      assert (rfind_at (N.succ k) d p = None); [| congruence].
      apply IH. intros O. apply H. apply occurs_iff. apply occurs_iff in O. destruct O as [i O].
      exists (i + 1). apply occurs_at_cons. right. split; [lia |].
      replace (i + 1 - 1) with i by lia. exact O.
    + apply IH in R. destruct (starts_with (x :: d) p) eqn:E.
      * split; [congruence |]. intros H. exfalso. apply H.
        apply starts_with_true in E. destruct E as [r E]. exists [], r. exact E.
      * split; [| auto]. intros _ O. apply occurs_iff in O. destruct O as [i O].
        apply occurs_at_cons in O. destruct O as [[_ C] | [_ O]]; [congruence |].
        apply R. apply occurs_iff. eauto.
Qed.

Lemma rfind_at_some : forall d p i k,
  rfind_at k d p = Some i <-> k <= i /\ last_at d p (i - k).
Proof.
  induction d as [| x d IH]; intros p i k; simpl rfind_at.
  - destruct (starts_with [] p) eqn:E.
    + apply starts_with_true in E. destruct E as [r E]. symmetry in E. apply app_eq_nil in E.
      destruct E as [-> ->]. split.
      * intros H. inv H. split; [lia |]. replace (i - i) with 0 by lia.
        split; [exists [], []; auto |]. intros j O. apply occurs_at_nil in O. lia.
      * intros [H [O _]]. apply occurs_at_nil in O. destruct O. f_equal. lia.
    + split; [congruence |]. intros [_ [O _]]. apply occurs_at_nil in O. destruct O as [-> _].
      simpl in E. discriminate.
  - destruct (rfind_at (N.succ k) d p) as [m |] eqn:R.
    + apply IH in R. destruct R as [Hk [O L]]. split.
      * intros H. inv H. split; [lia |]. split.
        -- apply occurs_at_cons. right. split; [lia |]. replace (i - k - 1) with (i - N.succ k) by lia. exact O.
        -- intros j Oj. apply occurs_at_cons in Oj. destruct Oj as [[-> _] | [Hj Oj]]; [lia |].
           apply L in Oj. lia.
      * intros [H [Oi Li]]. f_equal.
        assert (m - k <= i - k).
        { apply Li. apply occurs_at_cons. right. split; [lia |]. replace (m - k - 1) with (m - N.succ k) by lia. exact O. }
        apply occurs_at_cons in Oi. destruct Oi as [[Z _] | [Hi Oi]]; [lia |].
        apply L in Oi. lia.
    + apply rfind_at_none in R. destruct (starts_with (x :: d) p) eqn:E.
      * split.
        -- intros H. inv H. split; [lia |]. replace (i - i) with 0 by lia. split.
           ++ apply occurs_at_cons. left. auto.
           ++ intros j Oj. apply occurs_at_cons in Oj. destruct Oj as [[-> _] | [_ Oj]]; [lia |].
              exfalso. apply R. apply occurs_iff. eauto.
        -- intros [H [Oi Li]]. apply occurs_at_cons in Oi. destruct Oi as [[Z _] | [_ Oi]].
           ++ f_equal. lia.
           ++ exfalso. apply R. apply occurs_iff. eauto.
      * split; [congruence |]. intros [H [Oi Li]]. exfalso.
        apply occurs_at_cons in Oi. destruct Oi as [[_ C] | [_ Oi]]; [congruence |].
        apply R. apply occurs_iff. eauto.
Qed.

Lemma rfind_some : forall d p i, rfind d p = Some i <-> last_at d p i.
Proof.
  intros. unfold rfind. rewrite rfind_at_some. replace (i - 0) with i by lia.
  split; [intros [_ H]; exact H | intros H; split; [lia | exact H]].
Qed.

Lemma rfind_none : forall d p, rfind d p = None <-> ~ occurs d p.
Proof. intros. apply rfind_at_none. Qed.

Lemma is_some_find : forall d p, is_some (find d p) = true <-> occurs d p.
Proof.
  intros d p. destruct (find d p) eqn:F; simpl.
  - apply find_some in F. split; [| auto]. intros _. apply occurs_iff. destruct F. eauto.
  - apply find_none in F. split; [congruence | contradiction].
Qed.

Lemma is_some_rfind : forall d p, is_some (rfind d p) = true <-> occurs d p.
Proof.
  intros d p. destruct (rfind d p) eqn:F; simpl.
  - apply rfind_some in F. split; [| auto]. intros _. apply occurs_iff. destruct F. eauto.
  - apply rfind_none in F. split; [congruence | contradiction].
Qed.

Lemma first_at_unique : forall d p i j, first_at d p i -> first_at d p j -> i = j.
Proof. intros d p i j [A B] [C D]. apply B in C. apply D in A. lia. Qed.
Lemma last_at_unique : forall d p i j, last_at d p i -> last_at d p j -> i = j.
Proof. intros d p i j [A B] [C D]. apply B in C. apply D in A. lia. Qed.

Lemma find_split : forall d p i, find d p = Some i ->
  exists a b, d = a ++ p ++ b /\ len a = i /\ forall a' b', d = a' ++ p ++ b' -> len a <= len a'.
Proof.
  intros d p i H. apply find_some in H. destruct H as [[a [b [H L]]] F].
  exists a, b. repeat split; auto. intros a' b' H'. subst i. apply F. exists a', b'. auto.
Qed.

Lemma occurs_singleton : forall d b, occurs d [b] <-> In b d.
Proof.
  intros d b. split.
  - intros [x [y ->]]. apply in_or_app. right. left. reflexivity.
  - intros H. apply in_split in H. destruct H as [l1 [l2 ->]]. exists l1, l2. reflexivity.
Qed.

(** The first occurrence of a single byte. *)
Lemma find_byte_app : forall a b c, ~ In b a -> find_byte (a ++ b :: c) b = Some (len a).
Proof.
  intros a b c H. unfold find_byte. apply find_some. split.
  - exists a, c. auto.
  - intros j [x [y [E L]]]. subst j.
    destruct (N.le_gt_cases (len a) (len x)) as [C | C]; [exact C |].
    exfalso. apply H. apply eq_sym, app_eq_prefix in E; [| lia].
    destruct E as [e [-> E]]. destruct e as [| z e].
    + rewrite app_nil_r in C. lia.
    + simpl in E. inversion E; subst. apply in_or_app. right. left. reflexivity.
Qed.

Lemma find_byte_none : forall d b, find_byte d b = None <-> ~ In b d.
Proof. intros. unfold find_byte. rewrite find_none, occurs_singleton. reflexivity. Qed.

Lemma find_byte_some : forall d b i, find_byte d b = Some i ->
  exists a c, d = a ++ b :: c /\ len a = i /\ ~ In b a.
Proof.
  intros d b i H. unfold find_byte in H. apply find_some in H. destruct H as [[a [c [H L]]] F].
  exists a, c. repeat split; auto. intros I. apply in_split in I. destruct I as [l1 [l2 ->]].
  subst d. assert (i <= len l1).
  { apply F. exists l1, (l2 ++ [b] ++ c). rewrite <- app_assoc. auto. }
  rewrite len_app, len_cons in L. lia.
Qed.

Lemma rfind_byte_some : forall d b i, rfind_byte d b = Some i ->
  exists a c, d = a ++ b :: c /\ len a = i /\ ~ In b c.
Proof.
  intros d b i H. unfold rfind_byte in H. apply rfind_some in H. destruct H as [[a [c [H L]]] F].
  exists a, c. repeat split; auto. intros I. apply in_split in I. destruct I as [l1 [l2 ->]].
  subst d. assert (len (a ++ b :: l1) <= i).
  { apply F. exists (a ++ b :: l1), l2. rewrite <- app_assoc. auto. }
  rewrite len_app, len_cons in H. lia.
Qed.

Lemma rfind_byte_app : forall a b c, ~ In b c -> rfind_byte (a ++ b :: c) b = Some (len a).
Proof.
  intros a b c H. unfold rfind_byte. apply rfind_some. split.
  - exists a, c. auto.
  - intros j [x [y [E L]]]. subst j.
    destruct (N.le_gt_cases (len x) (len a)) as [C | C]; [exact C |].
    exfalso. apply H. apply app_eq_prefix in E; [| lia].
    destruct E as [e [-> E]]. destruct e as [| z e].
    + rewrite app_nil_r in C. lia.
    + simpl in E. inversion E; subst. apply in_or_app. right. left. reflexivity.
Qed.

Lemma rfind_byte_none : forall d b, rfind_byte d b = None <-> ~ In b d.
Proof. intros. unfold rfind_byte. rewrite rfind_none, occurs_singleton. reflexivity. Qed.

(** split_once *)
Lemma split_once_some : forall d p a b, split_once d p = Some (a, b) ->
  d = a ++ p ++ b /\ first_at d p (len a).
Proof.
  intros d p a b H. unfold split_once in H. destruct (find d p) as [i |] eqn:F; inv H.
  apply find_some in F. pose proof F as [[x [y [E L]]] _]. subst i d.
  rewrite firstn_len_app.
  replace (N.to_nat (len x + len p)) with (length (x ++ p)).
  2: { rewrite app_length. unfold len. lia. }
  rewrite (app_assoc x p y), skipn_app_exact. rewrite <- app_assoc. auto.
Qed.

Lemma split_once_first : forall d p a b, d = a ++ p ++ b -> first_at d p (len a) ->
  split_once d p = Some (a, b).
Proof.
  intros d p a b E F. unfold split_once. apply find_some in F. rewrite F. subst d.
  rewrite firstn_len_app.
  replace (N.to_nat (len a + len p)) with (length (a ++ p)).
  2: { rewrite app_length. unfold len. lia. }
  rewrite (app_assoc a p b), skipn_app_exact. reflexivity.
Qed.

Lemma split_once_none : forall d p, split_once d p = None <-> ~ occurs d p.
Proof.
  intros. unfold split_once. rewrite <- find_none. destruct (find d p); split; congruence.
Qed.

Lemma is_empty_true : forall A (l : list A), is_empty l = true <-> l = [].
Proof. intros A [| x l]; simpl; split; congruence. Qed.
Lemma is_empty_false : forall A (l : list A), is_empty l = false <-> l <> [].
Proof. intros A [| x l]; simpl; split; congruence. Qed.

(** The outcome monad *)
Lemma bind_ret_inv : forall A B (m : M A) (k : A -> M B) b,
  bind m k = Ret b -> exists a, m = Ret a /\ k a = Ret b.
Proof. intros A B [a | p |] k b H; simpl in H; try discriminate. eauto. Qed.

Lemma bind_panic_inv : forall A B (m : M A) (k : A -> M B) p,
  bind m k = Panic p -> m = Panic p \/ exists a, m = Ret a /\ k a = Panic p.
Proof. intros A B [a | q |] k p H; simpl in H; try discriminate; eauto. left. congruence. Qed.

Lemma bind_fuel : forall A B (m : M A) (k : A -> M B),
  m <> OutOfFuel -> (forall a, m = Ret a -> k a <> OutOfFuel) -> bind m k <> OutOfFuel.
Proof. intros A B [a | p |] k H1 H2; simpl; try congruence. apply H2. reflexivity. Qed.

Lemma foldM_app : forall A B (f : A -> B -> M A) l1 l2 a,
  foldM f (l1 ++ l2) a = bind (foldM f l1 a) (fun a' => foldM f l2 a').
Proof.
  intros A B f l1. induction l1 as [| x l1 IH]; intros l2 a; simpl; [reflexivity |].
  destruct (f a x); simpl; [apply IH | reflexivity | reflexivity].
Qed.

Lemma foldM_fuel : forall A B (f : A -> B -> M A) l a,
  (forall a b, In b l -> f a b <> OutOfFuel) -> foldM f l a <> OutOfFuel.
Proof.
  intros A B f l. induction l as [| x l IH]; intros a H; simpl; [congruence |].
  apply bind_fuel.
  - apply H. left. reflexivity.
  - intros a' _. apply IH. intros a0 b0 Hin. apply H. right. exact Hin.
Qed.

(** A fold that never fails is [fold_left]. *)
Lemma foldM_ret : forall A B (f : A -> B -> M A) (g : A -> B -> A) l a,
  (forall a b, In b l -> f a b = Ret (g a b)) -> foldM f l a = Ret (fold_left g l a).
Proof.
  intros A B f g l. induction l as [| x l IH]; intros a H; simpl; [reflexivity |].
  rewrite H by (left; reflexivity). simpl. apply IH. intros. apply H. right. assumption.
Qed.

Lemma foldM_ext : forall A B (f g : A -> B -> M A) l a,
  (forall a b, In b l -> f a b = g a b) -> foldM f l a = foldM g l a.
Proof.
  intros A B f g l. induction l as [| x l IH]; intros a H; simpl; [reflexivity |].
  rewrite H by (left; reflexivity). destruct (g a x); simpl; auto.
  apply IH. intros. apply H. right. assumption.
Qed.

(** Association lists *)
Section AListFacts.
  Context {K V : Type} (eqb : K -> K -> bool).
  Hypothesis eqb_ok : forall a b, eqb a b = true <-> a = b.

  Lemma eqb_neq : forall a b, a <> b -> eqb a b = false.
  Proof. intros a b H. destruct (eqb a b) eqn:E; [apply eqb_ok in E; contradiction | reflexivity]. Qed.

  Lemma aget_aset : forall k k' (v : V) m,
    aget eqb k (aset eqb k' v m) = if eqb k k' then Some v else aget eqb k m.
  Proof.
    intros k k' v m. induction m as [| [k0 v0] m IH]; simpl.
    - reflexivity.
    - destruct (eqb k' k0) eqn:E.
      + apply eqb_ok in E. subst. simpl. destruct (eqb k k0) eqn:E2; reflexivity.
      + simpl. rewrite IH. destruct (eqb k k0) eqn:E2; [| reflexivity].
        apply eqb_ok in E2. subst k0. destruct (eqb k k') eqn:E3; [| reflexivity].
        apply eqb_ok in E3. subst k'. assert (eqb k k = true) by (apply eqb_ok; reflexivity). congruence.
  Qed.

  Lemma aget_aset_same : forall k (v : V) m, aget eqb k (aset eqb k v m) = Some v.
  Proof. intros. rewrite aget_aset. replace (eqb k k) with true; [reflexivity |]. symmetry. apply eqb_ok. reflexivity. Qed.

  Lemma aget_aset_other : forall k k' (v : V) m, k <> k' -> aget eqb k (aset eqb k' v m) = aget eqb k m.
  Proof. intros. rewrite aget_aset, eqb_neq by assumption. reflexivity. Qed.

  Lemma aget_in : forall k (v : V) m, aget eqb k m = Some v -> In (k, v) m.
  Proof.
    intros k v m. induction m as [| [k0 v0] m IH]; simpl; [congruence |].
    destruct (eqb k k0) eqn:E; intros H.
    - apply eqb_ok in E. inv H. left. reflexivity.
    - right. apply IH. exact H.
  Qed.

  Lemma aget_none : forall k (m : list (K * V)), aget eqb k m = None <-> ~ In k (map fst m).
  Proof.
    intros k m. induction m as [| [k0 v0] m IH]; simpl; [split; auto |].
    destruct (eqb k k0) eqn:E.
    - apply eqb_ok in E. subst. split; [congruence |]. intros H. exfalso. apply H. left. reflexivity.
    - rewrite IH. split.
      + intros H [-> | I]; [| auto]. assert (eqb k k = true) by (apply eqb_ok; reflexivity). congruence.
      + intros H I. apply H. right. exact I.
  Qed.

  Lemma aset_keys : forall k (v : V) m,
    map fst (aset eqb k v m) = if existsb (eqb k) (map fst m) then map fst m else map fst m ++ [k].
  Proof.
    intros k v m. induction m as [| [k0 v0] m IH]; simpl; [reflexivity |].
    destruct (eqb k k0) eqn:E; simpl; [reflexivity |].
    rewrite IH. destruct (existsb (eqb k) (map fst m)); reflexivity.
  Qed.

  Lemma aset_nodup : forall k (v : V) m, NoDup (map fst m) -> NoDup (map fst (aset eqb k v m)).
  Proof.
    intros k v m H. rewrite aset_keys. destruct (existsb (eqb k) (map fst m)) eqn:E; [exact H |].
    apply NoDup_rev in H. rewrite <- (rev_involutive (map fst m ++ [k])). apply NoDup_rev.
    rewrite rev_app_distr. simpl. constructor; [| exact H].
    intros I. apply in_rev in I. assert (existsb (eqb k) (map fst m) = true).
    { apply existsb_exists. exists k. split; [exact I | apply eqb_ok; reflexivity]. }
    congruence.
  Qed.

  Lemma in_aget : forall k (v : V) m, NoDup (map fst m) -> In (k, v) m -> aget eqb k m = Some v.
  Proof.
    intros k v m. induction m as [| [k0 v0] m IH]; simpl; [contradiction |].
    intros ND [E | I].
    - inv E. replace (eqb k k) with true; [reflexivity |]. symmetry. apply eqb_ok. reflexivity.
    - inversion ND as [| ? ? NI ND']; subst. rewrite eqb_neq; [apply IH; assumption |].
      intros ->. apply NI. apply (in_map fst) in I. exact I.
  Qed.

  Lemma aget_or_aset : forall k k' (v d : V) m,
    aget_or eqb k d (aset eqb k' v m) = if eqb k k' then v else aget_or eqb k d m.
  Proof. intros. unfold aget_or. rewrite aget_aset. destruct (eqb k k'); reflexivity. Qed.
End AListFacts.
