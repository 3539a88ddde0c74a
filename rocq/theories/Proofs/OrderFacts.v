(** Facts about sorting. *)
From Coq Require Import Lia ZifyN ZifyNat ZifyBool Permutation Sorted.
From Verif.Model Require Import Base.
From Verif.Spec Require Import Order.
From Verif.Proofs Require Import BaseFacts.
Open Scope N_scope.

(** ** Dictionary order *)
Lemma text_lt_nil : forall b, text_lt [] b <-> b <> [].
Proof.
  intros b. split.
  - intros [[y [r ->]] | [c [x [y [r [s [H _]]]]]]]; [discriminate |]. destruct c; discriminate.
  - intros N. destruct b as [| y r]; [contradiction |]. left. exists y, r. reflexivity.
Qed.

Lemma text_lt_nil_r : forall a, ~ text_lt a [].
Proof. intros a [[y [r H]] | [c [x [y [r [s [_ [H _]]]]]]]]; [destruct a | destruct c]; discriminate. Qed.

Lemma text_lt_cons : forall x a y b, text_lt (x :: a) (y :: b) <-> n_of x < n_of y \/ (x = y /\ text_lt a b).
Proof.
  intros x a y b. split.
  - intros [[z [r H]] | [c [u [v [r [s [A [B L]]]]]]]].
    + cbn [app] in H. injection H as -> ->. right. split; [reflexivity |]. left. eauto.
    + destruct c as [| w c]; cbn [app] in A, B.
      * injection A as -> ->. injection B as -> ->. left. exact L.
      * injection A as -> ->. injection B as -> ->. right. split; [reflexivity |]. right. exists c, u, v, r, s. auto.
  - intros [L | [-> [[z [r ->]] | [c [u [v [r [s [-> [-> L]]]]]]]]]].
    + right. exists [], x, y, a, b. auto.
    + left. exists z, r. reflexivity.
    + right. exists (y :: c), u, v, r, s. auto.
Qed.

Lemma str_cmp_cases : forall a b,
  match str_cmp a b with Lt => text_lt a b /\ ~ text_lt b a /\ a <> b | Eq => a = b | Gt => text_lt b a /\ ~ text_lt a b /\ a <> b end.
Proof.
  induction a as [| x a IH]; intros [| y b]; cbn [str_cmp].
  - reflexivity.
  - split; [apply text_lt_nil; discriminate |]. split; [apply text_lt_nil_r | discriminate].
  - split; [apply text_lt_nil; discriminate |]. split; [apply text_lt_nil_r | discriminate].
  - destruct (N.compare_spec (n_of x) (n_of y)) as [E | L | G].
    + apply n_of_inj in E. subst y. specialize (IH b). destruct (str_cmp a b).
      * subst. reflexivity.
      * destruct IH as [I1 [I2 I3]]. rewrite !text_lt_cons. repeat split.
        -- right. auto.
        -- intros [L | [_ L]]; [lia | auto].
        -- intros Q. injection Q as ->. auto.
      * destruct IH as [I1 [I2 I3]]. rewrite !text_lt_cons. repeat split.
        -- right. auto.
        -- intros [L | [_ L]]; [lia | auto].
        -- intros Q. injection Q as ->. auto.
    + rewrite !text_lt_cons. repeat split; [auto | |].
      * intros [G | [-> _]]; lia.
      * intros Q. injection Q as -> _. lia.
    + rewrite !text_lt_cons. repeat split; [auto | |].
      * intros [L | [-> _]]; lia.
      * intros Q. injection Q as -> _. lia.
Qed.

Lemma text_lt_irrefl : forall a, ~ text_lt a a.
Proof.
  induction a as [| x a IH]; intros H; [apply (text_lt_nil_r _ H) |].
  apply text_lt_cons in H. destruct H as [L | [_ L]]; [lia | auto].
Qed.

Lemma text_lt_trans : forall a b c, text_lt a b -> text_lt b c -> text_lt a c.
Proof.
  induction a as [| x a IH]; intros b c AB BC.
  - apply text_lt_nil. intros ->. apply (text_lt_nil_r _ BC).
  - destruct b as [| y b]; [destruct (text_lt_nil_r _ AB) |]. destruct c as [| z c]; [destruct (text_lt_nil_r _ BC) |].
    apply text_lt_cons in AB. apply text_lt_cons in BC. apply text_lt_cons.
    destruct AB as [L | [-> L]], BC as [L' | [-> L']]; [left; lia | left; exact L | left; exact L' | right; split; [reflexivity | eauto]].
Qed.

Lemma text_trichotomy : forall a b, text_lt a b \/ a = b \/ text_lt b a.
Proof. intros a b. pose proof (str_cmp_cases a b) as C. destruct (str_cmp a b); tauto. Qed.

Lemma text_lt_asym : forall a b, text_lt a b -> ~ text_lt b a.
Proof. intros a b H G. apply (text_lt_irrefl a). eapply text_lt_trans; eauto. Qed.

Lemma text_key_order : forall A (f : A -> bytes), key_order (fun x y => text_lt (f x) (f y)).
Proof.
  intros A f. split.
  - intros x. apply text_lt_irrefl.
  - intros x y z. apply text_lt_trans.
  - intros x y z H. destruct (text_trichotomy (f x) (f y)) as [L | [L | L]]; [left; exact L | right; rewrite <- L; exact H |].
    right. eapply text_lt_trans; eauto.
Qed.

(** ** Sorting *)
Lemma insert_by_perm : forall A (cmp : A -> A -> comparison) x l, Permutation (insert_by cmp x l) (x :: l).
Proof.
  intros A cmp x l. induction l as [| y l IH]; cbn [insert_by]; [reflexivity |].
  destruct (cmp x y); try reflexivity. rewrite IH. constructor.
Qed.
Lemma sort_by_perm : forall A (cmp : A -> A -> comparison) l, Permutation (sort_by cmp l) l.
Proof.
  intros A cmp l. induction l as [| x l IH]; cbn [sort_by]; [reflexivity |].
  rewrite insert_by_perm. constructor. exact IH.
Qed.

Lemma insert_by_map : forall A B (f : A -> B) cmp x l,
  insert_by cmp (f x) (map f l) = map f (insert_by (fun a b => cmp (f a) (f b)) x l).
Proof.
  intros A B f cmp x l. induction l as [| y l IH]; cbn [insert_by map]; [reflexivity |].
  destruct (cmp (f x) (f y)); cbn [map]; [reflexivity | reflexivity | rewrite IH; reflexivity].
Qed.
Lemma sort_by_map : forall A B (f : A -> B) cmp l, sort_by cmp (map f l) = map f (sort_by (fun a b => cmp (f a) (f b)) l).
Proof.
  intros A B f cmp l. induction l as [| x l IH]; cbn [sort_by map]; [reflexivity |]. rewrite IH. apply insert_by_map.
Qed.

Lemma map_fst_combine : forall A B (a : list A) (b : list B), length a = length b -> map fst (combine a b) = a.
Proof.
  intros A B. induction a as [| x a IH]; intros [| y b] L; try discriminate; [reflexivity |].
  cbn [combine map fst]. rewrite IH by (injection L as L; exact L). reflexivity.
Qed.

Section Sort.
  Context {A : Type} (before : A -> A -> Prop) (cmp : A -> A -> comparison).
  Hypothesis KO : key_order before.
  Hypothesis CMP : forall x y, cmp x y = Gt <-> before y x.
  Let R (x y : A * nat) : Prop := before (fst x) (fst y) \/ (~ before (fst y) (fst x) /\ (snd x < snd y)%nat).

  Lemma insert_sorted : forall x l, Forall (fun y => (snd x < snd y)%nat) l -> StronglySorted R l ->
    StronglySorted R (insert_by (fun a b => cmp (fst a) (fst b)) x l).
  Proof.
    intros x l. induction l as [| y l IH]; intros T S; cbn [insert_by].
    - constructor; constructor.
    - inversion S as [| ? ? S' F]. subst. inversion T as [| ? ? TY T']. subst.
      assert (cmp (fst x) (fst y) = Gt \/ cmp (fst x) (fst y) <> Gt) as [G | G]
        by (destruct (cmp (fst x) (fst y)); [right; discriminate | right; discriminate | left; reflexivity]).
      + rewrite G. constructor; [apply IH; assumption |].
        assert (Forall (R y) (x :: l)) as F'.
        { constructor; [| exact F]. left. apply CMP. exact G. }
        eapply Permutation_Forall; [| exact F']. symmetry. apply insert_by_perm.
      + assert (Forall (R x) (y :: l)) as FX.
        { assert (~ before (fst y) (fst x)) as NB by (intros B; apply G, CMP, B).
          constructor; [right; auto |]. rewrite Forall_forall in F, T'. apply Forall_forall. intros z Z. right.
          split; [| apply T'; exact Z]. intros B. specialize (F z Z).
          destruct F as [F | [F _]].
          - apply NB. eapply (ko_trans _ KO); eauto.
          - destruct (ko_tie _ KO (fst z) (fst y) (fst x) B); auto. }
        destruct (cmp (fst x) (fst y)); [| | contradiction]; (constructor; [exact S | exact FX]).
  Qed.

  Lemma sort_tagged : forall l k, StronglySorted R (sort_by (fun a b => cmp (fst a) (fst b)) (combine l (seq k (length l)))).
  Proof.
    induction l as [| x l IH]; intros k; cbn [length seq combine sort_by]; [constructor |].
    apply insert_sorted; [| apply IH].
    eapply Permutation_Forall; [symmetry; apply sort_by_perm |]. apply Forall_forall. intros [y n] I.
    apply in_combine_r in I. apply in_seq in I. cbn [snd]. lia.
  Qed.

  Lemma stable_order_sort : forall l, stable_order before l (sort_by cmp l).
  Proof.
    intros l. exists (sort_by (fun a b => cmp (fst a) (fst b)) (combine l (seq 0 (length l)))).
    split; [| split].
    - rewrite <- sort_by_map, map_fst_combine by (rewrite seq_length; reflexivity). reflexivity.
    - apply sort_by_perm.
    - apply sort_tagged.
  Qed.
End Sort.

Lemma sorted_unique_in : forall A (R : A -> A -> Prop) l1 l2,
  (forall a b, In a l1 -> In b l1 -> R a b -> R b a -> a = b) ->
  StronglySorted R l1 -> StronglySorted R l2 -> Permutation l1 l2 -> l1 = l2.
Proof.
  intros A R. induction l1 as [| a l1 IH]; intros l2 AS S1 S2 P.
  - apply Permutation_nil in P. subst. reflexivity.
  - destruct l2 as [| b l2]; [symmetry in P; apply Permutation_nil in P; discriminate |].
    inversion S1 as [| ? ? S1' F1]. subst. inversion S2 as [| ? ? S2' F2]. subst.
    assert (a = b) as E.
    { assert (In a (b :: l2)) as I by (eapply Permutation_in; [exact P | left; reflexivity]).
      assert (In b (a :: l1)) as J by (eapply Permutation_in; [symmetry; exact P | left; reflexivity]).
      destruct I as [I | I]; [auto |]. pose proof J as J0. destruct J as [J | J]; [auto |].
      rewrite Forall_forall in F1, F2. apply AS; [left; reflexivity | exact J0 | apply F1; exact J | apply F2; exact I]. }
    subst b. f_equal. apply IH; try assumption.
    + intros x y X Y. apply AS; right; assumption.
    + apply Permutation_cons_inv in P. exact P.
Qed.

Lemma stable_order_unique : forall A (before : A -> A -> Prop), key_order before ->
  forall l r r', stable_order before l r -> stable_order before l r' -> r = r'.
Proof.
  intros A before KO l r r' [t [-> [P S]]] [t' [-> [P' S']]]. f_equal. eapply sorted_unique_in; [| exact S | exact S' |].
  - intros [a i] [b j] _ _ [B | [B B']] [C | [C C']]; cbn [fst snd] in *.
    + exfalso. apply (ko_irrefl _ KO a). eapply (ko_trans _ KO); eauto.
    + contradiction.
    + contradiction.
    + lia.
  - rewrite P, P'. reflexivity.
Qed.

Lemma stable_order_perm : forall A (before : A -> A -> Prop) l r, stable_order before l r -> Permutation r l.
Proof.
  intros A before l r [t [-> [P _]]]. rewrite <- (map_fst_combine A nat l (seq 0 (length l))) at 1 by (rewrite seq_length; reflexivity).
  apply Permutation_map. exact P.
Qed.

Lemma StronglySorted_map : forall A B (f : A -> B) (R : B -> B -> Prop) l,
  StronglySorted (fun x y => R (f x) (f y)) l -> StronglySorted R (map f l).
Proof.
  intros A B f R l S. induction S as [| x l S IH F]; cbn [map]; constructor; [exact IH |].
  apply Forall_map. exact F.
Qed.

Lemma StronglySorted_weaken : forall A (R R' : A -> A -> Prop) l, (forall x y, R x y -> R' x y) ->
  StronglySorted R l -> StronglySorted R' l.
Proof.
  intros A R R' l W S. induction S as [| x l S IH F]; constructor; [exact IH |].
  eapply Forall_impl; [| exact F]. intros y. apply W.
Qed.

Lemma stable_order_sorted : forall A (before : A -> A -> Prop) l r, key_order before ->
  stable_order before l r -> in_order_of before r.
Proof.
  intros A before l r KO [t [-> [_ S]]]. unfold in_order_of. apply StronglySorted_map.
  eapply StronglySorted_weaken; [| exact S]. intros [x i] [y j]; cbn [fst snd]. intros [B | [B _]] C; [| contradiction].
  apply (ko_irrefl _ KO x). eapply (ko_trans _ KO); eauto.
Qed.

(** two orders of the same elements agree up to elements with equal keys *)
Lemma in_order_unique : forall A (before : A -> A -> Prop) r r',
  (forall a b, In a r -> In b r -> ~ before a b -> ~ before b a -> a = b) ->
  in_order_of before r -> in_order_of before r' -> Permutation r r' -> r = r'.
Proof. intros A before r r' H S S' P. eapply sorted_unique_in; [| exact S | exact S' | exact P]. intros a b IA IB X Y. apply H; assumption. Qed.
