(** The exact condition on the second name of an obituary *)
From Coq Require Import Lia ZifyN ZifyNat ZifyBool.
From Verif.Model Require Import Base FragEvent.
From Verif.Spec Require Import Occ Obituary Names.
From Verif.Proofs Require Import BaseFacts ObituaryFacts NameFacts.

Lemma fits_stands : forall l1 p l2 q x y x' y', phrases = l1 ++ p :: l2 -> In q l1 -> clear_first x ->
  fits q (obituary p x y) x' y' -> stands q (ph_before p ++ y ++ ph_after p).
Proof.
  intros l1 p l2 q x y x' y' T I CX F. pose proof table_apart_ok as TA. rewrite T in TA. apply table_apart_in in TA.
  destruct TA as [AL AP]. specialize (AP q (or_introl I)). assert (Q : In q phrases) by (rewrite T; apply in_or_app; left; exact I).
  unfold stands. destruct (ph_kind q) eqn:KQ.
  3: { pose proof (suicide_text q Q KQ) as TQ. unfold fits in F. rewrite KQ in F. destruct F as [[n F] _]. rewrite concat_repeat_snoc, app_assoc in F.
    unfold obituary in F. destruct (app_eq_app _ _ _ _ F) as [l [[A B] | [A B]]].
    - unfold alone in AL. both AL. both AL. apply starts_with_true in H0. destruct H0 as [a H0].
      destruct l as [| c l]; [exists []; cbn [app] in *; symmetry; exact B |]. exfalso. rewrite H0, TQ in B.
      change (lit " suicides") with (x20 :: lit "suicides") in B. cbn [app] in B. injection B as _ B.
      assert (Y : In x20 (lit "suicides")). { rewrite B. apply in_or_app. right. left. reflexivity. }
      vm_compute in Y. repeat (destruct Y as [Y | Y]; [discriminate Y |]). exact Y.
    - exists l. exact B. }
  all: assert (KS : ph_kind q <> KSuicides) by (rewrite KQ; discriminate);
    apply (fits_other q _ _ _ KS) in F; destruct F as [r [F [FA FR]]]; rewrite KQ in FR; cbn [has_two_names] in FR;
    assert (NC : no_cross (ph_before q) (ph_before p) = true) by (unfold apart in AP; both AP; both AP; both AP; both AP; exact AP);
    assert (L : len x <= len x') by (eapply no_cross_ok; [exact Q | exact KS | exact NC | exact CX | exact (proj1 FA)]);
    assert (TL : exists s, ph_before p ++ y ++ ph_after p = s ++ ph_before q ++ r);
    [ unfold obituary in F; destruct (app_eq_app _ _ _ _ F) as [l [[A B] | [A B]]];
      [ rewrite A, len_app in L; assert (Z : l = []) by (destruct l; [reflexivity | rewrite len_cons in L; lia]); subst l;
        exists []; cbn [app] in *; symmetry; exact B
      | exists l; exact B ]
    | destruct TL as [s TL] ].
  1-4: assert (AF : ph_after q = []) by (clear - Q KQ; assert (X : forallb (fun q => has_two_names (ph_kind q) || is_empty (ph_after q)) phrases = true)
      by (vm_compute; reflexivity); rewrite forallb_forall in X; specialize (X q Q); cbv beta in X; rewrite KQ in X; cbn [has_two_names orb] in X;
      destruct (ph_after q); [reflexivity | discriminate X]); exists s, r, []; rewrite AF; cbn [app]; rewrite app_nil_r; exact TL.
  all: destruct (ph_after q) as [| c a] eqn:AF; [exists s, r, []; cbn [app]; rewrite app_nil_r; exact TL |];
    specialize (FR eq_refl ltac:(discriminate)); destruct FR as [u [v FR]]; exists s, u, v; rewrite TL, FR; reflexivity.
Qed.

Lemma first_exists : forall d p, occurs d p -> exists a b, d = a ++ p ++ b /\ first_at d p (len a).
Proof.
  intros d p O. apply is_some_find in O. destruct (find d p) as [i |] eqn:F; [| discriminate O].
  apply find_some in F. pose proof F as G. destruct F as [[a [b [A L]]] _]. subst i. exists a, b. auto.
Qed.

(** Words that stand in the end of a text make the phrase fit the text. *)
Lemma stands_fits : forall q t x, In q phrases -> stands q t -> exists x' y', fits q (x ++ t) x' y'.
Proof.
  intros q t x Q S. pose proof (phrases_before q Q) as NB. unfold stands in S. unfold fits. destruct (ph_kind q) eqn:K.
  3: { destruct S as [z ->].
    assert (EW : ends_with (x ++ z ++ ph_before q) (ph_before q) = true) by (apply ends_with_true; exists (x ++ z); rewrite app_assoc; reflexivity).
    destruct (proj1 (trim_matches_iff (ph_before q) _ _ NB) (conj EW eq_refl)) as [A B].
    eexists; exists []. split; [exact A |]. split; [exact B | reflexivity]. }
  all: destruct S as [a [b [c ->]]]; destruct (first_exists (x ++ a ++ ph_before q ++ b ++ ph_after q ++ c) (ph_before q)) as [u [r [E F]]];
    [exists (x ++ a), (b ++ ph_after q ++ c); rewrite <- app_assoc; reflexivity |]; cbn [has_two_names].
  1-4: exists u, []; exists r; auto.
  all: destruct (ph_after q) as [| d e] eqn:AF; [exists u, r, r; split; [exact E |]; split; [exact F |]; left; auto |]; rewrite <- AF in *.
  1-2: assert (O : occurs r (ph_after q)).
  1, 3: (destruct F as [_ F]; specialize (F (len (x ++ a))); assert (L : len u <= len (x ++ a)) by (apply F; exists (x ++ a), (b ++ ph_after q ++ c); rewrite <- app_assoc; auto);
    assert (X : (x ++ a ++ ph_before q) ++ b ++ ph_after q ++ c = (u ++ ph_before q) ++ r) by (rewrite <- !app_assoc in *; exact E);
    destruct (app_eq_app _ _ _ _ X) as [l [[A B] | [A B]]];
    [ exists (l ++ b), c; rewrite B, <- app_assoc; reflexivity
    | assert (Z : l = []) by (apply (f_equal len) in A; rewrite !len_app in *; destruct l; [reflexivity | rewrite len_cons in A; lia]);
      subst l; cbn [app] in B; exists b, c; symmetry; exact B ]).
  all: destruct (first_exists _ _ O) as [v [w [V W]]]; exists u, v, r; split; [exact E |]; split; [exact F |]; right;
    split; [rewrite AF; discriminate |]; exists w; split; assumption.
Qed.

Definition count (c : byte) (s : str) : nat := count_occ Byte.byte_eq_dec s c.
(** two phrases with two names that cannot be read for each other with the names swapped *)
Definition letters (p q : phrase) : bool :=
  existsb (fun c => Nat.ltb (count c (ph_before p ++ ph_after p)) (count c (ph_before q ++ ph_after q)) ||
    (is_empty (ph_after q) && negb (Nat.eqb (count c (ph_before p ++ ph_after p)) (count c (ph_before q ++ ph_after q)))))
    (lit " abcdefghijklmnopqrstuvwxyz'-28").
Lemma letters_ok : forallb (fun p => forallb (fun q => negb (has_two_names (ph_kind p) && has_two_names (ph_kind q)) ||
  same_kind (ph_kind p) (ph_kind q) || letters p q) phrases) phrases = true.
Proof. vm_compute. reflexivity. Qed.
Lemma not_swapped : forall p q x y t, In p phrases -> In q phrases -> has_two_names (ph_kind p) = true -> has_two_names (ph_kind q) = true ->
  ph_kind p <> ph_kind q -> (ph_after q = [] -> t = []) ->
  x ++ ph_before p ++ y ++ ph_after p <> y ++ ph_before q ++ x ++ ph_after q ++ t.
Proof.
  intros p q x y t P Q WP WQ K ET H. pose proof letters_ok as T. rewrite forallb_forall in T. specialize (T p P). cbv beta in T.
  rewrite forallb_forall in T. specialize (T q Q). cbv beta in T. rewrite WP, WQ in T. cbn [andb negb orb] in T.
  apply orb_true_iff in T. destruct T as [T | T]; [apply same_kind_true in T; contradiction |].
  unfold letters in T. apply existsb_exists in T. destruct T as [c [_ T]].
  apply (f_equal (count c)) in H. unfold count in *. rewrite !count_occ_app in *.
  destruct (ph_after q) as [| d e]; [rewrite (ET eq_refl) in H; cbn [is_empty andb count_occ] in *; lia |].
  cbn [is_empty andb] in T. rewrite orb_false_r in T. lia.
Qed.

Lemma phrases_nodup : forall l1 p l2 m1 m2, phrases = l1 ++ p :: l2 -> phrases = m1 ++ p :: m2 -> l1 = m1.
Proof.
  assert (ND : NoDup phrases).
  { assert (D : forall a b : phrase, {a = b} + {a <> b}) by (intros a b; repeat decide equality).
    assert (X : NoDup (map (fun p => ph_before p ++ [x00] ++ ph_after p) phrases)).
    { assert (G : forall l : list str, (fix nd l := match l with [] => true | x :: r => negb (existsb (beq x) r) && nd r end) l = true -> NoDup l).
      { induction l as [| x l IH]; intros H; [constructor |]. apply andb_true_iff in H. destruct H as [A B]. constructor; [| auto].
        intros I. apply negb_true_iff in A. assert (existsb (beq x) l = true); [| congruence]. apply existsb_exists. exists x.
        split; [exact I | apply beq_refl]. }
      apply G. vm_compute. reflexivity. }
    exact (NoDup_map_inv _ _ X). }
  intros l1 p l2 m1 m2 A B. rewrite A in ND, B. clear A. revert m1 B ND.
  induction l1 as [| a l1 IH]; intros [| b m1] H ND; cbn [app] in *.
  - reflexivity.
  - exfalso. injection H as <- H. inversion ND as [| ? ? X Y]; subst. apply X, in_or_app. right. left. reflexivity.
  - exfalso. injection H as -> H. inversion ND as [| ? ? X Y]; subst. apply X, in_or_app. right. left. reflexivity.
  - injection H as -> H. inversion ND; subst. f_equal. apply IH; assumption.
Qed.

(** phrases of one kind with the same beginning have ends of which none begins with the other *)
Lemma ends_apart : forall p q, In p phrases -> In q phrases -> ph_kind p = ph_kind q -> ph_before p = ph_before q ->
  starts_with (ph_after p) (ph_after q) = true -> p = q.
Proof.
  intros p q P Q K B S.
  assert (T : forallb (fun p => forallb (fun q => negb (same_kind (ph_kind p) (ph_kind q) && beq (ph_before p) (ph_before q) &&
    starts_with (ph_after p) (ph_after q)) || beq (ph_after p) (ph_after q)) phrases) phrases = true) by (vm_compute; reflexivity).
  rewrite forallb_forall in T. specialize (T p P). cbv beta in T. rewrite forallb_forall in T. specialize (T q Q). cbv beta in T.
  rewrite (proj2 (same_kind_true _ _) K), B, beq_refl, S in T. cbn [andb negb orb] in T. apply beq_eq in T. destruct p, q. cbn in *. congruence.
Qed.

Lemma second_exact_proof : forall l1 p l2 x y, phrases = l1 ++ p :: l2 -> has_two_names (ph_kind p) = true -> clear_first x ->
  (frag_event_from (obituary p x y) = Ok (event (ph_kind p) x y) <->
   Forall (fun q => ~ stands q (ph_before p ++ y ++ ph_after p)) l1 /\ (ph_after p <> [] -> ~ occurs y (ph_after p))).
Proof.
  intros l1 p l2 x y T W CX. rewrite reads_iff.
  assert (P : In p phrases) by (rewrite T; apply in_or_app; right; left; reflexivity).
  assert (KS : ph_kind p <> KSuicides) by (intros K; rewrite K in W; discriminate W). split.
  - intros [m1 [q [m2 [x' [y' [T' [F [N E]]]]]]]].
    assert (Q : In q phrases) by (rewrite T'; apply in_or_app; right; left; reflexivity).
    assert (PQ : p = q /\ exists r, obituary p x y = x ++ ph_before p ++ r /\
      ((ph_after p = [] /\ y = r) \/ (ph_after p <> [] /\ exists t, r = y ++ ph_after p ++ t /\ first_at r (ph_after p) (len y)))).
    { assert (EK : (ph_kind p = ph_kind q /\ x = x' /\ y = y') \/ (ph_kind p <> ph_kind q /\ has_two_names (ph_kind q) = true /\ x = y' /\ y = x')).
      { destruct (event_kind _ _ _ _ _ _ E) as [_ E2]. destruct (E2 W) as [L | [WQ R]]; [left; exact L |].
        clear - E W WQ. destruct (ph_kind p), (ph_kind q); try discriminate W; try discriminate WQ; cbn [event] in E; injection E as -> ->;
          first [left; repeat split; reflexivity | right; repeat split; discriminate]. }
      destruct EK as [[K [-> ->]] | [K [WQ [-> ->]]]].
      - assert (FF : exists r, obituary p x' y' = x' ++ ph_before q ++ r /\
          ((ph_after q = [] /\ y' = r) \/ (ph_after q <> [] /\ exists t, r = y' ++ ph_after q ++ t /\ first_at r (ph_after q) (len y')))).
        { unfold fits in F. rewrite <- K in F. destruct (ph_kind p); try discriminate W;
            destruct F as [r [A [_ B]]]; exists r; split; assumption. }
        destruct FF as [r [A B]]. unfold obituary in A. apply app_inv_head in A.
        assert (BE : ph_before p = ph_before q) by (apply kinds_apart; [exact P | exact Q | exact K | eapply agrees_true; exact A]).
        rewrite BE in A. apply app_inv_head in A.
        assert (PQ : p = q).
        { apply ends_apart; try assumption. destruct B as [[B1 ->] | [B1 [t [B2 _]]]].
          - rewrite B1. destruct (ph_after p); reflexivity.
          - rewrite B2 in A. apply app_inv_head in A. rewrite A. apply starts_with_app. }
        subst q. split; [reflexivity |]. exists r. split; [unfold obituary; rewrite A; reflexivity | exact B].
      - exfalso. assert (FF : exists t, obituary p y' x' = x' ++ ph_before q ++ y' ++ ph_after q ++ t /\ (ph_after q = [] -> t = [])).
          { unfold fits in F. destruct (ph_kind q); try discriminate WQ; destruct F as [r [A [_ [[B1 B2] | [B1 [t [B2 _]]]]]]];
              [exists [] | exists t | exists [] | exists t]; (split; [| auto; contradiction]); rewrite A; subst; rewrite ?B1, ?app_nil_r; reflexivity. }
          destruct FF as [t [A B]]. exact (not_swapped p q y' x' t P Q W WQ K B A). }
    destruct PQ as [<- [r [A B]]]. pose proof (phrases_nodup _ _ _ _ _ T T') as <-. split.
    + rewrite Forall_forall in N |- *. intros q0 I S. apply (N q0 I).
      apply stands_fits; [rewrite T; apply in_or_app; left; exact I | exact S].
    + intros NE [u [v O]]. destruct B as [[B _] | [_ [t [B1 [_ B2]]]]]; [contradiction |].
      specialize (B2 (len u)). assert (L : len y <= len u).
      { apply B2. exists u, (v ++ ph_after p ++ t). split; [rewrite B1, O, <- !app_assoc; reflexivity | reflexivity]. }
      apply (f_equal len) in O. rewrite !len_app in O. destruct (ph_after p); [contradiction NE; reflexivity | rewrite len_cons in O; lia].
  - intros [N NA]. exists l1, p, l2, x, y. split; [exact T |]. split; [| split; [| reflexivity]].
    2: { rewrite Forall_forall in N |- *. intros q I [x' [y' F]]. apply (N q I). eapply fits_stands; eauto. }
    pose proof table_apart_ok as TA. rewrite T in TA. apply table_apart_in in TA. destruct TA as [AL _].
    unfold alone in AL. both AL. both AL. both AL. rename AL into A1, H1 into A2, H0 into A3. clear H.
    assert (FA : first_at (obituary p x y) (ph_before p) (len x))
      by (eapply first_before; [reflexivity |]; intros j J; eapply no_cross_ok; [exact P | exact KS | exact A1 | exact CX | exact J]).
    assert (G : exists r, obituary p x y = x ++ ph_before p ++ r /\ first_at (obituary p x y) (ph_before p) (len x) /\
      ((ph_after p = [] /\ y = r) \/ (ph_after p <> [] /\ exists t, r = y ++ ph_after p ++ t /\ first_at r (ph_after p) (len y)))).
    { exists (y ++ ph_after p). split; [reflexivity |]. split; [exact FA |].
      destruct (ph_after p) as [| c a] eqn:AF; [left; rewrite app_nil_r; split; reflexivity |]. right. split; [discriminate |].
      exists []. rewrite app_nil_r. split; [reflexivity |]. eapply first_before; [rewrite app_nil_r; reflexivity |].
      intros j [s [t [H L]]]. subst j. destruct (app_eq_app _ _ _ _ H) as [l [[A B] | [A B]]]; [| rewrite A, len_app; lia].
      destruct (app_eq_app _ _ _ _ B) as [m [[D F] | [D F]]].
      - destruct l as [| d l]; [rewrite app_nil_r in A; subst; lia |]. exfalso. destruct m as [| d' m].
        + apply (NA ltac:(discriminate)). rewrite D, app_nil_r. exists s, []. rewrite app_nil_r. exact A.
        + rewrite forallb_forall in A2. specialize (A2 (d :: l, d' :: m)). rewrite D in A2.
          specialize (A2 (cuts_in (d :: l) (d' :: m) ltac:(discriminate) ltac:(discriminate))). cbv beta iota in A2.
          rewrite <- D, F, starts_with_app in A2. discriminate A2.
      - exfalso. apply (NA ltac:(discriminate)). exists s, m. rewrite A, D. reflexivity. }
    unfold fits. destruct (ph_kind p); try discriminate W; exact G.
Qed.
