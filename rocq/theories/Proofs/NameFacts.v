(** Proofs for Properties/Names.v *)
From Coq Require Import Lia ZifyN ZifyNat ZifyBool.
From Verif.Model Require Import Base FragEvent.
From Verif.Spec Require Import Occ Obituary Names.
From Verif.Proofs Require Import BaseFacts ObituaryFacts.
From Verif.Proofs Require ClientFacts.

Lemma occurs_cases : forall a b p, occurs (a ++ b) p -> occurs a p \/ occurs b p \/
  exists p1 p2 u v, p1 <> [] /\ p2 <> [] /\ p = p1 ++ p2 /\ a = u ++ p1 /\ b = p2 ++ v.
Proof.
  intros a b p [s [t H]]. destruct (app_eq_app _ _ _ _ H) as [l [[A B] | [A B]]].
  - symmetry in B. destruct (app_eq_app _ _ _ _ (eq_sym B)) as [m [[C D] | [C D]]].
    + (* p = l ++ m *) destruct l as [| c l]; [right; left; exists [], t; cbn [app] in *; subst; exact D |].
      destruct m as [| d m]; [left; exists s, []; rewrite app_nil_r in *; subst; reflexivity |].
      right. right. exists (c :: l), (d :: m), s, t. repeat split; try discriminate; assumption.
    + left. exists s, m. rewrite A, C. reflexivity.
  - right. left. exists l, t. exact B.
Qed.

(** [p] goes on where [a] does, as far as both go. *)
Definition agrees (p a : str) : bool := starts_with p a || starts_with a p.
Lemma agrees_true : forall p a u v, p ++ u = a ++ v -> agrees p a = true.
Proof.
  intros p a u v H. unfold agrees. destruct (app_eq_app _ _ _ _ H) as [l [[A _] | [A _]]]; subst; rewrite starts_with_app.
  - reflexivity.
  - apply orb_true_r.
Qed.

Fixpoint cuts (p : str) : list (str * str) :=
  match p with
  | [] => []
  | c :: r => match r with [] => [] | _ => ([c], r) :: map (fun '(a, b) => (c :: a, b)) (cuts r) end
  end.
Lemma cuts_in : forall p1 p2, p1 <> [] -> p2 <> [] -> In (p1, p2) (cuts (p1 ++ p2)).
Proof.
  induction p1 as [| c p1 IH]; intros p2 A B; [destruct (A eq_refl) |]. destruct p1 as [| d p1].
  - cbn [app cuts]. destruct p2; [destruct (B eq_refl) |]. left. reflexivity.
  - cbn [app cuts]. right. apply in_map_iff. exists (d :: p1, p2). split; [reflexivity |]. apply IH; [discriminate | exact B].
Qed.

(** [q] cannot begin in a name in front of [a], but for ... *)
Definition no_cross (q a : str) : bool :=
  forallb (fun '(q1, q2) => negb (agrees q2 a) || beq q2 space || (beq q1 (lit " was") && beq q2 (lit " squished"))) (cuts q).
(** nor in a name in front of the end [c] *)
Definition no_cross_end (q c : str) : bool :=
  forallb (fun '(q1, q2) => negb (starts_with c q2) || beq q2 space) (cuts q).
(** nor inside [a] with a name behind it *)
Definition no_inside (q a : str) : bool :=
  negb (occb (tl a) q) &&
  forallb (fun '(q1, q2) => negb (ends_with (removelast (tl a)) q1 && starts_with q2 space)) (cuts q).

Definition mates : list str := [lit "his teammate"; lit "her teammate"].
(** [q] before [p] in the table *)
Definition apart (q p : phrase) : bool :=
  no_cross (ph_before q) (ph_before p) && no_inside (ph_before q) (ph_before p) &&
  negb (occb (ph_after p) (ph_before q)) && no_cross_end (ph_before q) (ph_after p) &&
  (negb (agrees (ph_before q) (ph_before p)) ||
   (beq (ph_before q) (ph_before p) && has_two_names (ph_kind q) && negb (is_empty (ph_after q)) && negb (occb (ph_after p) (ph_after q)) &&
    forallb (fun '(_, q2) => negb (starts_with (ph_after p) q2)) (cuts (ph_after q))) ||
   (is_empty (ph_after p) && existsb (fun m => beq (ph_before q) (ph_before p ++ m)) mates)).
Definition alone (p : phrase) : bool :=
  no_cross (ph_before p) (ph_before p) && forallb (fun '(_, q2) => negb (starts_with (ph_after p) q2)) (cuts (ph_after p)) &&
  starts_with (ph_before p) space &&
  (if has_two_names (ph_kind p) then ends_with (tl (ph_before p)) space else is_empty (ph_after p)).

Fixpoint table_apart (done todo : list phrase) : bool :=
  match todo with
  | [] => true
  | p :: r => alone p && forallb (fun q => apart q p) done && table_apart (p :: done) r
  end.
Lemma table_apart_ok : table_apart [] phrases = true.
Proof. vm_compute. reflexivity. Qed.
Lemma table_apart_in : forall l1 done p l2, table_apart done (l1 ++ p :: l2) = true ->
  alone p = true /\ forall q, In q l1 \/ In q done -> apart q p = true.
Proof.
  induction l1 as [| a l1 IH]; intros done p l2 H; cbn [app table_apart] in H; apply andb_true_iff in H; destruct H as [H R];
    apply andb_true_iff in H; destruct H as [H A].
  - split; [exact H |]. rewrite forallb_forall in A. intros q [[] | I]. apply A. exact I.
  - destruct (IH _ _ _ R) as [B C]. split; [exact B |]. intros q [[-> | I] | I]; apply C; [right; left; reflexivity | left; exact I | right; right; exact I].
Qed.

Lemma no_cross_ok : forall q a r x j, In q phrases -> ph_kind q <> KSuicides -> no_cross (ph_before q) a = true -> clear_first x ->
  occurs_at (x ++ a ++ r) (ph_before q) j -> len x <= j.
Proof.
  intros q a r x j Q K NC [C1 [_ C3]] [s [t [H L]]]. subst j. destruct (app_eq_app _ _ _ _ H) as [l [[A B] | [A B]]].
  2: { rewrite A, len_app. lia. }
  destruct (app_eq_app _ _ _ _ B) as [m [[D F] | [D F]]].
  - destruct l as [| c l]; [rewrite app_nil_r in A; subst; lia |]. exfalso. destruct m as [| d m].
    + apply (C1 q Q K). exists s, space. rewrite D, A, app_nil_r, app_assoc. reflexivity.
    + unfold no_cross in NC. rewrite forallb_forall in NC. specialize (NC (c :: l, d :: m)). rewrite D in NC.
      specialize (NC (cuts_in (c :: l) (d :: m) ltac:(discriminate) ltac:(discriminate))).
      cbv beta iota in NC. rewrite (agrees_true (d :: m) a t r (eq_sym F)) in NC. cbn [negb] in NC. rewrite orb_false_l in NC.
      apply orb_true_iff in NC. destruct NC as [X | X].
      * apply beq_eq in X. apply (C1 q Q K). exists s, []. rewrite D, X, A, app_nil_r, <- app_assoc. reflexivity.
      * apply andb_true_iff in X. destruct X as [X _]. apply beq_eq in X. apply (C3 s). rewrite A, X. reflexivity.
  - exfalso. apply (C1 q Q K). exists s, (m ++ space). rewrite A, D, <- !app_assoc. reflexivity.
Qed.

Ltac both H := apply andb_true_iff in H; destruct H as [H ?].

Lemma no_inside_ok : forall q p y s t, In q phrases -> apart q p = true -> alone p = true -> clear_second y ->
  (has_two_names (ph_kind p) = false -> y = []) ->
  ph_before p ++ y ++ ph_after p = s ++ ph_before q ++ t -> s = [].
Proof.
  intros q p y s t Q AP AL [C1 _] O H. destruct s as [| c s]; [reflexivity |]. exfalso.
  unfold apart in AP. both AP. both AP. both AP. both AP. rename AP into X1, H3 into X2, H2 into X3, H1 into X4. clear H0.
  unfold alone in AL. both AL. both AL. both AL. clear AL H2.
  apply starts_with_true in H1. destruct H1 as [a A]. rewrite A in H. cbn [app space lit] in H. change (space ++ a) with (x20 :: a) in *. cbn [app] in H.
  injection H as _ H. unfold no_inside in X2. rewrite A in X2. cbn [tl] in X2. both X2. rename H1 into X5. apply negb_true_iff in X2, X3.
  rewrite A in H0. cbn [tl] in H0. destruct (has_two_names (ph_kind p)).
  - apply ends_with_true in H0. destruct H0 as [b ->]. change (b ++ space) with (b ++ [x20]) in X5 at 1. rewrite removelast_last in X5. rewrite <- app_assoc in H.
    assert (OC : occurs (b ++ (space ++ y) ++ ph_after p) (ph_before q)) by (exists s, t; rewrite <- app_assoc; exact H).
    apply occurs_cases in OC. destruct OC as [OC | [OC | [p1 [p2 [u [v [N1 [N2 [E [U V]]]]]]]]]].
    + apply (occb_false _ _ X2). apply ClientFacts.occurs_app_l. exact OC.
    + apply occurs_cases in OC. destruct OC as [OC | [OC | [p1 [p2 [u [v [N1 [N2 [E [U V]]]]]]]]]].
      * apply (C1 q Q). rewrite app_assoc. apply ClientFacts.occurs_app_l. exact OC.
      * exact (occb_false _ _ X3 OC).
      * unfold no_cross_end in X4. rewrite forallb_forall in X4. specialize (X4 (p1, p2)). rewrite E in X4. specialize (X4 (cuts_in p1 p2 N1 N2)).
        cbv beta iota in X4. rewrite V, starts_with_app in X4. cbn [negb] in X4. rewrite orb_false_l in X4. apply beq_eq in X4. subst p2.
        apply (C1 q Q). exists u, []. rewrite E, app_assoc, U, app_nil_r, <- app_assoc. reflexivity.
    + rewrite forallb_forall in X5. specialize (X5 (p1, p2)). rewrite E in X5. specialize (X5 (cuts_in p1 p2 N1 N2)).
      cbv beta iota in X5. assert (Y1 : ends_with b p1 = true) by (apply ends_with_true; exists u; exact U). rewrite Y1 in X5.
      destruct p2 as [| d p2]; [destruct (N2 eq_refl) |]. cbn [app space lit] in V. injection V as <- _. discriminate X5.
  - rewrite (O eq_refl) in H. destruct (ph_after p); [| discriminate H0]. cbn [app] in H. rewrite app_nil_r in H.
    apply (occb_false _ _ X2). exists s, t. exact H.
Qed.

Lemma suicide_text : forall q, In q phrases -> ph_kind q = KSuicides -> ph_before q = lit " suicides".
Proof.
  intros q Q K. assert (T : forallb (fun q => match ph_kind q with KSuicides => beq (ph_before q) (lit " suicides") | _ => true end) phrases = true)
    by (vm_compute; reflexivity).
  rewrite forallb_forall in T. specialize (T q Q). rewrite K in T. apply beq_eq. exact T.
Qed.

Lemma fits_other : forall q msg x y, ph_kind q <> KSuicides -> fits q msg x y ->
  exists r, msg = x ++ ph_before q ++ r /\ first_at msg (ph_before q) (len x) /\
    (has_two_names (ph_kind q) = true -> ph_after q <> [] -> occurs r (ph_after q)).
Proof.
  intros q msg x y K F. unfold fits in F. destruct (ph_kind q); try contradiction; destruct F as [r [A [B C]]]; exists r;
    (split; [exact A |]); (split; [exact B |]); cbn [has_two_names] in *; intros T N; try discriminate T;
    (destruct C as [[X _] | [_ [t [X _]]]]; [contradiction | exists y, t; exact X]).
Qed.

Lemma earlier_unfit : forall l1 p l2 q x y x' y', phrases = l1 ++ p :: l2 -> In q l1 -> clear_first x -> clear_second y ->
  (has_two_names (ph_kind p) = false -> y = []) -> ~ fits q (obituary p x y) x' y'.
Proof.
  intros l1 p l2 q x y x' y' T I CX CY O F. pose proof table_apart_ok as TA. rewrite T in TA. apply table_apart_in in TA.
  destruct TA as [AL AP]. specialize (AP q (or_introl I)). assert (Q : In q phrases) by (rewrite T; apply in_or_app; left; exact I).
  assert (IN : forall s t, ph_before p ++ y ++ ph_after p = s ++ ph_before q ++ t -> s = []) by (intros s t; apply no_inside_ok; assumption).
  assert (START : forall t, ph_before p ++ y ++ ph_after p = ph_before q ++ t ->
    (ph_before q = ph_before p /\ has_two_names (ph_kind q) = true /\ ph_after q <> [] /\ ~ occurs (ph_after p) (ph_after q) /\
     forallb (fun '(_, q2) => negb (starts_with (ph_after p) q2)) (cuts (ph_after q)) = true) \/
    (ph_after p = [] /\ exists m, In m mates /\ ph_before q = ph_before p ++ m)).
  { intros t H. unfold apart in AP. both AP. clear AP. symmetry in H. apply agrees_true in H. rewrite H in H0. cbn [negb] in H0.
    rewrite orb_false_l in H0. apply orb_true_iff in H0. destruct H0 as [X | X].
    - left. both X. both X. both X. both X. apply beq_eq in X. split; [exact X |]. split; [assumption |].
      split; [destruct (ph_after q); [discriminate | discriminate] |]. split; [apply occb_false, negb_true_iff; assumption | assumption].
    - right. both X. split; [destruct (ph_after p); [reflexivity | discriminate] |]. apply existsb_exists in H0.
      destruct H0 as [m [M B]]. exists m. split; [exact M | apply beq_eq; exact B]. }
  destruct (ph_kind q) eqn:KQ.
  3: { (* suicides *)
    pose proof (suicide_text q Q KQ) as TQ. unfold fits in F. rewrite KQ in F. destruct F as [[n F] _]. rewrite concat_repeat_snoc, app_assoc in F.
    unfold obituary in F. destruct (app_eq_app _ _ _ _ F) as [l [[A B] | [A B]]].
    - (* inside the first name *)
      unfold alone in AL. both AL. both AL. apply starts_with_true in H0. destruct H0 as [a H0]. rewrite H0, TQ in B.
      destruct l as [| c l].
      + cbn [app] in B. assert (X : ph_before p ++ y ++ ph_after p = ph_before q ++ []) by (rewrite app_nil_r, TQ, H0; symmetry; exact B).
        destruct (START [] X) as [[_ [Z _]] | [_ [m [M Z]]]]; [discriminate Z |].
        rewrite TQ in Z. assert (Y : ends_with (lit " suicides") m = true) by (apply ends_with_true; exists (ph_before p); exact Z).
        destruct M as [<- | [<- | []]]; vm_compute in Y; discriminate Y.
      + change (lit " suicides") with (x20 :: lit "suicides") in B. cbn [app] in B. injection B as _ B.
        assert (Y : In x20 (lit "suicides")). { rewrite B. apply in_or_app. right. left. reflexivity. }
        vm_compute in Y. repeat (destruct Y as [Y | Y]; [discriminate Y |]). exact Y.
    - (* behind it *)
      assert (X : ph_before p ++ y ++ ph_after p = l ++ ph_before q ++ []) by (rewrite app_nil_r; exact B).
      pose proof (IN _ _ X) as ->. cbn [app] in X.
      destruct (START [] X) as [[_ [Z _]] | [_ [m [M Z]]]]; [discriminate Z |].
      rewrite TQ in Z. assert (Y : ends_with (lit " suicides") m = true) by (apply ends_with_true; exists (ph_before p); exact Z).
      destruct M as [<- | [<- | []]]; vm_compute in Y; discriminate Y. }
  all: assert (KS : ph_kind q <> KSuicides) by (rewrite KQ; discriminate); rewrite <- KQ in START; clear KQ;
    apply (fits_other q _ _ _ KS) in F; destruct F as [r [F [FA FR]]];
    assert (NC : no_cross (ph_before q) (ph_before p) = true) by (unfold apart in AP; both AP; both AP; both AP; both AP; exact AP);
    assert (L : len x <= len x') by (eapply no_cross_ok; [exact Q | exact KS | exact NC | exact CX | exact (proj1 FA)]);
    unfold obituary in F; destruct (app_eq_app _ _ _ _ F) as [l [[A B] | [A B]]];
    [ rewrite A, len_app in L; assert (Z : l = []) by (destruct l; [reflexivity | rewrite len_cons in L; lia]); subst l; cbn [app] in B; symmetry in B
    | pose proof (IN _ _ B) as ->; cbn [app] in B ].
  all: destruct (START _ B) as [[E [TW [AF [N1 N2]]]] | [E [m [M Z]]]];
    [ rewrite E in B; apply app_inv_head in B; specialize (FR TW AF); rewrite <- B in FR; apply occurs_cases in FR;
      destruct FR as [FR | [FR | [p1 [p2 [u [v [P1 [P2 [PE [U V]]]]]]]]]];
      [ exact (proj1 (proj2 CY) q Q AF FR) | exact (N1 FR)
      | rewrite forallb_forall in N2; specialize (N2 (p1, p2)); rewrite PE in N2; specialize (N2 (cuts_in p1 p2 P1 P2)); cbv beta iota in N2;
        rewrite V, starts_with_app in N2; discriminate N2 ]
    | rewrite Z, E, app_nil_r, <- app_assoc in B; apply app_inv_head in B; destruct CY as [_ [_ [Y1 Y2]]];
      destruct M as [<- | [<- | []]]; [exact (Y1 _ B) | exact (Y2 _ B)] ].
Qed.

Lemma first_before : forall (d p a b : bytes), d = a ++ p ++ b -> (forall j, occurs_at d p j -> len a <= j) -> first_at d p (len a).
Proof. intros d p a b H M. split; [exists a, b; split; [exact H | reflexivity] | exact M]. Qed.

Lemma clear_reads : forall p x y, In p phrases -> clear_first x -> clear_second y -> (has_two_names (ph_kind p) = false -> y = []) ->
  reads (obituary p x y) (event (ph_kind p) x y).
Proof.
  intros p x y P CX CY O. destruct (in_split _ _ P) as [l1 [l2 T]]. exists l1, p, l2, x, y. split; [exact T |].
  split; [| split; [| reflexivity]].
  2: { apply Forall_forall. intros q I [x' [y' F]]. exact (earlier_unfit l1 p l2 q x y x' y' T I CX CY O F). }
  pose proof table_apart_ok as TA. rewrite T in TA. apply table_apart_in in TA. destruct TA as [AL _].
  unfold alone in AL. both AL. both AL. both AL. rename AL into A1, H1 into A2, H0 into A3. rename H into A4.
  destruct (ph_kind p) eqn:K.
  3: { unfold fits. rewrite K. cbn [has_two_names] in *. rewrite (O eq_refl). destruct (ph_after p) eqn:AF; [| discriminate A4].
       split; [exists 0%nat; unfold obituary; rewrite AF; cbn [repeat concat app]; reflexivity |]. split; [| reflexivity].
       intros [z Z]. rewrite (suicide_text p P K) in Z. exact (proj1 (proj2 CX) z Z). }
  all: assert (KS : ph_kind p <> KSuicides) by (rewrite K; discriminate);
    assert (FA : first_at (obituary p x y) (ph_before p) (len x))
      by (eapply first_before; [reflexivity |]; intros j J; eapply no_cross_ok; [exact P | exact KS | exact A1 | exact CX | exact J]);
    unfold fits; rewrite K; exists (y ++ ph_after p); (split; [reflexivity |]); (split; [exact FA |]); cbn [has_two_names] in *; try exact (O eq_refl).
  all: destruct (ph_after p) as [| c a] eqn:AF; [left; rewrite app_nil_r; split; reflexivity |]; right; split; [discriminate |];
    exists []; rewrite app_nil_r; split; [reflexivity |]; eapply first_before; [rewrite app_nil_r; reflexivity |];
    intros j [s [t [H L]]]; subst j; destruct (app_eq_app _ _ _ _ H) as [l [[A B] | [A B]]]; [| rewrite A, len_app; lia];
    destruct (app_eq_app _ _ _ _ B) as [m [[D F] | [D F]]];
    [ destruct l as [| d l]; [rewrite app_nil_r in A; subst; lia |]; exfalso; destruct m as [| d' m];
      [ apply (proj1 (proj2 CY) p P); [rewrite AF; discriminate |]; rewrite AF, D, app_nil_r; exists s, []; rewrite app_nil_r; exact A
      | rewrite forallb_forall in A2; specialize (A2 (d :: l, d' :: m)); rewrite D in A2;
        specialize (A2 (cuts_in (d :: l) (d' :: m) ltac:(discriminate) ltac:(discriminate))); cbv beta iota in A2;
        rewrite <- D, F, starts_with_app in A2; discriminate A2 ]
    | exfalso; apply (proj1 (proj2 CY) p P); [rewrite AF; discriminate |]; rewrite AF; exists s, m; rewrite A, D; reflexivity ].
Qed.

Lemma readable_reads : forall p x y, In p phrases -> readable x y -> (has_two_names (ph_kind p) = false -> y = []) ->
  reads (obituary p x y) (event (ph_kind p) x y).
Proof. intros p x y P [[X Y] | [X Y]] O; [apply obituary_reads | apply clear_reads]; assumption. Qed.

(** ** Every other first name is misread with some phrase *)
Definition same_kind (a b : kind) : bool :=
  match a, b with
  | KDies, KDies | KOwnWeapon, KOwnWeapon | KSuicides, KSuicides | KKillsMate, KKillsMate | KKilledByMate, KKilledByMate
  | KKills, KKills | KKilledBy, KKilledBy => true
  | _, _ => false
  end.
Lemma same_kind_true : forall a b, same_kind a b = true <-> a = b.
Proof. intros [] []; cbn; split; congruence. Qed.
Lemma kinds_apart : forall p q, In p phrases -> In q phrases -> ph_kind p = ph_kind q -> agrees (ph_before p) (ph_before q) = true ->
  ph_before p = ph_before q.
Proof.
  intros p q P Q K A.
  assert (T : forallb (fun p => forallb (fun q => negb (same_kind (ph_kind p) (ph_kind q) && agrees (ph_before p) (ph_before q)) ||
    beq (ph_before p) (ph_before q)) phrases) phrases = true) by (vm_compute; reflexivity).
  rewrite forallb_forall in T. specialize (T p P). cbv beta in T. rewrite forallb_forall in T. specialize (T q Q). cbv beta in T.
  rewrite A, (proj2 (same_kind_true _ _) K) in T. apply beq_eq. exact T.
Qed.

Lemma clear_nothing : clear_second [].
Proof.
  assert (T : forallb (fun p => negb (occb (space ++ [] ++ space) (ph_before p)) && (is_empty (ph_after p) || negb (occb [] (ph_after p)))) phrases = true)
    by (vm_compute; reflexivity).
  rewrite forallb_forall in T. split; [| split; [| split; intros z Z; discriminate Z]]; intros p P; specialize (T p P); both T.
  - apply occb_false, negb_true_iff. exact T.
  - intros N. apply occb_false, negb_true_iff. destruct (ph_after p); [destruct (N eq_refl) | exact H].
Qed.
Lemma clear_letter : forall c, In c [x61; x62] -> clear_second [c].
Proof.
  intros c C.
  assert (T : forallb (fun c => forallb (fun p => negb (occb (space ++ [c] ++ space) (ph_before p)) && (is_empty (ph_after p) || negb (occb [c] (ph_after p)))) phrases) [x61; x62] = true)
    by (vm_compute; reflexivity).
  rewrite forallb_forall in T. specialize (T c C). cbv beta in T. rewrite forallb_forall in T.
  split; [| split; [| split; intros z Z; discriminate Z]]; intros p P; specialize (T p P); cbv beta in T; both T.
  - apply occb_false, negb_true_iff. exact T.
  - intros N. apply occb_false, negb_true_iff. destruct (ph_after p); [destruct (N eq_refl) | exact H].
Qed.

Lemma fits_front : forall q msg x y, fits q msg x y -> exists r, msg = x ++ ph_before q ++ r.
Proof.
  intros q msg x y F. unfold fits in F. destruct (ph_kind q); try (destruct F as [r [A _]]; exists r; exact A).
  destruct F as [[n F] _]. exists (concat (repeat (ph_before q) n)). exact F.
Qed.

Lemma before_long : forall p, In p phrases -> 2 <= len (ph_before p).
Proof.
  intros p P. assert (T : forallb (fun p => 2 <=? len (ph_before p)) phrases = true) by (vm_compute; reflexivity).
  rewrite forallb_forall in T. specialize (T p P). cbv beta in T. lia.
Qed.

Lemma event_kind : forall k k' x y x' y', event k x y = event k' x' y' -> (has_two_names k = false -> k = k' /\ x = x') /\
  (has_two_names k = true -> k = k' /\ x = x' /\ y = y' \/ has_two_names k' = true /\ x = y' /\ y = x').
Proof. intros [] [] x y x' y' H; cbn in *; inversion H; subst; split; intros T; try discriminate T; auto. Qed.

Lemma misread_phrase : forall p x y, In p phrases -> ph_kind p <> KSuicides -> occurs (x ++ space) (ph_before p) ->
  (has_two_names (ph_kind p) = true -> forall r s, x ++ r <> y ++ s) ->
  ~ reads (obituary p x y) (event (ph_kind p) x y).
Proof.
  intros p x y P K [s [t OC]] D [l1 [q [l2 [x' [y' [T [F [_ E]]]]]]]].
  assert (Q : In q phrases) by (rewrite T; apply in_or_app; right; left; reflexivity).
  assert (SP : exists a, ph_before p = space ++ a).
  { destruct (in_split _ _ P) as [m1 [m2 T']]. pose proof table_apart_ok as TA. rewrite T' in TA. apply table_apart_in in TA.
    destruct TA as [AL _]. unfold alone in AL. both AL. both AL. apply starts_with_true. assumption. }
  assert (EARLY : exists j, j < len x /\ occurs_at (obituary p x y) (ph_before p) j).
  { exists (len s). split.
    - apply (f_equal len) in OC. rewrite !len_app in OC. change (len space) with 1 in OC. pose proof (before_long p P). lia.
    - destruct SP as [a SP]. exists s, (t ++ a ++ y ++ ph_after p). split; [| reflexivity]. unfold obituary. rewrite SP at 1.
      rewrite <- (app_assoc space), (app_assoc x), OC, <- !app_assoc. reflexivity. }
  destruct (event_kind _ _ _ _ _ _ E) as [E1 E2].
  assert (KX : ph_kind p = ph_kind q /\ x = x').
  { destruct (has_two_names (ph_kind p)) eqn:W; [| apply E1; reflexivity].
    destruct (E2 eq_refl) as [[A [B _]] | [_ [A B]]]; [split; assumption |]. exfalso.
    destruct (fits_front _ _ _ _ F) as [r R]. unfold obituary in R. subst x'. exact (D eq_refl _ _ R). }
  destruct KX as [KE <-]. apply fits_other in F; [| rewrite <- KE; exact K]. destruct F as [r [F [[_ FA] _]]].
  destruct EARLY as [j [J1 J2]]. assert (BE : ph_before p = ph_before q).
  { apply kinds_apart; [exact P | exact Q | exact KE |]. unfold obituary in F. apply app_inv_head in F. eapply agrees_true. exact F. }
  rewrite BE in J2. specialize (FA j J2). lia.
Qed.

Lemma first_exact_proof : forall x, clear_first x <->
  forall p y, In p phrases -> clear_second y -> (has_two_names (ph_kind p) = false -> y = []) ->
    frag_event_from (obituary p x y) = Ok (event (ph_kind p) x y).
Proof.
  intros x. split.
  - intros C p y P CY O. apply reads_iff. apply clear_reads; assumption.
  - intros H. split; [| split].
    + intros p P K OC. destruct (has_two_names (ph_kind p)) eqn:W.
      * set (c := match x with x61 :: _ => x62 | _ => x61 end).
        assert (CC : In c [x61; x62]) by (unfold c; destruct x as [| []]; cbn; tauto).
        assert (NX : forall r s, x ++ space ++ r <> [c] ++ s).
        { intros r s. unfold c. destruct x as [| []]; cbn [app]; intros X; discriminate X. }
        specialize (H p [c] P (clear_letter c CC)). rewrite W in H. specialize (H ltac:(discriminate)). apply reads_iff in H.
        destruct x as [| d x].
        { destruct OC as [s [t OC]]. apply (f_equal len) in OC. rewrite !len_app in OC. change (len [] + len space) with 1 in OC. pose proof (before_long p P). lia. }
        revert H. apply misread_phrase; [exact P | exact K | exact OC |]. intros _ r s X. unfold c in X. cbn [app] in X. destruct d; discriminate X.
      * specialize (H p [] P clear_nothing (fun _ => eq_refl)). apply reads_iff in H. revert H. apply misread_phrase; [exact P | exact K | exact OC |].
        rewrite W. discriminate.
    + intros z Z. set (p := one KSuicides " suicides"). assert (P : In p phrases) by (vm_compute; tauto).
      specialize (H p [] P clear_nothing (fun _ => eq_refl)). apply reads_iff in H. destruct H as [l1 [q [l2 [x' [y' [T [F [_ E]]]]]]]].
      assert (Q : In q phrases) by (rewrite T; apply in_or_app; right; left; reflexivity).
      apply event_kind in E. destruct E as [E _]. destruct (E eq_refl) as [K <-]. cbn [p one ph_kind] in K. unfold fits in F. rewrite <- K in F.
      destruct F as [_ [F _]]. apply F. exists z. rewrite (suicide_text q Q (eq_sym K)). exact Z.
    + intros z Z. set (p := one KKillsMate " squished a teammate"). assert (P : In p phrases) by (vm_compute; tauto).
      specialize (H p [] P clear_nothing (fun _ => eq_refl)).
      assert (D : exists n, frag_event_from (obituary p x []) = Ok (Death n)); [| destruct D as [n D]; rewrite D in H; discriminate H].
      rewrite frag_event_try. rewrite phrases_eq, find_map_app, find_map_map.
      assert (F : find_map (fun s => try (obituary p x []) (mkPhrase KDies s [])) X_DEATH <> None).
      { intros N. apply find_map_none in N. rewrite Forall_forall in N. specialize (N (lit " was squished")).
        assert (I : In (lit " was squished") X_DEATH) by (vm_compute; tauto). specialize (N I). apply try_none in N; [| discriminate]. apply N.
        assert (OC : occurs (obituary p x []) (lit " was squished")).
        { exists z, (lit " a teammate"). unfold obituary. rewrite Z, <- !app_assoc. reflexivity. }
        apply is_some_find in OC. destruct (find (obituary p x []) (lit " was squished")) as [i |] eqn:FI; [| discriminate OC].
        apply find_some in FI. destruct FI as [[a [b [A L]]] M]. subst i. exists a, []. unfold fits. cbn [ph_kind ph_before ph_after has_two_names].
        exists b. split; [exact A |]. split; [| reflexivity]. split; [exists a, b; split; [exact A | reflexivity] | exact M]. }
      destruct (find_map (fun s => try (obituary p x []) (mkPhrase KDies s [])) X_DEATH) as [e |] eqn:G; [| destruct (F eq_refl)].
      apply find_map_some in G. destruct G as [_ [s [_ [_ [G _]]]]].
      unfold try in G. cbn [ph_kind ph_before] in G. destruct (find (obituary p x []) s) as [pos |]; [| discriminate G].
      injection G as <-. eexists. reflexivity.
Qed.

Lemma clear_by_test : forall n,
  forallb (fun p => negb (occb (space ++ n ++ space) (ph_before p)) && (is_empty (ph_after p) || negb (occb n (ph_after p)))) phrases = true ->
  negb (ends_with n (lit " suicides")) && negb (ends_with n (lit " was")) && negb (starts_with n (lit "his teammate")) && negb (starts_with n (lit "her teammate")) = true ->
  clear_first n /\ clear_second n.
Proof.
  intros n T R. rewrite forallb_forall in T. apply andb_true_iff in R. destruct R as [R R4]. apply andb_true_iff in R. destruct R as [R R3].
  apply andb_true_iff in R. destruct R as [R1 R2]. apply negb_true_iff in R1, R2, R3, R4.
  assert (A : forall p, In p phrases -> ~ occurs (space ++ n ++ space) (ph_before p)).
  { intros p P. specialize (T p P). apply andb_true_iff in T. apply occb_false, negb_true_iff. apply T. }
  split; [split; [| split] | split; [exact A | split; [| split]]].
  - intros p P _ [s [t H]]. apply (A p P). exists (space ++ s), t. rewrite H, <- app_assoc. reflexivity.
  - intros z Z. assert (X : ends_with n (lit " suicides") = true) by (apply ends_with_true; exists z; exact Z). congruence.
  - intros z Z. assert (X : ends_with n (lit " was") = true) by (apply ends_with_true; exists z; exact Z). congruence.
  - intros p P N. specialize (T p P). apply andb_true_iff in T. destruct T as [_ T]. apply occb_false, negb_true_iff.
    destruct (ph_after p); [destruct (N eq_refl) | exact T].
  - intros z Z. rewrite Z, starts_with_app in R3. discriminate R3.
  - intros z Z. rewrite Z, starts_with_app in R4. discriminate R4.
Qed.
