(** Facts about obituaries. *)
From Coq Require Import Lia.
From Verif.Model Require Import Base Utf8Error FragEvent.
From Verif.Spec Require Import Occ Obituary.
From Verif.Proofs Require Import BaseFacts.

Lemma find_map_app : forall A B (f : A -> option B) l1 l2,
  find_map f (l1 ++ l2) = match find_map f l1 with Some b => Some b | None => find_map f l2 end.
Proof.
  intros A B f l1 l2. induction l1 as [| x l1 IH]; [reflexivity |]. simpl. destruct (f x); [reflexivity | exact IH].
Qed.
Lemma find_map_map : forall A B C (f : B -> option C) (g : A -> B) l,
  find_map f (map g l) = find_map (fun x => f (g x)) l.
Proof. intros A B C f g l. induction l as [| x l IH]; [reflexivity |]. simpl. rewrite IH. reflexivity. Qed.
Lemma find_map_ext : forall A B (f g : A -> option B) l, (forall x, In x l -> f x = g x) -> find_map f l = find_map g l.
Proof.
  intros A B f g l H. induction l as [| x l IH]; [reflexivity |]. simpl.
  rewrite (H x) by (left; reflexivity). rewrite IH; [reflexivity |]. intros y Y. apply H. right. exact Y.
Qed.
Lemma find_map_option : forall A B C (f : A -> option B) (h : B -> C) l,
  find_map (fun x => match f x with Some b => Some (h b) | None => None end) l =
  match find_map f l with Some b => Some (h b) | None => None end.
Proof. intros A B C f h l. induction l as [| x l IH]; [reflexivity |]. simpl. destruct (f x); [reflexivity | exact IH]. Qed.
Lemma find_map_some : forall A B (f : A -> option B) l b, find_map f l = Some b <->
  exists l1 x l2, l = l1 ++ x :: l2 /\ f x = Some b /\ Forall (fun y => f y = None) l1.
Proof.
  intros A B f l b. split.
  - induction l as [| x l IH]; [discriminate |]. simpl. destruct (f x) eqn:F; intros H.
    + inv H. exists [], x, l. auto.
    + destruct (IH H) as [l1 [y [l2 [-> [Y N]]]]]. exists (x :: l1), y, l2. auto.
  - intros [l1 [x [l2 [-> [X N]]]]]. induction N as [| y l1 Y _ IH]; simpl; [rewrite X; reflexivity | rewrite Y; exact IH].
Qed.
Lemma find_map_none : forall A B (f : A -> option B) l, find_map f l = None <-> Forall (fun y => f y = None) l.
Proof.
  intros A B f l. split.
  - induction l as [| x l IH]; [constructor |]. simpl. destruct (f x) eqn:F; intros H; [discriminate |]. constructor; auto.
  - induction 1 as [| y l Y _ IH]; [reflexivity | simpl; rewrite Y; exact IH].
Qed.

(** ** stripping *)
Lemma rev_eq_app : forall A (s a p : list A), rev s = rev p ++ a -> s = rev a ++ p.
Proof. intros A s a p H. rewrite <- (rev_involutive s), H, rev_app_distr, rev_involutive. reflexivity. Qed.

Lemma strip_front_spec : forall pats, Forall (fun p => p <> []) pats -> forall n r, (length r <= n)%nat ->
  (exists l, r = concat l ++ strip_front n pats r /\ Forall (fun p => In p pats) l) /\
  forall p a, In p pats -> strip_front n pats r <> p ++ a.
Proof.
  intros pats NE. induction n as [| n IH]; intros r L.
  { destruct r; [| simpl in L; lia]. split; [exists []; auto |]. intros p a P H. simpl in H.
    symmetry in H. apply app_eq_nil in H. destruct H as [-> _]. rewrite Forall_forall in NE. exact (NE [] P eq_refl). }
  cbn [strip_front].
  match goal with |- context[match ?m with Some _ => _ | None => _ end] => destruct m as [r' |] eqn:F end.
  - apply find_map_some in F. destruct F as [l1 [p [l2 [-> [P _]]]]].
    destruct (starts_with r p) eqn:S; [| discriminate]. apply starts_with_true in S. destruct S as [t ->].
    rewrite skipn_app_exact in P. inv P.
    assert (p <> []) as NP by (rewrite Forall_forall in NE; apply NE, in_or_app; right; left; reflexivity).
    assert (length r' <= n)%nat as L'.
    { rewrite app_length in L. destruct p; [congruence |]. simpl in L. lia. }
    destruct (IH r' L') as [[l [E F]] N]. split; [| exact N].
    exists (p :: l). cbn [concat]. rewrite <- app_assoc, <- E. split; [reflexivity |].
    constructor; [apply in_or_app; right; left; reflexivity | exact F].
  - split; [exists []; auto |]. apply find_map_none in F. rewrite Forall_forall in F.
    intros p a P H. specialize (F p P). rewrite H, starts_with_app in F. discriminate.
Qed.

Lemma concat_rev : forall A (l : list (list A)), rev (concat (map (@rev A) l)) = concat (rev l).
Proof.
  induction l as [| x l IH]; [reflexivity |]. cbn [map concat rev]. rewrite rev_app_distr, IH, rev_involutive, concat_app.
  cbn [concat]. rewrite app_nil_r. reflexivity.
Qed.

Lemma strip_end_spec : forall pats s, Forall (fun p => p <> []) pats ->
  (exists l, s = strip_end pats s ++ concat l /\ Forall (fun p => In p pats) l) /\
  forall p a, In p pats -> strip_end pats s <> a ++ p.
Proof.
  intros pats s NE. unfold strip_end.
  destruct (strip_front_spec (map (@rev byte) pats)) with (n := length s) (r := rev s) as [[l [E F]] N].
  - rewrite Forall_forall in *. intros q Q. apply in_map_iff in Q. destruct Q as [p [<- P]]. intros X.
    apply (NE p P). rewrite <- (rev_involutive p), X. reflexivity.
  - rewrite rev_length. lia.
  - split.
    + exists (rev (map (@rev byte) l)). split.
      * assert (map (@rev byte) (map (@rev byte) l) = l) as MM.
        { rewrite map_map. rewrite (map_ext _ (fun x => x)) by apply rev_involutive. apply map_id. }
        rewrite <- concat_rev, MM. rewrite <- rev_app_distr, <- E, rev_involutive. reflexivity.
      * rewrite Forall_forall in *. intros p P. apply in_rev in P. apply in_map_iff in P. destruct P as [q [<- Q]].
        specialize (F q Q). apply in_map_iff in F. destruct F as [w [<- W]]. rewrite rev_involutive. exact W.
    + intros p a P X. apply (N (rev p) (rev a)); [apply in_map; exact P |].
      rewrite <- rev_app_distr, <- X, rev_involutive. reflexivity.
Qed.

(** Stripping is unique when no pattern is a proper suffix of another. *)
Lemma strip_unique : forall (pats : list bytes),
  (forall p q a, In p pats -> In q pats -> p = a ++ q -> p = q) ->
  Forall (fun p => p <> []) pats ->
  forall l1 l2 t1 t2, Forall (fun p => In p pats) l1 -> Forall (fun p => In p pats) l2 ->
  (forall p a, In p pats -> t1 <> a ++ p) -> (forall p a, In p pats -> t2 <> a ++ p) ->
  t1 ++ concat l1 = t2 ++ concat l2 -> t1 = t2.
Proof.
  intros pats SF NE l1. induction l1 as [| p l1 IH] using rev_ind; intros l2 t1 t2 F1 F2 N1 N2 H.
  - destruct l2 as [| q l2 _] using rev_ind; [rewrite !app_nil_r in H; exact H |].
    exfalso. apply Forall_app in F2. destruct F2 as [_ F2]. apply Forall_inv in F2.
    apply (N1 q (t2 ++ concat l2) F2). rewrite concat_app in H. cbn [concat] in H. rewrite !app_nil_r in H.
    rewrite H, app_assoc. reflexivity.
  - apply Forall_app in F1. destruct F1 as [F1 P]. apply Forall_inv in P.
    rewrite concat_app in H. cbn [concat] in H. rewrite app_nil_r in H.
    destruct l2 as [| q l2 _] using rev_ind.
    + exfalso. cbn [concat] in H. rewrite app_nil_r in H. apply (N2 p (t1 ++ concat l1) P). rewrite <- H, app_assoc. reflexivity.
    + apply Forall_app in F2. destruct F2 as [F2 Q]. apply Forall_inv in Q.
      rewrite concat_app in H. cbn [concat] in H. rewrite app_nil_r, !app_assoc in H.
      assert (p = q) as ->.
      { destruct (app_eq_app _ _ _ _ H) as [m [[_ X] | [_ X]]]; [symmetry; apply (SF q p m Q P X) | apply (SF p q m P Q X)]. }
      apply app_inv_tail in H. eapply IH; eauto.
Qed.

Lemma whitespace_ok : Forall (fun p => p <> []) whitespace.
Proof. repeat (constructor; [discriminate |]). constructor. Qed.

Lemma whitespace_suffix : forall p q a, In p whitespace -> In q whitespace -> p = a ++ q -> p = q.
Proof.
  intros p q a P Q H.
  assert (forallb (fun p => forallb (fun q => negb (ends_with p q) || beq p q) whitespace) whitespace = true) as T
    by (vm_compute; reflexivity).
  rewrite forallb_forall in T. specialize (T p P). rewrite forallb_forall in T. specialize (T q Q).
  apply Bool.orb_true_iff in T. destruct T as [T | T]; [| apply beq_eq; exact T].
  assert (ends_with p q = true) as X by (apply ends_with_true; exists a; exact H). rewrite X in T. discriminate.
Qed.

Definition whites : list N :=
  [9; 10; 11; 12; 13; 32; 133; 160; 5760; 8192; 8193; 8194; 8195; 8196; 8197; 8198; 8199; 8200; 8201;
   8202; 8232; 8233; 8239; 8287; 12288].
Lemma white_iff : forall c, white c <-> In c whites.
Proof.
  intros c. unfold white, whites. split.
  - intros H. repeat match goal with H : _ \/ _ |- _ => destruct H as [H | H] end; try (subst c; simpl; tauto).
    + assert (c = 9 \/ c = 10 \/ c = 11 \/ c = 12 \/ c = 13) as X by lia. simpl. intuition congruence.
    + assert (c = 8192 \/ c = 8193 \/ c = 8194 \/ c = 8195 \/ c = 8196 \/ c = 8197 \/ c = 8198 \/ c = 8199 \/
        c = 8200 \/ c = 8201 \/ c = 8202) as X by lia. simpl. intuition congruence.
  - intros H. simpl in H. lia.
Qed.
Lemma whitespace_whites : whitespace = map utf8 whites.
Proof. vm_compute. reflexivity. Qed.

Lemma trimmed_iff : forall s t, trimmed s t <-> t = trim_end s.
Proof.
  assert (forall s, trimmed s (trim_end s)) as T.
  { intros s. destruct (strip_end_spec whitespace s whitespace_ok) as [[l [E F]] N]. split.
    - assert (exists cs, l = map utf8 cs /\ Forall white cs) as [cs [-> W]].
      { clear E N. induction F as [| w l W _ [cs [-> IH]]]; [exists []; auto |].
        rewrite whitespace_whites in W. apply in_map_iff in W. destruct W as [c [<- C]].
        exists (c :: cs). split; [reflexivity |]. constructor; [apply white_iff; exact C | exact IH]. }
      exists cs. split; [exact E | exact W].
    - intros a c C. apply N. rewrite whitespace_whites. apply in_map. apply white_iff. exact C. }
  intros s t. split; [| intros ->; apply T].
  intros [[l [E F]] N]. destruct (T s) as [[l' [E' F']] N'].
  assert (forall l, Forall white l -> Forall (fun w => In w whitespace) (map utf8 l)) as C.
  { intros k K. rewrite Forall_map. eapply Forall_impl; [| exact K]. intros c W. rewrite whitespace_whites.
    apply in_map. apply white_iff. exact W. }
  assert (forall u, (forall a c, white c -> u <> a ++ utf8 c) -> forall p a, In p whitespace -> u <> a ++ p) as D.
  { intros u U p a P. rewrite whitespace_whites in P. apply in_map_iff in P. destruct P as [c [<- P]].
    apply U. apply white_iff. exact P. }
  apply (strip_unique whitespace whitespace_suffix whitespace_ok _ _ _ _ (C _ F) (C _ F') (D _ N) (D _ N')).
  rewrite <- E, <- E'. reflexivity.
Qed.

(** ** one phrase *)
Definition try (v : str) (p : phrase) : option FragEvent :=
  match ph_kind p with
  | KSuicides => if ends_with v (ph_before p) then Some (Suicide (trim_end_matches v (ph_before p))) else None
  | KKills | KKilledBy =>
      match split_once v (ph_before p) with
      | None => None
      | Some (x, r) =>
          if is_empty (ph_after p) then Some (event (ph_kind p) x r)
          else match split_once r (ph_after p) with
               | None => None
               | Some (y, _) => Some (event (ph_kind p) x y)
               end
      end
  | k => match find v (ph_before p) with Some pos => Some (event k (until v pos) []) | None => None end
  end.

Definition pattern_phrase (p : str) : phrase :=
  let k := if existsb (beq p) X_FRAG_Y then KKills else KKilledBy in
  match split_once p WILDCARD with
  | Some (a, b) => mkPhrase k a b
  | None => mkPhrase k p []
  end.

Lemma phrases_eq : phrases =
  map (fun s => mkPhrase KDies s []) X_DEATH ++ map (fun s => mkPhrase KOwnWeapon s []) X_SUICIDE_BY_WEAPON
  ++ [mkPhrase KSuicides X_SUICIDE []] ++ map (fun s => mkPhrase KKillsMate s []) X_TEAMKILL_UNKNOWN
  ++ map (fun s => mkPhrase KKilledByMate s []) UNKNOWN_TEAMKILL_X
  ++ map pattern_phrase (X_FRAG_Y ++ Y_FRAG_X).
Proof. vm_compute. reflexivity. Qed.

Lemma wildcard_suffix : forall p a b, In p (X_FRAG_Y ++ Y_FRAG_X) -> split_once p WILDCARD = Some (a, b) -> b <> [].
Proof.
  intros p a b P S.
  assert (forallb (fun p => match split_once p WILDCARD with Some (_, []) => false | _ => true end) (X_FRAG_Y ++ Y_FRAG_X) = true) as T
    by (vm_compute; reflexivity).
  rewrite forallb_forall in T. specialize (T p P). rewrite S in T. destruct b; [discriminate | discriminate].
Qed.

Lemma frag_event_try : forall v, frag_event_from v =
  match find_map (try v) phrases with Some e => Ok e | None => Err (quoting "Unable to parse message" v) end.
Proof.
  intros v. rewrite phrases_eq. rewrite !find_map_app, !find_map_map. unfold frag_event_from.
  assert (forall k T, (k = KDies \/ k = KOwnWeapon \/ k = KKillsMate \/ k = KKilledByMate) ->
    find_map (fun s => try v (mkPhrase k s [])) T =
    match find_any v T with Some pos => Some (event k (until v pos) []) | None => None end) as S.
  { intros k T K. unfold find_any. rewrite <- find_map_option. apply find_map_ext. intros s _.
    unfold try. cbn [ph_kind ph_before]. destruct K as [-> | [-> | [-> | ->]]]; reflexivity. }
  rewrite (S KDies) by tauto. destruct (find_any v X_DEATH); [reflexivity |].
  rewrite (S KOwnWeapon) by tauto. destruct (find_any v X_SUICIDE_BY_WEAPON); [reflexivity |].
  cbn [find_map]. unfold try at 1. cbn [ph_kind ph_before]. destruct (ends_with v X_SUICIDE); [reflexivity |].
  rewrite (S KKillsMate) by tauto. destruct (find_any v X_TEAMKILL_UNKNOWN); [reflexivity |].
  rewrite (S KKilledByMate) by tauto. destruct (find_any v UNKNOWN_TEAMKILL_X); [reflexivity |].
  unfold frag_by_pattern. erewrite find_map_ext; [reflexivity |].
  intros p P. cbv beta. unfold pattern_match, pattern_phrase, try.
  assert (is_some (find p WILDCARD) = is_some (split_once p WILDCARD)) as ->
    by (unfold split_once; destruct (find p WILDCARD); reflexivity).
  destruct (split_once p WILDCARD) as [[a b] |] eqn:SP; cbn [is_some].
  - assert (is_empty b = false) as B by (apply is_empty_false; eapply wildcard_suffix; eauto).
    destruct (existsb (beq p) X_FRAG_Y); cbn [ph_kind ph_before ph_after]; rewrite B;
      (destruct (split_once v a) as [[x r] |]; [| reflexivity]); (destruct (split_once r b) as [[y t] |]; reflexivity).
  - destruct (existsb (beq p) X_FRAG_Y); cbn [ph_kind ph_before ph_after is_empty];
      (destruct (split_once v p) as [[x r] |]; reflexivity).
Qed.

Lemma phrases_before : forall p, In p phrases -> ph_before p <> [].
Proof.
  assert (forallb (fun p => negb (is_empty (ph_before p))) phrases = true) as T by (vm_compute; reflexivity).
  intros p P. rewrite forallb_forall in T. specialize (T p P). destruct (ph_before p); [discriminate | discriminate].
Qed.

Lemma concat_repeat_snoc : forall A (b : list A) n, concat (repeat b (S n)) = concat (repeat b n) ++ b.
Proof.
  intros A b n. induction n as [| n IH]; [simpl; rewrite app_nil_r; reflexivity |].
  change (concat (repeat b (S (S n)))) with (b ++ concat (repeat b (S n))). rewrite IH at 1. rewrite app_assoc. reflexivity.
Qed.

Lemma Forall_repeat : forall A (b : A) l, Forall (fun p => In p [b]) l -> l = repeat b (length l).
Proof.
  intros A b l F. induction F as [| x l X _ IH]; [reflexivity |]. destruct X as [<- | []]. simpl. f_equal. exact IH.
Qed.

Lemma trim_matches_iff : forall b msg x, b <> [] ->
  ends_with msg b = true /\ x = trim_end_matches msg b <->
  (exists n, msg = x ++ concat (repeat b (S n))) /\ ~ (exists z, x = z ++ b).
Proof.
  intros b msg x NB.
  assert (Forall (fun p : bytes => p <> []) [b]) as NE by (constructor; [exact NB | constructor]).
  destruct (strip_end_spec [b] msg NE) as [[l [E F]] N]. fold (trim_end_matches msg b) in E, N.
  pose proof (Forall_repeat _ _ _ F) as R. split.
  - intros [EW ->]. split.
    + destruct l as [| w l].
      * exfalso. apply ends_with_true in EW. destruct EW as [a EW]. apply (N b a); [left; reflexivity |].
        cbn [concat] in E. rewrite app_nil_r in E. rewrite <- E. exact EW.
      * exists (length l). rewrite R in E. exact E.
    + intros [z Z]. exact (N b z (or_introl eq_refl) Z).
  - intros [[n M] NZ]. split.
    + apply ends_with_true. exists (x ++ concat (repeat b n)). rewrite M, concat_repeat_snoc, app_assoc. reflexivity.
    + apply (strip_unique [b]) with (l1 := repeat b (S n)) (l2 := l); auto.
      * intros p q a [<- | []] [<- | []] _. reflexivity.
      * apply Forall_forall. intros p P. apply repeat_spec in P. left. symmetry. exact P.
      * intros p a [<- | []] X. apply NZ. exists a. exact X.
      * rewrite <- M. exact E.
Qed.

Lemma split_once_iff : forall d p a b, split_once d p = Some (a, b) <-> d = a ++ p ++ b /\ first_at d p (len a).
Proof. intros d p a b. split; [apply split_once_some | intros [A B]; apply split_once_first; assumption]. Qed.

Lemma try_iff : forall p v e, ph_before p <> [] ->
  try v p = Some e <-> exists x y, fits p v x y /\ e = event (ph_kind p) x y.
Proof.
  intros p v e NB. unfold try, fits.
  pose proof (split_once_iff v (ph_before p)) as SO. pose proof (fun r => split_once_iff r (ph_after p)) as SA.
  assert (forall k, match find v (ph_before p) with Some pos => Some (event k (until v pos) []) | None => None end =
    match split_once v (ph_before p) with Some (x, _) => Some (event k x []) | None => None end) as FS.
  { intros k. unfold split_once. destruct (find v (ph_before p)); reflexivity. }
  destruct (ph_kind p) eqn:K; cbn [has_two_names]; rewrite ?FS.
  3: { split.
       - destruct (ends_with v (ph_before p)) eqn:EW; [| discriminate]. intros H. injection H as <-.
         exists (trim_end_matches v (ph_before p)), [].
         destruct (proj1 (trim_matches_iff (ph_before p) v _ NB) (conj EW eq_refl)) as [A B]. auto.
       - intros [x [y [[A [B ->]] ->]]].
         destruct (proj2 (trim_matches_iff (ph_before p) v x NB) (conj A B)) as [EW ->]. rewrite EW. reflexivity. }
  5-6: (split;
    [ destruct (split_once v (ph_before p)) as [[x r] |] eqn:S; [| discriminate]; apply split_once_iff in S; destruct S as [S1 S2];
      destruct (is_empty (ph_after p)) eqn:EA;
      [ intros H; injection H as <-; exists x, r; split; [| reflexivity]; exists r; split; [exact S1 |]; split; [exact S2 |];
        left; split; [apply is_empty_true; exact EA | reflexivity]
      | destruct (split_once r (ph_after p)) as [[y t] |] eqn:S; [| discriminate]; apply split_once_iff in S; destruct S as [T1 T2];
        intros H; injection H as <-; exists x, y; split; [| reflexivity]; eexists; split; [eassumption |]; split; [exact S2 |];
        right; split; [apply is_empty_false; exact EA | exists t; split; [exact T1 | exact T2]] ]
    | intros [x [y [[r [S1 [S2 S3]]] ->]]]; rewrite (proj2 (SO x r) (conj S1 S2));
      destruct S3 as [[EA ->] | [EA [t [T1 T2]]]];
      [ rewrite EA; reflexivity
      | rewrite (proj2 (is_empty_false _ _) EA), (proj2 (SA r y t) (conj T1 T2)); reflexivity ] ]).
  all: (split;
    [ destruct (split_once v (ph_before p)) as [[x r] |] eqn:S; [| discriminate]; apply split_once_iff in S; destruct S as [S1 S2];
      intros H; injection H as <-; exists x, []; split; [| reflexivity]; exists r; auto
    | intros [x [y [[r [S1 [S2 ->]]] ->]]]; rewrite (proj2 (SO x r) (conj S1 S2)); reflexivity ]).
Qed.

Lemma try_none : forall p v, ph_before p <> [] -> try v p = None <-> ~ exists x y, fits p v x y.
Proof.
  intros p v NB. split.
  - intros H [x [y F]]. assert (try v p = Some (event (ph_kind p) x y)) as X by (apply try_iff; eauto). congruence.
  - intros H. destruct (try v p) as [e |] eqn:T; [| reflexivity]. apply try_iff in T; [| exact NB].
    destruct T as [x [y [F _]]]. exfalso. eauto.
Qed.

Lemma reads_iff : forall v e, frag_event_from v = Ok e <-> reads v e.
Proof.
  intros v e. rewrite frag_event_try. transitivity (find_map (try v) phrases = Some e).
  { destruct (find_map (try v) phrases); split; congruence. }
  rewrite find_map_some. unfold reads. split.
  - intros [l1 [p [l2 [E [T F]]]]]. apply try_iff in T; [| apply phrases_before; rewrite E; apply in_or_app; right; left; reflexivity].
    destruct T as [x [y [T ->]]]. exists l1, p, l2, x, y. split; [exact E |]. split; [exact T |]. split; [| reflexivity].
    rewrite Forall_forall in *. intros q Q. apply try_none; [| apply F; exact Q].
    apply phrases_before. rewrite E. apply in_or_app. left. exact Q.
  - intros [l1 [p [l2 [x [y [E [T [F ->]]]]]]]]. exists l1, p, l2. split; [exact E |]. split.
    + apply try_iff; [| eauto]. apply phrases_before; rewrite E; apply in_or_app; right; left; reflexivity.
    + rewrite Forall_forall in *. intros q Q. apply try_none; [| apply F; exact Q].
      apply phrases_before. rewrite E. apply in_or_app. left. exact Q.
Qed.

Lemma reads_none : forall v, (exists m, frag_event_from v = Err m) <->
  forall p x y, In p phrases -> ~ fits p v x y.
Proof.
  intros v. rewrite frag_event_try. transitivity (find_map (try v) phrases = None).
  { destruct (find_map (try v) phrases); split; try congruence; [intros [m X]; discriminate | eauto]. }
  rewrite find_map_none, Forall_forall. split.
  - intros H p x y P F. apply (proj1 (try_none p v (phrases_before p P)) (H p P)). eauto.
  - intros H p P. apply try_none; [apply phrases_before; exact P |]. intros [x [y F]]. exact (H p x y P F).
Qed.

(** ** messages made of plain names *)
Lemma space_align : forall u v u' v' : bytes, ~ In x20 u -> ~ In x20 u' ->
  u ++ x20 :: v = u' ++ x20 :: v' -> u = u' /\ v = v'.
Proof.
  induction u as [| c u IH]; intros v u' v' U U' H; destruct u' as [| c' u'].
  - inv H. auto.
  - exfalso. inv H. apply U'. left. reflexivity.
  - exfalso. inv H. apply U. left. reflexivity.
  - inv H. destruct (IH v u' v') as [-> ->]; auto; intros X; [apply U | apply U']; right; exact X.
Qed.

Lemma split_space : forall s w r, split_once s [x20] = Some (w, r) -> s = w ++ x20 :: r /\ ~ In x20 w.
Proof.
  intros s w r H. apply split_once_iff in H. destruct H as [E [_ F]]. split; [exact E |].
  intros I. apply in_split in I. destruct I as [a [b ->]].
  assert (len (a ++ x20 :: b) <= len a) as X.
  { apply F. exists a, (b ++ x20 :: r). split; [| reflexivity]. rewrite E, <- app_assoc. reflexivity. }
  rewrite len_app, len_cons in X. lia.
Qed.
Lemma split_space_none : forall s, split_once s [x20] = None -> ~ In x20 s.
Proof. intros s H. apply split_once_none in H. intros I. apply H. apply occurs_singleton. exact I. Qed.

Fixpoint tails (b : str) : list str :=
  match b with [] => [] | _ :: r => b :: tails r end.
Lemma tails_in : forall a c b, In (c :: b) (tails (a ++ c :: b)).
Proof. induction a as [| d a IH]; intros c b; [left; reflexivity | right; apply IH]. Qed.

Definition occb (d q : str) : bool := is_some (find d q).
Lemma occb_false : forall d q, occb d q = false -> ~ occurs d q.
Proof. intros d q H O. apply is_some_find in O. unfold occb in H. congruence. Qed.

(** what is left of [q] when it starts inside [b] and goes on behind it *)
Definition crossings (b q : str) : list str :=
  concat (map (fun b2 => if starts_with q b2 then [skipn (length b2) q] else []) (tails b)).

Definition safe_cross (a q' : str) : bool :=
  match split_once q' [x20] with
  | None => existsb (beq q') [lit "cratered"; lit "died"] &&
            match a with [] => true | c :: _ => negb (existsb (Byte.eqb c) q') end
  | Some (w, r) =>
      match split_once a [x20] with
      | None => true
      | Some (a0, a') => negb (starts_with a' r) || negb (ends_with w a0) ||
                         existsb (beq w) [lit "stomps" ++ a0; lit "squishes" ++ a0]
      end
  end.

Definition absent (q b a : str) : bool :=
  starts_with q [x20] && negb (occb b q) && negb (occb a q) && forallb (safe_cross a) (crossings b q).

Lemma safe_cross_ok : forall a q' y t, safe_cross a q' = true -> plain y -> y ++ a = q' ++ t -> False.
Proof.
  intros a q' y t S [NS [P1 [P2 [P3 [P4 P5]]]]] E. unfold safe_cross in S.
  destruct (split_once q' [x20]) as [[w r] |] eqn:Q.
  - apply split_space in Q. destruct Q as [-> NW]. rewrite <- app_assoc in E. cbn [app] in E.
    destruct (split_once a [x20]) as [[a0 a'] |] eqn:A.
    + apply split_space in A. destruct A as [-> NA].
      rewrite app_assoc in E. apply space_align in E; [| | exact NW].
      2: { intros I. apply in_app_or in I. tauto. }
      destruct E as [E1 E2]. rewrite E2, starts_with_app in S.
      assert (ends_with w a0 = true) as X by (apply ends_with_true; exists y; symmetry; exact E1).
      rewrite X in S. cbn [negb orb existsb] in S. rewrite Bool.orb_false_r in S. apply Bool.orb_true_iff in S.
      rewrite <- E1 in S. destruct S as [S | S]; apply beq_eq in S; apply app_inv_tail in S; congruence.
    + apply split_space_none in A. assert (In x20 (y ++ a)) as I by (rewrite E; apply in_or_app; right; left; reflexivity).
      apply in_app_or in I. tauto.
  - apply Bool.andb_true_iff in S. destruct S as [S1 S2]. cbn [existsb] in S1. rewrite Bool.orb_false_r in S1.
    apply Bool.orb_true_iff in S1.
    assert (forall l, y <> q' ++ l) as N.
    { intros l X. destruct S1 as [S1 | S1]; apply beq_eq in S1; subst q'; [exact (P1 l X) | exact (P2 l X)]. }
    destruct (app_eq_app _ _ _ _ E) as [l [[X _] | [X Y]]]; [exact (N l X) |].
    destruct l as [| c l]; [apply (N []); rewrite app_nil_r in *; congruence |].
    rewrite Y in S2. cbn [app] in S2. apply Bool.negb_true_iff in S2.
    assert (existsb (Byte.eqb c) q' = true) as Z.
    { apply existsb_exists. exists c. split; [| apply byte_eqb_refl]. rewrite X. apply in_or_app. right. left. reflexivity. }
    congruence.
Qed.

Lemma absent_ok : forall q b a x y, absent q b a = true -> ~ In x20 x -> plain y -> ~ occurs (x ++ b ++ y ++ a) q.
Proof.
  intros q b a x y AB NX PY [s [t E]]. unfold absent in AB.
  repeat (apply Bool.andb_true_iff in AB; destruct AB as [AB ?]).
  apply starts_with_true in AB. destruct AB as [q0 Q].
  assert (forall n m u, ~ In x20 n -> n ++ m = u ++ q ++ t -> exists v, u = n ++ v /\ m = v ++ q ++ t) as SK.
  { intros n m u NN X. destruct (app_eq_app _ _ _ _ X) as [l [[A B] | [A B]]].
    - destruct l as [| c l]; [exists []; rewrite app_nil_r in A |- *; cbn [app] in *; split; congruence |].
      exfalso. rewrite Q in B. cbn [app] in B. inv B. apply NN. apply in_or_app. right. left. reflexivity.
    - exists l. split; [exact A | exact B]. }
  apply SK in E; [| exact NX]. destruct E as [v [-> E]].
  destruct (app_eq_app _ _ _ _ E) as [b2 [[A B] | [A B]]].
  - (* starts inside b *)
    symmetry in B. destruct (app_eq_app _ _ _ _ B) as [l [[C D] | [C D]]].
    + apply (occb_false b q); [destruct (occb b q); [discriminate | reflexivity] |].
      exists v, l. rewrite A, C. reflexivity.
    + destruct b2 as [| c b2].
      { cbn [app] in C. subst l. apply SK with (u := []) in D; [| apply PY]. destruct D as [v' [D1 D2]].
        symmetry in D1. apply app_eq_nil in D1. destruct D1 as [-> ->].
        apply (occb_false a q); [destruct (occb a q); [discriminate | reflexivity] |]. exists [], t. exact D2. }
      assert (In l (crossings b q)) as I.
      { unfold crossings. apply in_concat. exists [l]. split; [| left; reflexivity].
        apply in_map_iff. exists (c :: b2). split; [| rewrite A; apply tails_in].
        rewrite C, starts_with_app, skipn_app_exact. reflexivity. }
      match goal with H : forallb _ _ = true |- _ => rewrite forallb_forall in H; specialize (H l I); rename H into SC end.
      eapply safe_cross_ok; eauto.
  - (* starts behind b *)
    apply SK in B; [| apply PY]. destruct B as [v' [-> B]].
    apply (occb_false a q); [destruct (occb a q); [discriminate | reflexivity] |]. exists v', t. exact B.
Qed.

(** [qa] does not occur behind the name *)
Definition no_after (qa a : str) : bool :=
  match split_once qa [x20] with
  | None => false
  | Some (w, r) =>
      match split_once a [x20] with
      | None => true
      | Some (a0, a') => negb (starts_with a' r) && negb (occb a' qa)
      end
  end.

Lemma no_after_ok : forall qa a y, no_after qa a = true -> ~ In x20 y -> ~ occurs (y ++ a) qa.
Proof.
  intros qa a y S NY [s [t E]]. unfold no_after in S.
  destruct (split_once qa [x20]) as [[w r] |] eqn:Q; [| discriminate]. apply split_space in Q. destruct Q as [Q NW].
  destruct (split_once a [x20]) as [[a0 a'] |] eqn:A.
  - apply split_space in A. destruct A as [-> NA]. apply Bool.andb_true_iff in S. destruct S as [S1 S2].
    assert (~ In x20 (y ++ a0)) as NYA by (intros I; apply in_app_or in I; tauto).
    rewrite app_assoc in E.
    destruct (in_dec Byte.byte_eq_dec x20 s) as [I | NI].
    + apply in_split in I. destruct (split_once s [x20]) as [[s0 s1] |] eqn:SS.
      * apply split_space in SS. destruct SS as [-> NS]. rewrite <- !app_assoc in E. cbn [app] in E. rewrite app_assoc in E.
        apply space_align in E; auto. destruct E as [_ E]. apply (occb_false a' qa).
        { destruct (occb a' qa); [discriminate | reflexivity]. }
        exists s1, t. exact E.
      * apply split_space_none in SS. destruct I as [l1 [l2 ->]]. apply SS. apply in_or_app. right. left. reflexivity.
    + rewrite Q, <- !app_assoc in E. cbn [app] in E. rewrite !app_assoc in E.
      apply space_align in E; [| exact NYA | intros I; apply in_app_or in I; tauto].
      destruct E as [_ E]. rewrite E, starts_with_app in S1. discriminate.
  - apply split_space_none in A. assert (In x20 (y ++ a)) as I.
    { rewrite E, Q. apply in_or_app. right. apply in_or_app. left. apply in_or_app. right. left. reflexivity. }
    apply in_app_or in I. tauto.
Qed.

Lemma name_first : forall b x m, starts_with b [x20] = true -> ~ In x20 x -> first_at (x ++ b ++ m) b (len x).
Proof.
  intros b x m B NX. split; [exists x, m; auto |]. intros j [s [t [E <-]]].
  destruct (N.le_gt_cases (len x) (len s)) as [| G]; [assumption | exfalso].
  apply starts_with_true in B. destruct B as [b0 B].
  destruct (app_eq_app _ _ _ _ E) as [l [[X Y] | [X Y]]].
  - destruct l as [| c l]; [rewrite app_nil_r in X; subst; lia |]. rewrite B in Y. cbn [app] in Y. inv Y.
    apply NX. apply in_or_app. right. left. reflexivity.
  - rewrite X, len_app in G. lia.
Qed.

Lemma after_first : forall a y m, occb a [x20] = true -> ~ In x20 y -> first_at (y ++ a ++ m) a (len y).
Proof.
  intros a y m A NY. split; [exists y, m; auto |]. intros j [s [t [E <-]]].
  destruct (split_once a [x20]) as [[a0 a'] |] eqn:S.
  2: { exfalso. apply split_once_none in S. apply S. apply is_some_find. exact A. }
  apply split_space in S. destruct S as [-> NA].
  destruct (in_dec Byte.byte_eq_dec x20 s) as [I | NI].
  - apply in_split in I. destruct (split_once s [x20]) as [[s0 s1] |] eqn:SS.
    2: { exfalso. apply split_space_none in SS. destruct I as [l1 [l2 ->]]. apply SS. apply in_or_app. right. left. reflexivity. }
    apply split_space in SS. destruct SS as [-> NS]. rewrite <- !app_assoc in E. cbn [app] in E.
    rewrite app_assoc in E. apply space_align in E; [| intros X; apply in_app_or in X; tauto | exact NS].
    destruct E as [<- _]. rewrite !len_app. lia.
  - rewrite <- !app_assoc in E. cbn [app] in E. rewrite !app_assoc in E.
    apply space_align in E; [| intros X; apply in_app_or in X; tauto | intros X; apply in_app_or in X; tauto].
    destruct E as [E _]. apply app_inv_tail in E. subst. lia.
Qed.

(** the suicide phrase at the end *)
Definition no_suicide (b a : str) : bool :=
  match a with
  | [] => ends_with b [x20] || absent (lit " suicides") b []
  | _ => negb (ends_with a (lit " suicides")) && negb (ends_with (lit " suicides") a)
  end.
Lemma no_suicide_ok : forall b a x y, no_suicide b a = true -> ~ In x20 x -> plain y ->
  ends_with (x ++ b ++ y ++ a) (lit " suicides") = true -> False.
Proof.
  intros b a x y S NX PY EW. apply ends_with_true in EW. destruct EW as [z E]. destruct a as [| c a].
  - unfold no_suicide in S. apply Bool.orb_true_iff in S. destruct S as [S | S].
    + apply ends_with_true in S. destruct S as [b0 ->]. rewrite app_nil_r in E.
      assert ((x ++ b0) ++ x20 :: y = z ++ x20 :: lit "suicides") as E2.
      { transitivity (z ++ lit " suicides"); [| reflexivity]. rewrite <- E, <- !app_assoc. reflexivity. }
      apply (f_equal (@rev byte)) in E2. rewrite !rev_app_distr in E2. cbn [rev] in E2. rewrite <- !app_assoc in E2.
      cbn [app] in E2.
      apply space_align in E2.
      * destruct E2 as [E2 _]. assert (y = lit "suicides") as Y.
        { rewrite <- (rev_involutive y), E2. reflexivity. }
        destruct PY as [_ [_ [_ [P _]]]]. contradiction.
      * intros I. apply in_rev in I. apply (proj1 PY). exact I.
      * vm_compute. intros I. repeat (destruct I as [I | I]; [discriminate I |]). exact I.
    + apply (absent_ok (lit " suicides") b [] x y S NX PY). exists z, []. rewrite E, app_nil_r. reflexivity.
  - unfold no_suicide in S. apply Bool.andb_true_iff in S. destruct S as [S1 S2].
    assert ((x ++ b ++ y) ++ c :: a = z ++ lit " suicides") as E2 by (rewrite <- E, <- !app_assoc; reflexivity).
    destruct (app_eq_app _ _ _ _ E2) as [l [[_ X] | [_ X]]].
    + rewrite (proj2 (ends_with_true (lit " suicides") (c :: a))) in S2; [discriminate | exists l; exact X].
    + rewrite (proj2 (ends_with_true (c :: a) (lit " suicides"))) in S1; [discriminate | exists l; exact X].
Qed.

(** [q] fits no text made of plain names and [b], [a]. *)
Definition clear (b a : str) (q : phrase) : bool :=
  match ph_kind q with
  | KSuicides => beq (ph_before q) (lit " suicides") && no_suicide b a
  | KKills | KKilledBy =>
      absent (ph_before q) b a ||
      (beq (ph_before q) b && negb (is_empty (ph_after q)) && no_after (ph_after q) a)
  | _ => absent (ph_before q) b a
  end.

Lemma clear_ok : forall b a q x y x' y', clear b a q = true -> starts_with b [x20] = true ->
  ~ In x20 x -> plain y -> ~ fits q (x ++ b ++ y ++ a) x' y'.
Proof.
  intros b a q x y x' y' C B NX PY F. unfold clear in C. unfold fits in F.
  assert (absent (ph_before q) b a = true -> forall r, x ++ b ++ y ++ a = x' ++ ph_before q ++ r -> False) as AB.
  { intros A r E. apply (absent_ok _ b a x y A NX PY). exists x', r. exact E. }
  destruct (ph_kind q) eqn:K; cbn [has_two_names] in F.
  3: { apply Bool.andb_true_iff in C. destruct C as [C1 C2]. apply beq_eq in C1.
       destruct F as [[n F] _]. eapply no_suicide_ok; eauto. apply ends_with_true.
       exists (x' ++ concat (repeat (ph_before q) n)). rewrite F, concat_repeat_snoc, <- C1, <- app_assoc. reflexivity. }
  5-6: (destruct F as [r [E [FA F]]]; apply Bool.orb_true_iff in C; destruct C as [C | C]; [exact (AB C r E) |];
    apply Bool.andb_true_iff in C; destruct C as [C C3]; apply Bool.andb_true_iff in C; destruct C as [C1 C2];
    apply beq_eq in C1; rewrite C1 in *;
    pose proof (first_at_unique _ _ _ _ FA (name_first b x (y ++ a) B NX)) as L;
    apply app_inj_len in E; [| symmetry; exact L]; destruct E as [_ E]; apply app_inv_head in E;
    destruct F as [[EA _] | [_ [t [F _]]]];
    [ rewrite EA in C2; discriminate
    | apply (no_after_ok _ a y C3 (proj1 PY)); exists y', t; rewrite E; exact F ]).
  all: destruct F as [r [E _]]; exact (AB C r E).
Qed.

Fixpoint all_clear (before rest : list phrase) : bool :=
  match rest with
  | [] => true
  | p :: rest' => forallb (clear (ph_before p) (ph_after p)) before && all_clear (before ++ [p]) rest'
  end.
Lemma all_clear_ok : forall rest before l1 p l2, all_clear before rest = true -> rest = l1 ++ p :: l2 ->
  forallb (clear (ph_before p) (ph_after p)) (before ++ l1) = true.
Proof.
  induction rest as [| q rest IH]; intros before l1 p l2 A E; [destruct l1; discriminate |].
  cbn [all_clear] in A. apply Bool.andb_true_iff in A. destruct A as [A1 A2].
  destruct l1 as [| q' l1]; inv E; [rewrite app_nil_r; exact A1 |].
  replace (before ++ q' :: l1) with ((before ++ [q']) ++ l1) by (rewrite <- app_assoc; reflexivity).
  eapply IH; eauto.
Qed.

Lemma phrases_clear : all_clear [] phrases = true.
Proof. vm_compute. reflexivity. Qed.

Definition shape_ok (p : phrase) : bool :=
  starts_with (ph_before p) [x20] &&
  (is_empty (ph_after p) || (has_two_names (ph_kind p) && occb (ph_after p) [x20])).
Lemma phrases_shape : forallb shape_ok phrases = true.
Proof. vm_compute. reflexivity. Qed.

Lemma obituary_reads : forall p x y, In p phrases -> ~ In x20 x -> plain y ->
  (has_two_names (ph_kind p) = false -> y = []) -> reads (obituary p x y) (event (ph_kind p) x y).
Proof.
  intros p x y P NX PY ONE.
  pose proof phrases_shape as SH. rewrite forallb_forall in SH. specialize (SH p P).
  apply Bool.andb_true_iff in SH. destruct SH as [SB SA].
  destruct (in_split _ _ P) as [l1 [l2 E]].
  pose proof (all_clear_ok phrases [] l1 p l2 phrases_clear E) as CL. cbn [app] in CL. rewrite forallb_forall in CL.
  exists l1, p, l2, x, y. split; [exact E |]. split; [| split; [| reflexivity]].
  - unfold fits, obituary. pose proof (name_first (ph_before p) x (y ++ ph_after p) SB NX) as FN.
    apply Bool.orb_true_iff in SA.
    assert (has_two_names (ph_kind p) = false -> y ++ ph_after p = []) as SINGLE.
    { intros K. rewrite (ONE K). destruct SA as [SA | SA]; [apply is_empty_true in SA; exact SA |]. rewrite K in SA. discriminate. }
    destruct (ph_kind p) eqn:K; cbn [has_two_names] in *.
    3: { split; [| split; [| exact (ONE eq_refl)]].
         - exists 0%nat. cbn [repeat concat]. rewrite (SINGLE eq_refl). reflexivity.
         - intros [z Z]. apply NX. rewrite Z. apply starts_with_true in SB. destruct SB as [b0 ->].
           apply in_or_app. right. left. reflexivity. }
    5-6: (exists (y ++ ph_after p); split; [reflexivity |]; split; [exact FN |];
      destruct (is_empty (ph_after p)) eqn:EA;
      [ apply is_empty_true in EA; left; split; [exact EA | rewrite EA, app_nil_r; reflexivity]
      | destruct SA as [SA | SA]; [discriminate |];
        right; split; [apply is_empty_false; exact EA |]; exists [];
        split; [rewrite app_nil_r; reflexivity |];
        rewrite <- (app_nil_r (ph_after p)) at 1; apply after_first; [exact SA | apply PY] ]).
    all: exists (y ++ ph_after p); split; [reflexivity |]; split; [exact FN | exact (ONE eq_refl)].
  - apply Forall_forall. intros q Q [x' [y' F]]. exact (clear_ok _ _ _ _ _ _ _ (CL q Q) SB NX PY F).
Qed.
