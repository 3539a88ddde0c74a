(** Demos in which several players are given one name *)
From Coq Require Import Lia ZifyN ZifyNat ZifyBool.
From Verif.Model Require Import Base Env Clients FragEvent Frags Flags.
From Verif.Spec Require Import Occ Mvd Messages Obituary Names Score Flags Pings Join Rename Merge.
From Verif.Proofs Require Import BaseFacts TextFacts ObituaryFacts FlagFacts ScoreProps RenameFacts.
Open Scope N_scope.

Definition one_to (f : str -> str) (n m : str) (v : Z) : Z := if beq (f m) n then v else 0%Z.

(** the sum over distinct names that cover [l] *)
Definition sum_over (f : str -> str) (n : str) (l : list (str * Z)) (ks : list str) : Z :=
  fold_right Z.add 0%Z (map (fun k => total k l) (filter (fun k => beq (f k) n) ks)).

Lemma total_cons : forall k m v l, total k ((m, v) :: l) = ((if beq m k then v else 0) + total k l)%Z.
Proof. intros k m v l. unfold total. cbn [filter fst]. destruct (beq m k); reflexivity. Qed.

Lemma sum_over_cons : forall f n m v l ks, NoDup ks -> In m ks ->
  sum_over f n ((m, v) :: l) ks = ((if beq (f m) n then v else 0) + sum_over f n l ks)%Z.
Proof.
  assert (forall f n m v l ks, ~ In m ks -> sum_over f n ((m, v) :: l) ks = sum_over f n l ks) as A.
  { intros f n m v l ks. induction ks as [| k ks IH]; intros NI; [reflexivity |]. unfold sum_over in *. cbn [filter].
    assert (beq m k = false) as B by (apply beq_neq; intros ->; apply NI; left; reflexivity).
    destruct (beq (f k) n); cbn [map fold_right]; [rewrite total_cons, B |]; rewrite IH by (intros I; apply NI; right; exact I); lia. }
  intros f n m v l ks. induction ks as [| k ks IH]; intros ND I; [destruct I |]. inversion ND as [| ? ? N1 N2]. subst.
  destruct (bytes_eq_dec m k) as [-> | D].
  - pose proof (A f n k v l ks N1) as Q. unfold sum_over in *. cbn [filter]. destruct (beq (f k) n); cbn [map fold_right].
    + rewrite total_cons, beq_refl, Q. lia.
    + exact Q.
  - destruct I as [I | I]; [congruence |]. specialize (IH N2 I). unfold sum_over in *. cbn [filter].
    assert (beq m k = false) as B by (apply beq_neq; exact D).
    destruct (beq (f k) n); cbn [map fold_right]; [rewrite total_cons, B, IH; lia | exact IH].
Qed.

Lemma sum_over_total : forall f n l ks, NoDup ks -> (forall m, In m (map fst l) -> In m ks) ->
  sum_over f n l ks = total n (rename_rows f l).
Proof.
  intros f n l ks ND. induction l as [| [m v] l IH]; intros C.
  - unfold sum_over. induction (filter _ ks) as [| k r IH]; [reflexivity |]. cbn [map fold_right]. rewrite IH. reflexivity.
  - rewrite sum_over_cons by (try exact ND; apply C; left; reflexivity).
    rewrite IH by (intros x X; apply C; right; exact X). cbn [rename_rows map fst snd]. rewrite total_cons. reflexivity.
Qed.

Lemma rows_to_sum : forall f n l t, (forall k v, In (k, v) t -> v = total k l) ->
  fold_right Z.add 0%Z (rows_to f n t) = sum_over f n l (map fst t).
Proof.
  intros f n l t V. unfold rows_to, sum_over. induction t as [| [k v] t IH]; [reflexivity |].
  assert (v = total k l) as Q by (apply V; left; reflexivity).
  specialize (IH (fun k' v' I => V k' v' (or_intror I))). cbn [filter fst map].
  destruct (beq (f k) n); cbn [map fold_right snd]; [rewrite IH, Q; reflexivity | exact IH].
Qed.

Lemma merged_tabulates : forall f t t' l, tabulates t l -> tabulates t' (rename_rows f l) -> merged_scores f t t'.
Proof.
  intros f t t' l [N1 [K V]] [N2 [K' V']]. split; [split; [exact N2 |] |].
  - intros n. rewrite K', keys_rename. split; intros [m [I ->]]; exists m; (split; [apply K; exact I | reflexivity]).
  - intros n v I. rewrite (V' n v I), (rows_to_sum f n l t V). symmetry. apply sum_over_total; [exact N1 |].
    intros m M. apply K. exact M.
Qed.

Lemma says_named : forall E text p x y t v, ph_kind p <> KKilledByMate -> says E text p x y ->
  trimmed (to_unicode E text) t -> ~ reads t (TeamkillByUnknown v).
Proof.
  intros E text p x y t v NK [P [NX [ONE T]]] T' R. pose proof (NameFacts.readable_reads p x y P NX ONE) as R'.
  assert (t = obituary p x y) by (apply trimmed_iff in T; apply trimmed_iff in T'; congruence). subst t.
  apply reads_iff in R. apply reads_iff in R'. rewrite R in R'. injection R' as Q.
  destruct (ph_kind p); try discriminate. apply NK. reflexivity.
Qed.

Lemma frags_merged_proof : forall f E fs fs' rest rest', wf fs -> wf fs' ->
  stops (len (encode fs ++ rest)) rest -> stops (len (encode fs' ++ rest')) rest' ->
  len (encode fs ++ rest) < 2147483648 -> len (encode fs' ++ rest') < 2147483648 ->
  Forall2 (same_named_death E f) (obituaries fs) (obituaries fs') ->
  exists t t', frags_per_player_name E (encode fs ++ rest) = Ret t /\
    frags_per_player_name E (encode fs' ++ rest') = Ret t' /\ merged_scores f t t'.
Proof.
  intros f E fs fs' rest rest' W W' S S' L L' D.
  assert (forall m s t v, In (m, s) (obituaries fs) -> trimmed (to_unicode E (m_text m)) t -> ~ reads t (TeamkillByUnknown v)) as U.
  { intros m s t v I T. clear -D I T. induction D as [| a b l l' H D IH]; [destruct I |]. destruct I as [-> | I]; [| auto].
    destruct H as [[p [x [y (NK & X & _)]]] | [X _]]; cbn [fst] in X; [eapply says_named; eassumption | apply (X t); exact T]. }
  assert (forall m s t v, In (m, s) (obituaries fs') -> trimmed (to_unicode E (m_text m)) t -> ~ reads t (TeamkillByUnknown v)) as U'.
  { intros m s t v I T. clear -D I T. induction D as [| a b l l' H D IH]; [destruct I |]. destruct I as [-> | I]; [| auto].
    destruct H as [[p [x [y (NK & _ & X)]]] | [_ X]]; cbn [fst] in X; [eapply says_named; eassumption | apply (X t); exact T]. }
  assert (exists per, Forall2 (fun '(m, s) l => scored [] [] (to_unicode E (m_text m)) l) (obituaries fs) per /\
    Forall2 (fun '(m, s) l => scored [] [] (to_unicode E (m_text m)) l) (obituaries fs') (map (rename_rows f) per)) as [per [F F']].
  { clear -D. induction D as [| [m s] [m' s'] l l' H D [per [F F']]]; [exists []; split; constructor |].
    destruct H as [[p [x [y (NK & X & Y)]]] | [X Y]]; cbn [fst] in *.
    - destruct (scored_exists_proof [] [] (to_unicode E (m_text m))) as [e G].
      exists (e :: per). split; [constructor; assumption |]. cbn [map]. constructor; [| exact F'].
      apply (says_scored E (m_text m') p _ _ _ _ _ Y). apply (says_scored E (m_text m) p x y _ _ _ X) in G.
      destruct (ph_kind p); cbn [event has_two_names entries] in *; try (subst e; reflexivity). contradiction NK. reflexivity.
    - exists ([] :: per). split; [constructor; [| assumption] | cbn [map]; constructor; [| assumption]]; apply nothing_scored; auto. }
  assert (concat (map (rename_rows f) per) = rename_rows f (concat per)) as Q by (unfold rename_rows; rewrite concat_map; reflexivity).
  destruct (score_table_named_proof E fs rest per W S L U F) as [t [A T]].
  destruct (score_table_named_proof E fs' rest' _ W' S' L' U' F') as [t' [A' T']]. rewrite Q in T'.
  exists t, t'. split; [exact A |]. split; [exact A' |]. eapply merged_tabulates; eassumption.
Qed.

(** *** Flags *)
Lemma times_cons : forall k n d m l, times k n ((d, m) :: l) = (if deed_eqb d k && beq m n then 1 else 0) + times k n l.
Proof. intros k n d m l. unfold times. cbn [filter fst snd]. destruct (deed_eqb d k && beq m n); [rewrite len_cons |]; lia. Qed.

Definition times_over (f : str -> str) (k : deed) (n : str) (l : list (deed * str)) (ks : list str) : N :=
  sum (map (fun x => times k x l) (filter (fun x => beq (f x) n) ks)).

Lemma times_over_cons : forall f k n d m l ks, NoDup ks -> In m ks ->
  times_over f k n ((d, m) :: l) ks = (if deed_eqb d k && beq (f m) n then 1 else 0) + times_over f k n l ks.
Proof.
  assert (forall f k n d m l ks, ~ In m ks -> times_over f k n ((d, m) :: l) ks = times_over f k n l ks) as A.
  { intros f k n d m l ks. induction ks as [| x ks IH]; intros NI; [reflexivity |]. unfold times_over in *. cbn [filter].
    assert (beq m x = false) as B by (apply beq_neq; intros ->; apply NI; left; reflexivity).
    specialize (IH (fun I => NI (or_intror I))).
    destruct (beq (f x) n); cbn [map sum fold_right]; [| exact IH]. unfold sum in IH. rewrite times_cons, B, Bool.andb_false_r, IH. lia. }
  intros f k n d m l ks. induction ks as [| x ks IH]; intros ND I; [destruct I |]. inversion ND as [| ? ? N1 N2]. subst.
  destruct (bytes_eq_dec m x) as [-> | D].
  - pose proof (A f k n d x l ks N1) as Q. unfold times_over, sum in *. cbn [filter]. destruct (beq (f x) n); cbn [map fold_right].
    + rewrite times_cons, beq_refl, Q. lia.
    + rewrite Bool.andb_false_r. exact Q.
  - destruct I as [I | I]; [congruence |]. specialize (IH N2 I). unfold times_over, sum in *. cbn [filter].
    assert (beq m x = false) as B by (apply beq_neq; exact D).
    destruct (beq (f x) n); cbn [map fold_right]; [rewrite times_cons, B, Bool.andb_false_r, IH; lia | exact IH].
Qed.

Lemma times_over_all : forall f k n l ks, NoDup ks -> (forall m, In m (map snd l) -> In m ks) ->
  times_over f k n l ks = times k n (rename_deeds f l).
Proof.
  intros f k n l ks ND. induction l as [| [d m] l IH]; intros C.
  - unfold times_over. induction (filter _ ks) as [| x r IH]; [reflexivity |]. cbn [map sum fold_right]. exact IH.
  - rewrite times_over_cons by (try exact ND; apply C; left; reflexivity).
    rewrite IH by (intros x X; apply C; right; exact X). cbn [rename_deeds map fst snd]. rewrite times_cons. reflexivity.
Qed.

Lemma rows_to_times : forall f k n l t, (forall m p, In (m, p) t -> counter k p = times k m l mod 256) ->
  sum (map (counter k) (rows_to f n t)) mod 256 = times_over f k n l (map fst t) mod 256.
Proof.
  intros f k n l t V. unfold rows_to, times_over. induction t as [| [m p] t IH]; [reflexivity |].
  assert (counter k p = times k m l mod 256) as Q by (apply V; left; reflexivity).
  specialize (IH (fun k' v' I => V k' v' (or_intror I))). cbn [filter fst map].
  destruct (beq (f m) n); cbn [map sum fold_right snd]; [| exact IH]. unfold sum in IH.
  rewrite Q. rewrite N.add_mod, IH, <- N.add_mod by discriminate. rewrite N.add_mod_idemp_l by discriminate. reflexivity.
Qed.

Lemma keys_deeds : forall f l n, In n (map snd (rename_deeds f l)) <-> exists m, In m (map snd l) /\ n = f m.
Proof.
  intros f l n. unfold rename_deeds. rewrite map_map. cbn [snd]. rewrite in_map_iff. split.
  - intros [[d m] [<- I]]. exists m. split; [apply in_map_iff; exists (d, m); auto | reflexivity].
  - intros [m [I ->]]. apply in_map_iff in I. destruct I as [[d m'] [<- I]]. exists (d, m'). auto.
Qed.

Lemma times_le_merged : forall f k m l, times k m l <= times k (f m) (rename_deeds f l).
Proof.
  intros f k m l. induction l as [| [d x] l IH]; [reflexivity |]. cbn [rename_deeds map fst snd]. rewrite !times_cons.
  fold (rename_deeds f l). destruct (beq x m) eqn:B.
  - apply beq_eq in B. subst x. rewrite beq_refl. lia.
  - rewrite Bool.andb_false_r. lia.
Qed.

Lemma flags_merged_proof : forall f E fs fs' rest rest' l, wf fs -> wf fs' ->
  stops (len (encode fs ++ rest)) rest -> stops (len (encode fs' ++ rest')) rest' ->
  carry_all E fs l -> carry_all E fs' (map (fun x => (fst x, f (snd x))) l) ->
  checked E = false \/ (forall k n, times k n (map (fun x => (fst x, f (snd x))) l) < 256) ->
  exists t t', flag_events_per_player_name E (encode fs ++ rest) = Ret t /\
    flag_events_per_player_name E (encode fs' ++ rest') = Ret t' /\ merged_flags f t t'.
Proof.
  intros f E fs fs' rest rest' l W W' S S' C C' B. fold (rename_deeds f l) in *.
  destruct (carry_texts E fs l C) as [x [d [A [T <-]]]]. destruct (carry_texts E fs' _ C') as [x' [d' [A' [T' Q]]]].
  destruct (flags_counted_proof E fs rest x d W S A T) as [t [R (N1 & K & V)]].
  { destruct B as [B | B]; [left; exact B | right]. intros k n. pose proof (times_le_merged f k n (concat d)). pose proof (B k (f n)). lia. }
  destruct (flags_counted_proof E fs' rest' x' d' W' S' A' T') as [t' [R' (N2 & K' & V')]]; [rewrite Q; exact B |]. rewrite Q in *.
  exists t, t'. split; [exact R |]. split; [exact R' |]. split; [split; [exact N2 |] |].
  - intros n. rewrite K', keys_deeds. split; intros [m [I ->]]; exists m; (split; [apply K; exact I | reflexivity]).
  - intros n p k I. rewrite (V' n p k I), (rows_to_times f k n (concat d) t (fun m q J => V m q k J)).
    rewrite times_over_all; [reflexivity | exact N1 |]. intros m M. apply K. exact M.
Qed.
