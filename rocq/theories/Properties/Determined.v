(** C104: nothing else fits the descriptions. *)
From Coq Require Import Lia Permutation ZifyN ZifyNat ZifyBool.
From Verif.Model Require Import Base Env Clients Ktxstats FragEvent FlagEvent Flags Players.
From Verif.Spec Require Import Occ Obituary Score Flags Pings Wrap Join Order Clientlist Teams Shuffles Sources Faults.
From Verif.Proofs Require Import BaseFacts TeamFacts WrapFacts DeterminedFacts.
From Verif.Properties Require Import Sample Players Teams.
Open Scope N_scope.

(** Rows of the lists of clients and players *)
Theorem rows_determined :
  (forall n i c d, describes n i c -> describes n i d -> c = d) /\
  (forall cs a b, latest cs a -> latest cs b -> a = b) /\
  (forall scores pings c p q, NoDup (map fst scores) -> NoDup (map fst pings) -> entry scores pings c p -> entry scores pings c q -> p = q) /\
  (forall k p q, converted k p -> converted k q -> p = q).
Proof. exact rows_determined_proof. Qed.

(** What a message says *)
Theorem events_determined :
  (forall msg e f, reads msg e -> reads msg f -> e = f) /\
  (forall cs nums text l l', scored cs nums text l -> scored cs nums text l' -> l = l') /\
  (forall msg l l', tells_all msg l -> tells_all msg l' -> l = l').
Proof. exact events_determined_proof. Qed.

(** Tables of scores, pings and flag events *)
Theorem tables_determined :
  (forall a b l, tabulates a l -> tabulates b l -> same_rows a b) /\
  (forall a b l, tabulates32 a l -> tabulates32 b l -> same_rows a b) /\
  (forall a b l, averages a l -> averages b l -> same_rows a b) /\
  (forall a b l, averages16 a l -> averages16 b l -> same_rows a b) /\
  (forall a b l, counts a l -> counts b l -> same_rows a b).
Proof. exact tables_determined_proof. Qed.

(** The text of an error about a damaged text *)
Theorem fault_message_determined : forall d s t i n j m, utf8_fault d i n -> utf8_fault d j m ->
  fault_message s i n -> fault_message t j m -> s = t.
Proof. exact fault_message_determined_proof. Qed.

(** Lists of teams *)
Theorem teams_determined : forall lower ps ts us, small_pings ps -> clear_colors ps -> apart lower ps ->
  teams_of lower ps ts -> teams_of lower ps us -> ts = us.
Proof. exact teams_determined_proof. Qed.

(** with sums of any size, the result being one that fits *)
Theorem teams_only : forall E ps ts us, iterates (teams_order E) -> each_iterates (colors_order E) -> len ps < 9223372036854775808 ->
  clear_counts ps -> apart (to_lowercase E) ps ->
  teams_from_players E ps = Ret ts -> teams_of32 (to_lowercase E) ps us -> us = ts.
Proof. exact teams_only_proof. Qed.

Example crew_clear : clear_counts crew /\ apart (to_lowercase (sample true)) crew.
Proof.
  split.
  - intros team ms others S L.
    assert (ms = [person "a" "red" (4, 4) 10 25; person "c" "red" (4, 4) 8 26; person "d" "red" (13, 13) 8 30]) as ->.
    { unfold crew in S.
      repeat (match goal with H : splits _ (_ :: _) _ _ |- _ => inversion H; clear H; subst; cbn [p_team person] in * end; try congruence;
        try match goal with H : lit _ = lit _ |- _ => discriminate H end);
        match goal with H : splits _ [] _ _ |- _ => inversion H; clear H; subst end; cbn [length] in L; try lia; reflexivity. }
    assert (forall c, most_counted c [person "a" "red" (4, 4) 10 25; person "c" "red" (4, 4) 8 26; person "d" "red" (13, 13) 8 30] -> c = (4, 4)) as ONE.
    { intros c (n & r & W & R & P & M).
      specialize (M (4, 4) 2 2 ltac:(refine (eq_ind _ (wear (4, 4) _) (wear_worn (4, 4) _) 2 _); vm_compute; reflexivity) ltac:(split; [lia | exists 0; lia])).
      apply low_part_unique in R; [| lia]. apply wear_fun in W. cbn [worn person p_color] in W.
      repeat match type of W with context [color_eqb ?a ?b] => let Q := fresh in destruct (color_eqb a b) eqn:Q; [apply color_eqb_eq in Q |] end;
        subst n; cbn in R; try lia; congruence. }
    intros c d C D. rewrite (ONE c C), (ONE d D). reflexivity.
  - intros p q P Q. cbn in P, Q.
    repeat (destruct P as [<- | P]; [repeat (destruct Q as [<- | Q]; [vm_compute; (reflexivity || discriminate) |]); destruct Q |]). destruct P.
Qed.

(** Of two colours worn equally often, and of two names that differ in case, either may come first. *)
Theorem teams_determined_refuted :
  (exists ps t u, small_pings ps /\ apart (map ascii_lower) ps /\
     teams_of (map ascii_lower) ps [t] /\ teams_of (map ascii_lower) ps [u] /\ t <> u) /\
  (exists ps t u, small_pings ps /\ clear_colors ps /\ teams_of (map ascii_lower) ps [t; u] /\ teams_of (map ascii_lower) ps [u; t] /\ t <> u).
Proof.
  assert (forall ps ts E, to_lowercase E = map ascii_lower -> iterates (teams_order E) -> each_iterates (colors_order E) ->
    sums_fit ps -> teams_from_players E ps = Ret ts -> teams_of (map ascii_lower) ps ts) as X.
  { intros ps ts E L IT IC SF T. destruct (teams_exact E ps IT IC SF) as (ts' & T' & O). rewrite L in O. congruence. }
  assert (iterates (fun l : list (str * list Player) => l)) as I1 by (intros l; apply Permutation_refl).
  assert (each_iterates (fun (_ : str) (l : list ((N * N) * N)) => l)) as I2 by (intros t l; apply Permutation_refl).
  split.
  - exists [person "a" "red" (4, 4) 0 0; person "b" "red" (13, 13) 0 0; person "c" "red" (13, 13) 0 0; person "d" "red" (4, 4) 0 0].
    do 2 eexists. split; [vm_compute; discriminate |].
    split; [intros p q P Q _; cbn in P, Q; repeat (destruct P as [<- | P]; [repeat (destruct Q as [<- | Q]; [reflexivity |]); destruct Q |]); destruct P |].
    split; [| split].
    + apply (X _ _ (sample true)); [reflexivity | exact I1 | exact I2 | | vm_compute; reflexivity].
      apply sums_fit_small; [reflexivity |]. repeat (constructor; [cbn; lia |]); constructor.
    + apply (X _ _ (reordered (sample true) (fun l => l) (fun l => l) (fun _ => @rev _))); [reflexivity | exact I1 | | | vm_compute; reflexivity].
      * intros t l. apply Permutation_sym, Permutation_rev.
      * apply sums_fit_small; [reflexivity |]. repeat (constructor; [cbn; lia |]); constructor.
    + discriminate.
  - exists [person "a" "Red" (4, 4) 0 0; person "b" "red" (4, 4) 0 0].
    do 2 eexists. split; [vm_compute; discriminate |]. split; [| split; [| split]].
    + intros team ms others S L. inversion S as [| x l a b P S' | x l a b P S']; subst; inversion S' as [| x' l' a' b' P' S'' | x' l' a' b' P' S'']; subst;
        inversion S''; subst; cbn [length] in L; lia.
    + apply (X _ _ (sample true)); [reflexivity | exact I1 | exact I2 | | vm_compute; reflexivity].
      apply sums_fit_small; [reflexivity |]. repeat (constructor; [cbn; lia |]); constructor.
    + apply (X _ _ (reordered (sample true) (fun l => l) (@rev _) (fun _ l => l))); [reflexivity | | exact I2 | | vm_compute; reflexivity].
      * intros l. apply Permutation_sym, Permutation_rev.
      * apply sums_fit_small; [reflexivity |]. repeat (constructor; [cbn; lia |]); constructor.
    + discriminate.
Qed.

(** One obituary has one reading, though a shorter phrase occurs in it too. *)
Example rides_reading : reads (lit "anna rides carl's rocket") (Frag (lit "carl") (lit "anna")) /\
  forall e, reads (lit "anna rides carl's rocket") e -> e = Frag (lit "carl") (lit "anna").
Proof.
  assert (reads (lit "anna rides carl's rocket") (Frag (lit "carl") (lit "anna"))) as R by (apply ObituaryFacts.reads_iff; vm_compute; reflexivity).
  split; [exact R |]. intros e H. apply (proj1 events_determined _ _ _ H R).
Qed.

Print Assumptions rows_determined.
Print Assumptions events_determined.
Print Assumptions tables_determined.
Print Assumptions fault_message_determined.
Print Assumptions teams_determined.
Print Assumptions teams_only.
Print Assumptions teams_determined_refuted.
