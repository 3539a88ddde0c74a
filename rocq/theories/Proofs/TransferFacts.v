(** Proofs for Properties/Transfers.v *)
From Coq Require Import Lia ZifyN ZifyNat ZifyBool.
From Verif.Model Require Import Base Env Serverinfo Clientinfo Validate.
From Verif.Spec Require Import Occ Texts Transfer.
From Verif.Proofs Require Import BaseFacts TextFacts ClientFacts.
Open Scope N_scope.

Lemma finished_at : forall d, finished d -> 13 <= len d /\ occurs_at d end_of_demo (len d - 12).
Proof.
  intros d [a [NE ->]]. apply len_pos in NE. rewrite len_app. change (len end_of_demo) with 12. split; [lia |].
  exists a, []. rewrite app_nil_r. split; [reflexivity | lia].
Qed.

Lemma cut_accepted : forall E p q, is_valid E p = Ret true -> 1280 <= len p /\ occurs_at (p ++ q) end_of_demo (len p - 12).
Proof.
  intros E p q H. apply is_valid_true_proof in H. destruct H as [L [F _]]. split; [exact L |].
  apply occurs_at_app_l, finished_at, F.
Qed.

Lemma cut_short_proof : forall E p q, q <> [] -> only_at (p ++ q) end_of_demo (len (p ++ q) - 12) ->
  has_end_of_demo_print p = false /\ is_valid E p = Ret false.
Proof.
  intros E p q NE [_ U].
  assert (NF : ~ finished p).
  { intros F. apply finished_at in F. destruct F as [L O]. apply (occurs_at_app_l _ q) in O. apply U in O. rewrite len_app in O.
    apply len_pos in NE. lia. }
  split; [| apply is_valid_false_proof; auto]. destruct (has_end_of_demo_print p) eqn:H; [| reflexivity].
  apply finished_proof in H. contradiction.
Qed.

Lemma serverinfo_needs : forall d info, has_serverinfo d info -> exists j, occurs_at d serverinfo_mark j /\ j + 16 <= 1280.
Proof.
  intros d info [_ [from [x [z [H [_ [[O _] _]]]]]]]. exists (len x). split.
  - rewrite <- (firstn_skipn 1280 d). apply occurs_at_app_l. exact O.
  - apply occurs_at_le in O. change (len serverinfo_mark) with 16 in O. unfold len in *. rewrite firstn_length in O. lia.
Qed.

Lemma clientinfo_strings_of : forall q, (exists j, occurs_at q spawn_mark j) \/ ~ occurs q spawn_mark.
Proof.
  intros q. destruct (find q spawn_mark) as [j |] eqn:F; [left; exists j; apply find_some in F; apply F | right; apply find_none; exact F].
Qed.

Lemma start_lost_proof : forall E p q, only_before (p ++ q) serverinfo_mark (len p) \/ only_before (p ++ q) spawn_mark (len p) ->
  is_valid E q <> Ret true.
Proof.
  intros E p q H V. apply is_valid_true_proof in V. destruct V as [_ [_ [[info I] [s [l C]]]]]. destruct H as [H | H].
  - apply serverinfo_needs in I. destruct I as [j [O _]]. apply (occurs_at_app_r p) in O. apply H in O. lia.
  - destruct (clientinfo_strings_of q) as [O | N].
    + destruct O as [j O]. apply (occurs_at_app_r p) in O. apply H in O. lia.
    + apply (clientinfo_strings_missing_proof E) in N. rewrite N in C. discriminate C.
Qed.

Lemma start_lost_false_proof : forall E p q, only_before (p ++ q) serverinfo_mark (len p) -> ~ (1024 <= len q < 1280) -> is_valid E q = Ret false.
Proof.
  intros E p q H L. apply is_valid_false_proof. destruct (N.lt_ge_cases (len q) 1024) as [X | X]; [auto |].
  right. right. split; [lia |]. left. intros info I. apply serverinfo_needs in I. destruct I as [j [O _]].
  apply (occurs_at_app_r p) in O. apply H in O. lia.
Qed.

Lemma junk_before_proof : forall E x d i, only_at (x ++ d) serverinfo_mark i -> 1264 < i -> 1280 <= len (x ++ d) ->
  is_valid E (x ++ d) = Ret false.
Proof.
  intros E x d i [_ U] G L. apply is_valid_false_proof. right. right. split; [exact L |]. left. intros info I.
  apply serverinfo_needs in I. destruct I as [j [O B]]. apply U in O. lia.
Qed.

Lemma finished_after : forall d x, finished d ->
  (finished (d ++ x) <-> x = [] \/ x = x02 :: lit "EndOfDemo" ++ [x00] \/ exists a, x = a ++ end_of_demo).
Proof.
  intros d x [a [NE ->]]. split.
  - intros [b [_ H]].
    assert (R : rev x ++ rev end_of_demo ++ rev a = rev end_of_demo ++ rev b).
    { apply (f_equal (@rev byte)) in H. rewrite !rev_app_distr in H. exact H. }
    assert (E1 : forall w, rev x = rev end_of_demo ++ w -> exists a, x = a ++ end_of_demo).
    { intros w W. apply (f_equal (@rev byte)) in W. rewrite rev_app_distr, !rev_involutive in W. exists (rev w). exact W. }
    assert (E2 : rev x = removelast (rev end_of_demo) -> x = x02 :: lit "EndOfDemo" ++ [x00]).
    { intros W. apply (f_equal (@rev byte)) in W. rewrite rev_involutive in W. rewrite W. reflexivity. }
    assert (E3 : rev x = [] -> x = []).
    { intros W. apply (f_equal (@rev byte)) in W. rewrite rev_involutive in W. exact W. }
    revert R E1 E2 E3. generalize (rev x) as w. intros w R E1 E2 E3.
    let u := eval vm_compute in (rev end_of_demo) in change (rev end_of_demo) with u in *.
    cbn [app removelast] in *. clear H.
    destruct w as [| c w]; [left; apply E3; reflexivity |]. injection R as -> R.
    do 10 (destruct w as [| c w]; [discriminate R | injection R as -> R]).
    destruct w as [| c w]; [right; left; apply E2; reflexivity |]. injection R as -> R. right. right. apply (E1 w). reflexivity.
  - intros [-> | [-> | [b ->]]].
    + rewrite app_nil_r. exists a. auto.
    + exists (a ++ removelast end_of_demo). split; [destruct a; [destruct (NE eq_refl) | discriminate] |]. rewrite <- !app_assoc. reflexivity.
    + exists ((a ++ end_of_demo) ++ b). split; [destruct a; discriminate |]. rewrite <- !app_assoc. reflexivity.
Qed.

Lemma junk_after_proof : forall E d x, finished d -> x <> [] -> x <> x02 :: lit "EndOfDemo" ++ [x00] -> (forall a, x <> a ++ end_of_demo) ->
  is_valid E (d ++ x) = Ret false.
Proof.
  intros E d x F N1 N2 N3. apply is_valid_false_proof. right. left. rewrite (finished_after d x F). intros [H | [H | [a H]]]; [auto | auto | exact (N3 a H)].
Qed.
