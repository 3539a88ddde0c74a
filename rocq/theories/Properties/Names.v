(** C95: obituaries of players with spaces in their names *)
From Coq Require Import Lia ZifyN ZifyNat ZifyBool.
From Verif.Model Require Import Base FragEvent.
From Verif.Spec Require Import Occ Obituary Names.
From Verif.Proofs Require Import BaseFacts ObituaryFacts NameFacts SecondNameFacts.

(** Names that contain no phrase of the table are read as they are. *)
Theorem obituary_clear : forall p x y, In p phrases -> clear_first x -> clear_second y ->
  (has_two_names (ph_kind p) = false -> y = []) ->
  frag_event_from (obituary p x y) = Ok (event (ph_kind p) x y).
Proof. intros p x y P X Y O. apply reads_iff. apply clear_reads; assumption. Qed.

(** The condition on the first name is exact: any other is misread in some obituary. *)
Theorem first_name_exact : forall x, clear_first x <->
  forall p y, In p phrases -> clear_second y -> (has_two_names (ph_kind p) = false -> y = []) ->
    frag_event_from (obituary p x y) = Ok (event (ph_kind p) x y).
Proof. exact first_exact_proof. Qed.

(** Two names with spaces, one with words of the phrases in it *)
Definition knight : str := lit "the Knight was by his".
Definition ogre : str := lit " an ogre's 2 loads of slime ".
Example clear_names : clear_first knight /\ clear_second knight /\ clear_first ogre /\ clear_second ogre.
Proof.
  destruct (clear_by_test knight) as [A B]; [vm_compute; reflexivity | vm_compute; reflexivity |].
  destruct (clear_by_test ogre) as [C D]; [vm_compute; reflexivity | vm_compute; reflexivity |]. auto.
Qed.
Example clear_example :
  frag_event_from (lit "the Knight was by his was gibbed by  an ogre's 2 loads of slime 's grenade") = Ok (Frag ogre knight) /\
  frag_event_from (lit " an ogre's 2 loads of slime  rips the Knight was by his a new one") = Ok (Frag ogre knight).
Proof. split; vm_compute; reflexivity. Qed.

(** Neither name may be chosen freely: one that quotes a phrase takes the place of another player. *)
Theorem obituary_any_name_refuted : exists p x y x' y', In p phrases /\ clear_first x /\ ~ clear_second y /\
  frag_event_from (obituary p x y) = Ok (Death x') /\ ~ clear_first y' /\
  frag_event_from (obituary p y' x) = Ok (Death x').
Proof.
  exists (two KKilledBy " was nailed by " ""), knight, (lit "ogre was squished"), (knight ++ lit " was nailed by ogre"), (knight ++ lit " was nailed by ogre died").
  destruct clear_names as [K _].
  split; [vm_compute; tauto |]. split; [exact K |]. split.
  { intros [C _]. apply (C (one KDies " was squished")); [vm_compute; tauto |]. apply is_some_find. vm_compute. reflexivity. }
  split; [vm_compute; reflexivity |]. split; [| vm_compute; reflexivity].
  intros [C _]. apply (C (one KDies " died")); [vm_compute; tauto | discriminate |]. apply is_some_find. vm_compute. reflexivity.
Qed.
(** A second name ending in ` was' or containing the phrase of its own obituary does no harm. *)
Example second_name_more :
  frag_event_from (lit "anna was hooked by the one who was hooked by bert") = Ok (Frag (lit "the one who was hooked by bert") (lit "anna")) /\
  frag_event_from (lit "anna was hooked by the one who was") = Ok (Frag (lit "the one who was") (lit "anna")).
Proof. split; vm_compute; reflexivity. Qed.

(** The exact condition on the second name, phrase by phrase: no phrase that goes before in the
    table stands in the text behind the first name, nor the end of the phrase in the name itself. *)
Theorem second_name_exact : forall l1 p l2 x y, phrases = l1 ++ p :: l2 -> has_two_names (ph_kind p) = true -> clear_first x ->
  (frag_event_from (obituary p x y) = Ok (event (ph_kind p) x y) <->
   Forall (fun q => ~ stands q (ph_before p ++ y ++ ph_after p)) l1 /\ (ph_after p <> [] -> ~ occurs y (ph_after p))).
Proof. exact second_exact_proof. Qed.

(** The same two names in four obituaries, read right in three *)
Example second_name_cases :
  frag_event_from (lit "anna rides bo rides cy's rocket") = Ok (Frag (lit "bo rides cy") (lit "anna")) /\
  frag_event_from (lit "anna was nailed by bo rides cy") = Ok (Frag (lit "bo rides cy") (lit "anna")) /\
  frag_event_from (lit "anna eats bo rides cy's pineapple") = Ok (Frag (lit "bo rides cy") (lit "anna")) /\
  frag_event_from (lit "anna was gibbed by bo rides cy's rocket") = Ok (Frag (lit "cy") (lit "anna was gibbed by bo")).
Proof. repeat split; vm_compute; reflexivity. Qed.
Example second_name_holds : exists l1 l2, phrases = l1 ++ two KKilledBy " eats " "'s pineapple" :: l2 /\
  Forall (fun q => ~ stands q (lit " eats bo rides cy's pineapple")) l1 /\ ~ occurs (lit "bo rides cy") (lit "'s pineapple").
Proof.
  exists (firstn 67 phrases), (skipn 68 phrases). split; [vm_compute; reflexivity |].
  destruct (proj1 (second_name_exact (firstn 67 phrases) (two KKilledBy " eats " "'s pineapple") (skipn 68 phrases) (lit "anna") (lit "bo rides cy")
    ltac:(vm_compute; reflexivity) eq_refl ltac:(apply clear_by_test; vm_compute; reflexivity)) (proj1 (proj2 (proj2 second_name_cases)))) as [A B].
  split; [exact A | apply B; discriminate].
Qed.

Print Assumptions obituary_clear.
Print Assumptions first_name_exact.
Print Assumptions second_name_exact.
Print Assumptions obituary_any_name_refuted.
