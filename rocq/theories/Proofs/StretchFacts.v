(** Proofs for Properties/Stretches.v *)
From Coq Require Import Lia ZifyN ZifyNat ZifyBool.
From Verif.Model Require Import Base Env Serverinfo Matchdate Duration.
From Verif.Spec Require Import Occ Mvd Times Clock Splice Stretch.
From Verif.Proofs Require Import BaseFacts TextFacts ClientFacts FrameFacts TimeFacts ClockFacts TailFacts GrowFacts LocalFacts SpliceFacts ChatFacts.
Open Scope N_scope.

Lemma three : forall a h b, encode (a ++ h ++ b) = encode a ++ encode h ++ encode b.
Proof. intros a h b. rewrite !encode_both. reflexivity. Qed.
Lemma time_mark_full : forall m, In m time_marks -> 0 < len m.
Proof. intros m [<- | [<- | [<- | []]]]; vm_compute; reflexivity. Qed.

(** where offset [i] goes *)
Definition shifted (a h h' : list frame) (i : N) : N :=
  if i <? len (encode a) then i else i - len (encode h) + len (encode h').

Section Stretch.
  Context (a h h' b : list frame).

  Lemma shifted_occurs : forall m i, In m time_marks -> unmarked a h b -> occurs_at (encode (a ++ h ++ b)) m i ->
    occurs_at (encode (a ++ h' ++ b)) m (shifted a h h' i) /\ (i < len (encode a) \/ len (encode a) + len (encode h) <= i).
  Proof.
    intros m i I U O. pose proof (time_mark_full m I) as P. destruct (U m i I O) as [L | L]; rewrite three in *; unfold shifted.
    - replace (i <? len (encode a)) with true by lia. split; [| lia]. apply occurs_at_app_l. eapply occurs_at_left; [exact O | exact L].
    - replace (i <? len (encode a)) with false by lia. split; [| lia]. apply occurs_at_right in O; [| lia]. apply occurs_at_right in O; [| lia].
      apply (occurs_at_app_r (encode h')) in O. apply (occurs_at_app_r (encode a)) in O.
      replace (i - len (encode h) + len (encode h')) with (len (encode a) + (len (encode h') + (i - len (encode a) - len (encode h)))) by lia. exact O.
  Qed.
  Lemma shifted_mono : forall i j, i < len (encode a) \/ len (encode a) + len (encode h) <= i ->
    j < len (encode a) \/ len (encode a) + len (encode h) <= j -> i <= j -> shifted a h h' i <= shifted a h h' j.
  Proof. intros i j A B L. unfold shifted. destruct (N.ltb_spec i (len (encode a))), (N.ltb_spec j (len (encode a))); lia. Qed.
  Lemma shifted_elapsed : forall i, i < len (encode a) \/ len (encode a) + len (encode h) <= i -> all_time h = all_time h' ->
    elapsed (shifted a h h' i) (a ++ h' ++ b) = elapsed i (a ++ h ++ b).
  Proof.
    intros i R T. unfold shifted. destruct (N.ltb_spec i (len (encode a))) as [L | L].
    - rewrite !elapsed_first by lia. reflexivity.
    - replace (i - len (encode h) + len (encode h')) with (len (encode a) + (len (encode h') + (i - len (encode a) - len (encode h)))) by lia.
      replace i with (len (encode a) + (len (encode h) + (i - len (encode a) - len (encode h)))) at 2 by lia.
      rewrite !elapsed_second. lia.
  Qed.
End Stretch.

Lemma shifted_back : forall a h h' i, i < len (encode a) \/ len (encode a) + len (encode h) <= i -> shifted a h' h (shifted a h h' i) = i.
Proof.
  intros a h h' i R. unfold shifted. destruct (N.ltb_spec i (len (encode a))) as [L | L].
  - replace (i <? len (encode a)) with true by lia. reflexivity.
  - replace (i - len (encode h) + len (encode h') <? len (encode a)) with false by lia. lia.
Qed.

Section Both.
  Context (a h h' b : list frame) (U : unmarked a h b) (U' : unmarked a h' b).
  Local Notation data := (encode (a ++ h ++ b)).
  Local Notation data' := (encode (a ++ h' ++ b)).

  Lemma stretch_occurs : forall m, In m time_marks -> (occurs data' m <-> occurs data m).
  Proof.
    intros m I. rewrite !occurs_iff. split; intros [i O].
    - apply (shifted_occurs a h' h b m i I U') in O. destruct O as [O _]. eauto.
    - apply (shifted_occurs a h h' b m i I U) in O. destruct O as [O _]. eauto.
  Qed.
  Lemma stretch_first : forall m i, In m time_marks -> first_at data m i -> first_at data' m (shifted a h h' i) /\
    (i < len (encode a) \/ len (encode a) + len (encode h) <= i).
  Proof.
    intros m i I [O M]. destruct (shifted_occurs a h h' b m i I U O) as [O' R]. split; [| exact R]. split; [exact O' |].
    intros j J. destruct (shifted_occurs a h' h b m j I U' J) as [K S]. pose proof (M _ K) as L.
    apply (shifted_mono a h h') in L; [| exact R |].
    - rewrite shifted_back in L by exact S. exact L.
    - unfold shifted. destruct (N.ltb_spec j (len (encode a))); lia.
  Qed.
  Lemma stretch_last : forall m i, In m time_marks -> last_at data m i -> last_at data' m (shifted a h h' i) /\
    (i < len (encode a) \/ len (encode a) + len (encode h) <= i).
  Proof.
    intros m i I [O M]. destruct (shifted_occurs a h h' b m i I U O) as [O' R]. split; [| exact R]. split; [exact O' |].
    intros j J. destruct (shifted_occurs a h' h b m j I U' J) as [K S]. pose proof (M _ K) as L.
    apply (shifted_mono a h h') in L; [| | exact R].
    - rewrite shifted_back in L by exact S. exact L.
    - unfold shifted. destruct (N.ltb_spec j (len (encode a))); lia.
  Qed.
  Lemma stretch_marker : forall i, end_marker data i -> end_marker data' (shifted a h h' i) /\
    (i < len (encode a) \/ len (encode a) + len (encode h) <= i).
  Proof.
    assert (I : In match_over time_marks) by (left; reflexivity). assert (I' : In standby time_marks) by (right; left; reflexivity).
    intros i [M | [[N M] | [N [N' ->]]]].
    - apply (stretch_last _ _ I) in M. destruct M as [M R]. split; [left; exact M | exact R].
    - apply (stretch_last _ _ I') in M. destruct M as [M R]. split; [| exact R]. right. left. split; [rewrite stretch_occurs by exact I; exact N | exact M].
    - split; [right; right; split; [rewrite stretch_occurs by exact I; exact N | split; [rewrite stretch_occurs by exact I'; exact N' |]] |];
        rewrite !three, !len_app; [| lia].
      unfold shifted. replace (len (encode a) + (len (encode h) + len (encode b)) <? len (encode a)) with false by lia. lia.
  Qed.
  Context (W : wf (a ++ h ++ b)) (W' : wf (a ++ h' ++ b)) (T : all_time h = all_time h').
  Lemma stretch_until : forall E i, i < len (encode a) \/ len (encode a) + len (encode h) <= i ->
    duration_until_offset E data' (shifted a h h' i) = duration_until_offset E data i.
  Proof.
    intros E i R. unfold duration_until_offset. f_equal.
    pose proof (total_clock E (a ++ h ++ b) [] i W I) as K. rewrite app_nil_r in K.
    pose proof (total_clock E (a ++ h' ++ b) [] (shifted a h h' i) W' I) as K'. rewrite app_nil_r in K'.
    destruct (clock_one_proof (checked E) (a ++ h ++ b) [] i I) as [z [_ Z]].
    rewrite (Z _ K). apply Z. eapply clock_same; [| exact K']. apply shifted_elapsed; assumption.
  Qed.
  Lemma stretch_demo_proof : forall E, demo_duration E data' = demo_duration E data.
  Proof.
    intros E. pose proof (end_marker_offset data) as M. destruct (stretch_marker _ M) as [M' R].
    rewrite (demo_duration_offset E _ _ M), (demo_duration_offset E _ _ M'), stretch_until by exact R. reflexivity.
  Qed.
  Lemma stretch_countdown_proof : forall E, serverinfo E data' = serverinfo E data -> countdown_duration E data' = countdown_duration E data.
  Proof.
    intros E S. unfold countdown_duration. rewrite S. destruct (serverinfo E data) as [s | |]; [cbn [bind] | reflexivity | reflexivity].
    destruct (is_hoonymode s); [reflexivity |]. change MATCHDATE_NEEDLE with matchdate_marker.
    assert (I : In matchdate_marker time_marks) by (do 2 right; left; reflexivity).
    destruct (find data matchdate_marker) as [i |] eqn:F.
    - apply find_some in F. destruct (stretch_first _ _ I F) as [F' R]. apply find_some in F'. rewrite F', stretch_until by exact R. reflexivity.
    - apply find_none in F. rewrite <- (stretch_occurs _ I) in F. apply find_none in F. rewrite F. reflexivity.
  Qed.
End Both.

Lemma stretch_proof : forall E a h h' b, wf (a ++ h ++ b) -> wf (a ++ h' ++ b) -> unmarked a h b -> unmarked a h' b ->
  all_time h = all_time h' -> serverinfo E (encode (a ++ h ++ b)) = serverinfo E (encode (a ++ h' ++ b)) ->
  demo_duration E (encode (a ++ h ++ b)) = demo_duration E (encode (a ++ h' ++ b)) /\
  countdown_duration E (encode (a ++ h ++ b)) = countdown_duration E (encode (a ++ h' ++ b)) /\
  match_duration_from_seeking E (encode (a ++ h ++ b)) = match_duration_from_seeking E (encode (a ++ h' ++ b)).
Proof.
  intros E a h h' b W W' U U' T S. assert (D := stretch_demo_proof a h h' b U U' W W' T E).
  assert (C := stretch_countdown_proof a h h' b U U' W W' T E (eq_sym S)). unfold match_duration_from_seeking. rewrite D, C. auto.
Qed.
Lemma stretch_head_proof : forall E a h h' b, 1280 <= len (encode a) -> serverinfo E (encode (a ++ h ++ b)) = serverinfo E (encode (a ++ h' ++ b)).
Proof. intros E a h h' b L. rewrite !three, !serverinfo_head by lia. reflexivity. Qed.

(** a test for the examples *)
Definition clear_of (a h b : list frame) : bool :=
  forallb (fun m => forallb (fun k => negb (starts_with (skipn k (encode (a ++ h ++ b))) m) ||
    (N.of_nat k + len m <=? len (encode a)) || (len (encode a) + len (encode h) <=? N.of_nat k))
    (seq 0 (length (encode (a ++ h ++ b))))) time_marks.
Lemma clear_unmarked : forall a h b, clear_of a h b = true -> unmarked a h b.
Proof.
  intros a h b S m i M [p [q [H L]]]. pose proof (time_mark_full m M) as P. unfold clear_of in S. rewrite forallb_forall in S. apply S in M.
  rewrite forallb_forall in M. assert (K : In (length p) (seq 0 (length (encode (a ++ h ++ b))))).
  { apply in_seq. rewrite H, !app_length. unfold len in P. lia. }
  apply M in K. rewrite H, skipn_app, skipn_all, Nat.sub_diag in K. cbn [app skipn] in K. rewrite starts_with_app in K.
  subst i. unfold len in *. lia.
Qed.
