(** Facts about flag messages and flag_events_per_player_name(). *)
From Coq Require Import Lia ZifyN ZifyNat ZifyBool.
From Verif.Model Require Import Base Utf8Error Env Primitives Prot Frame Message FragEvent FlagEvent Flags.
From Verif.Spec Require Import Occ Mvd Messages Flags.
From Verif.Proofs Require Import BaseFacts FrameFacts PrintFacts ObituaryFacts.
Open Scope N_scope.

(** ** One text *)
Definition try_phrase (msg : str) (q : deed * str) : option FlagEvent :=
  match find msg (snd q) with
  | Some pos => Some (flag_event (fst q) (until msg pos))
  | None => None
  end.

Lemma flag_event_from_table : forall msg,
  flag_event_from msg =
  match find_map (try_phrase msg) flag_phrases with
  | Some e => Ok e
  | None => Err (quoting "Unable to parse as flag event" msg)
  end.
Proof.
  intros msg. unfold flag_event_from, flag_print_types, flag_phrases, find_any, try_phrase,
    X_CAPTURED_FLAG, X_DEFENDS_FLAG, X_DEFENDS_CARRIER, X_DEFENDS_CARRIER_AGGR, X_GOT_FLAG, X_RETURNED_FLAG,
    X_FRAGS_CARRIER, line.
  cbn [find_map fst snd flag_event].
  repeat match goal with |- context[find msg ?p] => destruct (find msg p) end; reflexivity.
Qed.

Lemma try_phrase_some : forall msg k s e, try_phrase msg (k, s) = Some e <->
  exists name r, e = flag_event k name /\ msg = name ++ s ++ r /\ first_at msg s (len name).
Proof.
  intros msg k s e. unfold try_phrase. cbn [fst snd]. split.
  - destruct (find msg s) as [pos |] eqn:F; [| discriminate]. intros H. injection H as <-.
    apply find_some in F. destruct F as [[a [b [-> L]]] M]. exists a, b. subst pos.
    unfold until. replace (N.to_nat (len a)) with (length a) by (unfold len; lia).
    rewrite firstn_app, firstn_all, Nat.sub_diag. cbn [firstn]. rewrite app_nil_r.
    split; [reflexivity |]. split; [reflexivity |]. split; [exists a, b; auto | exact M].
  - intros [name [r [-> [-> F]]]]. apply find_some in F. rewrite F. unfold until.
    replace (N.to_nat (len name)) with (length name) by (unfold len; lia).
    rewrite firstn_app, firstn_all, Nat.sub_diag. cbn [firstn]. rewrite app_nil_r. reflexivity.
Qed.

Lemma try_phrase_none : forall msg q, try_phrase msg q = None <-> ~ occurs msg (snd q).
Proof.
  intros msg q. unfold try_phrase. rewrite <- find_none. destruct (find msg (snd q)); split; congruence.
Qed.

Lemma tells_iff : forall msg e, flag_event_from msg = Ok e <->
  exists k name, tells msg k name /\ e = flag_event k name.
Proof.
  intros msg e. rewrite flag_event_from_table. transitivity (find_map (try_phrase msg) flag_phrases = Some e).
  { destruct (find_map (try_phrase msg) flag_phrases); split; congruence. }
  rewrite find_map_some. split.
  - intros [l1 [[k s] [l2 [T [X N]]]]]. apply try_phrase_some in X. destruct X as [name [r [-> [M F]]]].
    exists k, name. split; [| reflexivity]. exists l1, s, l2, r. repeat split; auto; try apply F.
    eapply Forall_impl; [| exact N]. intros q. apply try_phrase_none.
  - intros [k [name [[l1 [s [l2 [r [T [M [F N]]]]]]] ->]]]. exists l1, (k, s), l2. split; [exact T |]. split.
    + apply try_phrase_some. exists name, r. auto.
    + eapply Forall_impl; [| exact N]. intros q. apply try_phrase_none.
Qed.

Lemma flag_event_inj : forall k k' a b, flag_event k a = flag_event k' b -> k = k' /\ a = b.
Proof. intros [] [] a b H; inversion H; auto. Qed.

Lemma tells_unique : forall msg k k' a b, tells msg k a -> tells msg k' b -> k = k' /\ a = b.
Proof.
  intros msg k k' a b A B. apply flag_event_inj.
  assert (flag_event_from msg = Ok (flag_event k a)) as P by (apply tells_iff; eauto).
  assert (flag_event_from msg = Ok (flag_event k' b)) as Q by (apply tells_iff; eauto).
  congruence.
Qed.

Lemma tells_not : forall msg, (exists m, flag_event_from msg = Err m) <->
  forall q, In q flag_phrases -> ~ occurs msg (snd q).
Proof.
  intros msg. rewrite flag_event_from_table. rewrite <- Forall_forall. split.
  - intros [m H]. destruct (find_map (try_phrase msg) flag_phrases) eqn:F; [discriminate |].
    apply find_map_none in F. eapply Forall_impl; [| exact F]. intros q. apply try_phrase_none.
  - intros H. assert (find_map (try_phrase msg) flag_phrases = None) as ->; [| eauto].
    apply find_map_none. eapply Forall_impl; [| exact H]. intros q. apply try_phrase_none.
Qed.

Lemma tells_all_cases : forall msg, (exists e, flag_event_from msg = Ok e) \/ (exists m, flag_event_from msg = Err m).
Proof. intros msg. destruct (flag_event_from msg); eauto. Qed.

Lemma tells_all_exists_proof : forall msg, exists l, tells_all msg l.
Proof.
  intros msg. destruct (tells_all_cases msg) as [[e H] | [m H]].
  - apply tells_iff in H. destruct H as [k [name [T _]]]. exists [(k, name)]. left. eauto.
  - exists []. right. split; [| reflexivity]. intros k name T.
    assert (flag_event_from msg = Ok (flag_event k name)) as P by (apply tells_iff; eauto). congruence.
Qed.

(** a phrase ends the line, so it cannot begin inside the name *)
Definition line_phrase (s : str) : Prop := exists z, s = z ++ [x0a] /\ ~ In x0a z.

Lemma phrases_are_lines : Forall (fun q => line_phrase (snd q)) flag_phrases.
Proof.
  repeat (apply Forall_cons || apply Forall_nil); cbn [snd]; unfold line; eexists; (split; [reflexivity |]);
    vm_compute; intros I; repeat (destruct I as [I | I]; [discriminate I |]); exact I.
Qed.

Lemma occurs_line : forall name s p a b, line_phrase s -> line_phrase p ->
  name ++ s = a ++ p ++ b -> ~ occurs name p -> b = [].
Proof.
  intros name s p a b [z [-> Z]] [w [-> W]] H NO. destruct b as [| y b]; [reflexivity | exfalso].
  destruct (@exists_last _ (y :: b) ltac:(discriminate)) as [b' [c B]]. rewrite B in H. clear y b B.
  rewrite !app_assoc in H. apply app_inj_tail in H. destruct H as [H _]. rewrite <- !app_assoc in H. cbn [app] in H.
  destruct (le_lt_dec (length a + length w + 1) (length name)) as [L | L].
  - apply NO. exists a, (firstn (length name - length (a ++ w ++ [x0a])) b').
    apply (f_equal (firstn (length name))) in H. rewrite firstn_app, firstn_all, Nat.sub_diag in H. cbn [firstn] in H.
    rewrite app_nil_r in H.
    replace (a ++ w ++ x0a :: b') with ((a ++ w ++ [x0a]) ++ b') in H by (rewrite <- !app_assoc; reflexivity).
    rewrite firstn_app in H. rewrite (firstn_all2 (a ++ w ++ [x0a])) in H by (rewrite !app_length; cbn [length]; lia).
    rewrite H at 1. rewrite <- !app_assoc. reflexivity.
  - apply Z. apply (f_equal (skipn (length name))) in H. rewrite skipn_app, skipn_all, Nat.sub_diag in H. cbn [app skipn] in H.
    rewrite H, app_assoc, skipn_app. apply in_or_app. right.
    replace (length name - length (a ++ w))%nat with 0%nat by (rewrite app_length; lia). left. reflexivity.
Qed.

(** no phrase of the table is the end of another *)
Fixpoint is_suffix_of (p d : str) : bool :=
  beq d p || match d with [] => false | _ :: d' => is_suffix_of p d' end.
Lemma is_suffix_of_app : forall p a, is_suffix_of p (a ++ p) = true.
Proof.
  intros p a. induction a as [| x a IH]; cbn [app].
  - destruct p; cbn [is_suffix_of]; rewrite beq_refl; reflexivity.
  - cbn [is_suffix_of]. rewrite IH. apply orb_true_r.
Qed.

Definition phrase_eqb (a b : deed * str) : bool := deed_eqb (fst a) (fst b) && beq (snd a) (snd b).
Lemma deed_eqb_true : forall a b, deed_eqb a b = true <-> a = b.
Proof. intros [] []; simpl; split; congruence. Qed.

Definition tails_differ : bool :=
  forallb (fun p => forallb (fun q => phrase_eqb p q || negb (is_suffix_of (snd p) (snd q))) flag_phrases) flag_phrases.
Lemma tails_differ_true : tails_differ = true.
Proof. vm_compute. reflexivity. Qed.

Lemma phrase_tail : forall p q, In p flag_phrases -> In q flag_phrases ->
  (exists a, snd q = a ++ snd p) -> p = q.
Proof.
  intros [k s] [k' s'] P Q [a H]. cbn [snd] in H. pose proof tails_differ_true as T. unfold tails_differ in T.
  rewrite forallb_forall in T. specialize (T _ P). rewrite forallb_forall in T. specialize (T _ Q).
  cbn [snd] in T. apply orb_true_iff in T. destruct T as [T | T].
  - unfold phrase_eqb in T. apply andb_true_iff in T. cbn [fst snd] in T. destruct T as [A B].
    apply deed_eqb_true in A. apply beq_eq in B. congruence.
  - rewrite H, is_suffix_of_app in T. discriminate.
Qed.

Lemma suffix_split : forall A (a b c d : list A), a ++ b = c ++ d -> (length d <= length b)%nat -> exists x, b = x ++ d.
Proof.
  intros A a b c d H L. assert (length a <= length c)%nat as LA.
  { apply (f_equal (@length A)) in H. rewrite !app_length in H. lia. }
  exists (skipn (length a) c). apply (f_equal (skipn (length a))) in H.
  rewrite !skipn_app, skipn_all, Nat.sub_diag in H. cbn [app skipn] in H.
  replace (length a - length c)%nat with 0%nat in H by lia. exact H.
Qed.

Lemma flag_phrases_nodup : NoDup flag_phrases.
Proof.
  assert (forall (l : list (deed * str)), (fix nd l := match l with [] => true | x :: r => negb (existsb (phrase_eqb x) r) && nd r end) l = true -> NoDup l) as G.
  { induction l as [| x l IH]; intros H; [constructor |]. apply andb_true_iff in H. destruct H as [A B].
    constructor; [| auto]. intros I. apply negb_true_iff in A.
    assert (existsb (phrase_eqb x) l = true); [| congruence].
    apply existsb_exists. exists x. split; [exact I |]. unfold phrase_eqb. rewrite beq_refl.
    destruct (fst x); reflexivity. }
  apply G. vm_compute. reflexivity.
Qed.

(** a phrase in a flag message stands in the name or is the phrase at the end *)
Lemma phrase_place : forall k s name q a b, In (k, s) flag_phrases -> In q flag_phrases -> ~ occurs name (snd q) ->
  name ++ s = a ++ snd q ++ b -> q = (k, s) /\ a = name.
Proof.
  intros k s name q a b P Q NO H. pose proof phrases_are_lines as LP. rewrite Forall_forall in LP.
  pose proof (occurs_line name s (snd q) a b (LP _ P) (LP _ Q) H NO) as ->. rewrite app_nil_r in H.
  assert (q = (k, s)) as ->.
  { destruct (le_lt_dec (length (snd q)) (length s)) as [L | L].
    - destruct (suffix_split _ _ _ _ _ H L) as [x X]. apply phrase_tail; [exact Q | exact P |]. exists x. exact X.
    - symmetry in H. destruct (suffix_split _ _ _ _ _ H) as [x X]; [lia |].
      symmetry. apply phrase_tail; [exact P | exact Q |]. exists x. exact X. }
  split; [reflexivity |]. cbn [snd] in H. apply app_inv_tail in H. auto.
Qed.

Lemma flag_message_tells_at : forall l1 k s l2 name, flag_phrases = l1 ++ (k, s) :: l2 ->
  (tells (name ++ s) k name <-> Forall (fun q => ~ occurs name (snd q)) (l1 ++ [(k, s)])).
Proof.
  intros l1 k s l2 name T.
  assert (P : In (k, s) flag_phrases) by (rewrite T; apply in_or_app; right; left; reflexivity).
  assert (I : forall q, In q (l1 ++ [(k, s)]) -> In q flag_phrases).
  { intros q Q. rewrite T. apply in_app_or in Q. apply in_or_app. destruct Q as [Q | [<- | []]]; [left; exact Q | right; left; reflexivity]. }
  split.
  - intros [m1 [s' [m2 [r [T' [M [F N]]]]]]].
    assert (C : forall x c, occurs name x -> occurs (name ++ c) x).
    { intros x c [a [b ->]]. exists a, (b ++ c). rewrite <- !app_assoc. reflexivity. }
    assert (S0 : ~ occurs name s').
    { intros [a [b E]]. destruct F as [_ F]. specialize (F (len a)). assert (X : occurs_at (name ++ s) s' (len a)).
      { exists a, (b ++ s). split; [rewrite E, <- !app_assoc; reflexivity | reflexivity]. }
      specialize (F X). assert (length name = length a + length s' + length b)%nat by (rewrite E, !app_length; lia).
      assert (s' <> []).
      { pose proof phrases_are_lines as LP. rewrite Forall_forall in LP. destruct (LP (k, s')) as [z [Z _]].
        - rewrite T'. apply in_or_app. right. left. reflexivity.
        - cbn [snd] in Z. rewrite Z. destruct z; discriminate. }
      destruct s'; [congruence |]. cbn [length] in *. unfold len in F. lia. }
    assert (In (k, s') flag_phrases) as P' by (rewrite T'; apply in_or_app; right; left; reflexivity).
    destruct (phrase_place k s name (k, s') name r P P' S0 M) as [E _]. injection E as ->.
    assert (l1 = m1) as ->.
    { pose proof flag_phrases_nodup as ND. rewrite T in T'. rewrite T in ND. clear -T' ND. revert m1 T' ND.
      induction l1 as [| x l1 IH]; intros [| y m1] H ND; cbn [app] in *.
      - reflexivity.
      - exfalso. injection H as <- H. inversion ND as [| ? ? A B]; subst. apply A, in_or_app. right. left. reflexivity.
      - exfalso. injection H as -> H. inversion ND as [| ? ? A B]; subst. apply A, in_or_app. right. left. reflexivity.
      - injection H as -> H. inversion ND; subst. f_equal. apply IH; assumption. }
    apply Forall_app. split; [| constructor; [exact S0 | constructor]].
    eapply Forall_impl; [| exact N]. intros q A B. apply A, C, B.
  - intros N. rewrite Forall_forall in N.
    exists l1, s, l2, []. split; [exact T |]. rewrite app_nil_r. split; [reflexivity |]. split.
    + split; [exists name, []; rewrite app_nil_r; auto |]. intros j [a [b [H <-]]].
      assert (In (k, s) (l1 ++ [(k, s)])) as J by (apply in_or_app; right; left; reflexivity).
      destruct (phrase_place k s name (k, s) a b P P (N _ J) H) as [_ ->]. lia.
    + rewrite Forall_forall. intros q Q [a [b H]].
      assert (In q (l1 ++ [(k, s)])) as J by (apply in_or_app; left; exact Q).
      destruct (phrase_place k s name q a b P (I q J) (N q J) H) as [-> _].
      pose proof flag_phrases_nodup as ND. rewrite T in ND. apply NoDup_remove_2 in ND. apply ND, in_or_app. auto.
Qed.

Lemma flag_message_tells : forall k s name, In (k, s) flag_phrases -> quotes_no_flag name -> tells (name ++ s) k name.
Proof.
  intros k s name P Q. destruct (in_split _ _ P) as [l1 [l2 T]]. apply (flag_message_tells_at l1 k s l2 name T).
  rewrite Forall_forall. intros q I. apply Q. rewrite T. apply in_app_or in I. apply in_or_app.
  destruct I as [I | [<- | []]]; [left; exact I | right; left; reflexivity].
Qed.

Lemma quotes_none_line : forall name, ~ In x0a name -> quotes_no_flag name.
Proof.
  intros name N q Q [a [b H]]. pose proof phrases_are_lines as LP. rewrite Forall_forall in LP.
  destruct (LP q Q) as [z [Z _]]. apply N. rewrite H, Z. apply in_or_app. right. apply in_or_app. left.
  apply in_or_app. right. left. reflexivity.
Qed.

Lemma flag_named_exact_proof : forall l1 k s l2 name, flag_phrases = l1 ++ (k, s) :: l2 ->
  (flag_event_from (name ++ s) = Ok (flag_event k name) <-> Forall (fun q => ~ occurs name (snd q)) (l1 ++ [(k, s)])).
Proof.
  intros l1 k s l2 name T. rewrite <- (flag_message_tells_at l1 k s l2 name T). rewrite tells_iff. split.
  - intros [k' [name' [H E]]]. apply flag_event_inj in E. destruct E as [-> ->]. exact H.
  - intros H. exists k, name. auto.
Qed.

Lemma flag_named_proof : forall k s name, In (k, s) flag_phrases -> quotes_no_flag name ->
  flag_event_from (name ++ s) = Ok (flag_event k name).
Proof. intros k s name P N. apply tells_iff. exists k, name. split; [apply flag_message_tells; assumption | reflexivity]. Qed.

Lemma flag_names_exact_proof : forall name,
  (forall k s, In (k, s) flag_phrases -> flag_event_from (name ++ s) = Ok (flag_event k name)) <-> quotes_no_flag name.
Proof.
  intros name. split.
  - intros H [k s] Q. destruct (in_split _ _ Q) as [l1 [l2 T]]. specialize (H k s Q).
    apply (flag_named_exact_proof l1 k s l2 name T) in H. rewrite Forall_forall in H.
    apply (H (k, s)), in_or_app. right. left. reflexivity.
  - intros Q k s P. apply flag_named_proof; assumption.
Qed.

(** ** One frame *)
Fixpoint scan_n (n : nat) (d : bytes) : list message :=
  match n with
  | O => []
  | S n' =>
      match d with
      | [] => []
      | b :: r =>
          if Byte.eqb b x08 then
            match message_at d with
            | Some (m, r') => m :: scan_n n' r'
            | None => []
            end
          else scan_n n' r
      end
  end.

Lemma scan_n_scans : forall n d, (length d <= n)%nat -> scans d (scan_n n d).
Proof.
  induction n as [| n IH]; intros d L.
  - destruct d; [constructor | simpl in L; lia].
  - destruct d as [| b r]; [constructor |]. cbn [scan_n]. destruct (Byte.eqb b x08) eqn:B.
    + apply byte_eqb_true in B. subst b. destruct (message_at (x08 :: r)) as [[m r'] |] eqn:A.
      * pose proof A as A'. apply message_at_some in A. destruct A as [A W]. rewrite A. constructor; [exact W |].
        apply IH. assert (length (x08 :: r) = length (encode_message m ++ r')) as LL by (rewrite A; reflexivity).
        rewrite app_length in LL. unfold encode_message in LL. simpl in LL, L. lia.
      * apply scans_cut. intros m q W. apply message_at_none; assumption.
    + apply scans_over; [| apply IH; simpl in L; lia]. intros ->. discriminate B.
Qed.

Lemma scans_exists_proof : forall d, exists ms, scans d ms.
Proof. intros d. exists (scan_n (length d) d). apply scan_n_scans. lia. Qed.

Lemma scans_unique : forall d ms ms', scans d ms -> scans d ms' -> ms = ms'.
Proof.
  intros d ms ms' H. revert ms'. induction H as [| b r ms B H IH | m r ms W H IH | r C]; intros ms' H'.
  - remember [] as d eqn:D. destruct H' as [| b' r' ms2 B' S | m' r' ms2 W' S | r' C']; [reflexivity | discriminate | discriminate | discriminate].
  - remember (b :: r) as d eqn:D. destruct H' as [| b' r' ms2 B' S | m' r' ms2 W' S | r' C'].
    + discriminate.
    + injection D as -> ->. apply IH. exact S.
    + unfold encode_message in D. inversion D. congruence.
    + congruence.
  - remember (encode_message m ++ r) as d eqn:D. destruct H' as [| b' r' ms2 B' S | m' r' ms2 W' S | r' C'].
    + discriminate.
    + unfold encode_message in D. inversion D. congruence.
    + assert (message_at (encode_message m ++ r) = Some (m, r)) as A by (apply message_at_some; auto).
      assert (message_at (encode_message m ++ r) = Some (m', r')) as A' by (apply message_at_some; auto).
      rewrite A in A'. inversion A'. subst m' r'. f_equal. apply IH. exact S.
    + exfalso. apply (C' m r W). exact D.
  - remember (x08 :: r) as d eqn:D. destruct H' as [| b' r' ms2 B' S | m' r' ms2 W' S | r' C'].
    + reflexivity.
    + congruence.
    + exfalso. apply (C m' r' W'). reflexivity.
    + reflexivity.
Qed.

Section Frame.
  Variable E : env.

  Definition suffix_of_flag (t : bytes) : bool := is_message_suffix E t.

  Lemma suffix_iff : forall t, suffix_of_flag t = true <-> second_half E t.
  Proof.
    intros t. unfold suffix_of_flag, is_message_suffix, second_half. rewrite existsb_exists. split.
    - intros [s [I X]]. apply ends_with_true in X. destruct X as [z X].
      assert (exists k, In (k, s) flag_phrases /\ (k = Captures \/ k = Takes \/ k = Returns)) as [k [P K]].
      { repeat (destruct I as [I | I]; [subst s |]); try contradiction.
        all: match goal with |- exists k, In (k, ?s) _ /\ _ =>
          first [ exists Captures; split; [vm_compute; tauto | tauto]
                | exists Takes; split; [vm_compute; tauto | tauto]
                | exists Returns; split; [vm_compute; tauto | tauto] ] end. }
      exists k, s, z. auto.
    - intros [k [s [z [P [K X]]]]]. exists s. split; [| apply ends_with_true; eauto].
      repeat (destruct P as [P | P]; [injection P as <- <- |]); try contradiction;
        try (destruct K as [K | [K | K]]; discriminate K); vm_compute; tauto.
  Qed.

  (** the loop state after the high texts [l] *)
  Fixpoint pair_up (cur : bytes) (acc : list bytes) (l : list bytes) : bytes * list bytes :=
    match l with
    | [] => (cur, acc)
    | t :: l' =>
        if is_empty cur then pair_up t acc l'
        else pair_up [] (acc ++ [if suffix_of_flag t then cur ++ t else cur]) l'
    end.

  Lemma high_print : forall m, print_id_eqb (pr_id (as_print m)) PiHigh && negb (is_empty (pr_content (as_print m))) = high m.
  Proof.
    intros m. unfold high, has_text, as_print. cbn [pr_id pr_content]. f_equal.
    destruct (m_level m); reflexivity.
  Qed.

  Lemma read_flag_prints_S : forall fuel body cur acc,
    read_flag_prints E (S fuel) body cur acc =
      match read_message_type E body with
      | (Err _, _) => Ret (cur, acc)
      | (Ok mt, body) =>
          if is_print mt then
            let (p, body) := read_print E body in
            match p with
            | Ok p =>
                if print_id_eqb (pr_id p) PiHigh && negb (is_empty (pr_content p)) then
                  if is_empty cur then
                    read_flag_prints E fuel body (pr_content p) acc
                  else
                    let current :=
                      if is_message_suffix E (pr_content p) then cur ++ pr_content p
                      else cur in
                    read_flag_prints E fuel body [] (acc ++ [current])
                else read_flag_prints E fuel body cur acc
            | Err _ => read_flag_prints E fuel body cur acc
            end
          else read_flag_prints E fuel body cur acc
      end.
  Proof. reflexivity. Qed.

  Lemma read_flag_prints_nil : forall fuel pos cur acc, (0 < fuel)%nat ->
    read_flag_prints E fuel (mkCursor pos []) cur acc = Ret (cur, acc).
  Proof.
    intros [| fuel] pos cur acc L; [lia |]. rewrite read_flag_prints_S.
    destruct (read_message_type_nil E pos) as [e ->]. reflexivity.
  Qed.

  Lemma read_flag_prints_spec : forall d ms, scans d ms -> forall fuel pos cur acc, (length d < fuel)%nat ->
    read_flag_prints E fuel (mkCursor pos d) cur acc = Ret (pair_up cur acc (map m_text (filter high ms))).
  Proof.
    intros d ms H. induction H as [| b r ms B H IH | m r ms W H IH | r C]; intros fuel pos cur acc L.
    - apply read_flag_prints_nil. simpl in L. lia.
    - destruct fuel as [| fuel]; [lia |]. rewrite read_flag_prints_S, read_message_type_cons, message_type_print.
      destruct (Byte.eqb b x08) eqn:X; [apply byte_eqb_true in X; contradiction |].
      apply IH. simpl in L. lia.
    - destruct fuel as [| fuel]; [lia |]. rewrite read_flag_prints_S.
      assert (message_at (encode_message m ++ r) = Some (m, r)) as A by (apply message_at_some; auto).
      destruct (read_message_some E pos _ m r A) as [p1 [p2 [-> R]]]. change (is_print MtPrint) with true. cbn iota.
      rewrite R. rewrite high_print.
      assert (length r < fuel)%nat as L' by (rewrite app_length in L; unfold encode_message in L; simpl in L; lia).
      cbn [filter]. destruct (high m) eqn:Hm; [| apply IH; exact L'].
      cbn [map pair_up]. change (pr_content (as_print m)) with (m_text m).
      destruct (is_empty cur); cbn zeta; rewrite IH by exact L'; [reflexivity |].
      unfold suffix_of_flag. reflexivity.
    - destruct fuel as [| fuel]; [lia |]. rewrite read_flag_prints_S, read_message_type_cons, message_type_print.
      change (Byte.eqb x08 x08) with true. cbn iota.
      pose proof (read_print_cases E (pos + 1) r) as R. destruct r as [| level q].
      + destruct R as [e ->]. cbn iota. rewrite read_flag_prints_nil by (simpl in L; lia). reflexivity.
      + destruct (until_nul q) as [[s r] |] eqn:U.
        * exfalso. apply (C (mkMessage level s) r);
            assert (message_at (x08 :: level :: q) = Some (mkMessage level s, r)) as A
              by (unfold message_at; change (Byte.eqb x08 x08) with true; cbn iota; rewrite U; reflexivity);
            apply message_at_some in A; destruct A; assumption.
        * destruct R as [e ->]. cbn iota. rewrite read_flag_prints_nil by (simpl in L; lia). reflexivity.
  Qed.

  Definition flush (st : bytes * list bytes) : list bytes :=
    let '(cur, acc) := st in if negb (is_empty cur) then acc ++ [cur] else acc.

  Lemma pair_up_pairs : forall l k acc, Forall (fun t => t <> []) l ->
    pairs E l k -> flush (pair_up [] acc l) = acc ++ k.
  Proof.
    intros l k acc F P. revert acc F. induction P as [| a | a b l k S P IH | a b l k S P IH]; intros acc F.
    - simpl. rewrite app_nil_r. reflexivity.
    - cbn. destruct a; [| reflexivity]. apply Forall_inv in F. congruence.
    - pose proof (Forall_inv F) as A. pose proof (Forall_inv_tail (Forall_inv_tail F)) as F'.
      cbn [pair_up]. change (is_empty (@nil byte)) with true. cbn iota.
      destruct a as [| x a]; [congruence |]. change (is_empty (x :: a)) with false. cbn iota.
      apply suffix_iff in S. rewrite S, IH by exact F'. rewrite <- app_assoc. reflexivity.
    - pose proof (Forall_inv F) as A. pose proof (Forall_inv_tail (Forall_inv_tail F)) as F'.
      cbn [pair_up]. change (is_empty (@nil byte)) with true. cbn iota.
      destruct a as [| x a]; [congruence |]. change (is_empty (x :: a)) with false. cbn iota.
      destruct (suffix_of_flag b) eqn:X; [apply suffix_iff in X; contradiction |].
      rewrite IH by exact F'. rewrite <- app_assoc. reflexivity.
  Qed.

  Lemma pairs_exists : forall n l, (length l <= n)%nat -> exists k, pairs E l k.
  Proof.
    induction n as [| n IH]; intros l L.
    - destruct l; [exists []; constructor | simpl in L; lia].
    - destruct l as [| a [| b l]]; [exists []; constructor | exists [a]; constructor |].
      destruct (IH l) as [k P]; [simpl in L; lia |].
      destruct (suffix_of_flag b) eqn:X.
      + exists ((a ++ b) :: k). constructor; [apply suffix_iff; exact X | exact P].
      + exists (a :: k). apply pairs_lost; [| exact P]. intros S. apply suffix_iff in S. congruence.
  Qed.

  Lemma announces_exists_proof : forall f, exists texts, announces E f texts.
  Proof.
    intros f. destruct (find (f_body f) (lit "flag")) as [i |] eqn:F.
    - apply find_some in F. destruct F as [[a [b [H _]]] _].
      destruct (scans_exists_proof (f_body f)) as [ms S].
      destruct (pairs_exists _ (map m_text (filter high ms)) (le_n _)) as [k P].
      exists k. right. split; [exists a, b; exact H |]. exists ms. auto.
    - apply find_none in F. exists []. left. auto.
  Qed.

  Definition flag_loop (data : bytes) (prints : list bytes) (i : info) : M (step (list bytes)) :=
    if i_body_size i =? 0 then Ret (Continue prints)
    else
      let! body := body_of data i in
      if negb (is_some (find body FLAG)) then Ret (Continue prints)
      else
        let! st := read_flag_prints E (S (length body)) (cursor_new body) [] prints in
        let '(current, prints) := st in
        if negb (is_empty current) then Ret (Continue (prints ++ [current]))
        else Ret (Continue prints).

  Definition frame_texts (prints : list bytes) (f : frame) : list bytes :=
    if is_some (find (f_body f) FLAG)
    then flush (pair_up [] prints (map m_text (filter high (scan_n (length (f_body f)) (f_body f)))))
    else prints.

  Lemma flag_body : forall data st p f r, data = p ++ encode_frame f ++ r -> wf_frame f ->
    flag_loop data st (info_of (len p) f) = Ret (Continue (frame_texts st f)).
  Proof.
    intros data st p f r D W. unfold flag_loop. rewrite body_size_of by exact W.
    rewrite (body_of_frame data p f r D W). cbn [bind]. unfold frame_texts.
    destruct (len (f_body f) =? 0) eqn:Z.
    - assert (f_body f = []) as -> by (apply len_0; lia). reflexivity.
    - destruct (is_some (find (f_body f) FLAG)); cbn [negb]; [| reflexivity].
      unfold cursor_new. rewrite (read_flag_prints_spec _ _ (scan_n_scans (length (f_body f)) (f_body f) (le_n _))) by lia.
      cbn [bind]. destruct (pair_up _ _ _) as [cur acc]. unfold flush. destruct (negb (is_empty cur)); reflexivity.
  Qed.

  Lemma high_texts : forall ms, Forall (fun t => t <> []) (map m_text (filter high ms)).
  Proof.
    intros ms. rewrite Forall_forall. intros t I. apply in_map_iff in I. destruct I as [m [<- I]].
    apply filter_In in I. destruct I as [_ I]. unfold high, has_text in I. apply andb_true_iff in I.
    destruct I as [_ I]. intros X. rewrite X in I. discriminate.
  Qed.

  Lemma frame_texts_announces : forall f st texts, announces E f texts -> frame_texts st f = st ++ texts.
  Proof.
    intros f st texts A. unfold frame_texts, FLAG. destruct A as [[N ->] | [O [ms [S P]]]].
    - apply find_none in N. rewrite N. cbn [is_some]. rewrite app_nil_r. reflexivity.
    - destruct (find (f_body f) (lit "flag")) eqn:F; [| apply find_none in F; contradiction]. cbn [is_some].
      rewrite (scans_unique _ _ ms (scan_n_scans _ _ (le_n _)) S). apply pair_up_pairs; [apply high_texts | exact P].
  Qed.

  Lemma fold_texts : forall fs anns idx acc, Forall2 (announces E) fs anns ->
    fold_left (fun st '(_, f) => frame_texts st f) (located idx fs) acc = acc ++ concat anns.
  Proof.
    intros fs anns idx acc H. revert idx acc. induction H as [| f a fs anns A _ IH]; intros idx acc; cbn [located fold_left concat].
    - rewrite app_nil_r. reflexivity.
    - rewrite (frame_texts_announces f acc a A), IH, <- app_assoc. reflexivity.
  Qed.

  Lemma flag_prints_quiet : forall fs rest anns, wf fs -> stops (len (encode fs ++ rest)) rest ->
    Forall2 (announces E) fs anns ->
    flag_prints E (encode fs ++ rest) = Ret (concat anns).
  Proof.
    intros fs rest anns W Q A. unfold flag_prints. fold (flag_loop (encode fs ++ rest)).
    rewrite (frame_loop_quiet _ E (encode fs ++ rest) _ (fun st _ f => Ret (Continue (frame_texts st f))) fs rest);
      [| reflexivity | exact W | exact Q | apply flag_body].
    rewrite (walk_pure _ _ (fun st _ f => frame_texts st f)) by reflexivity.
    cbn [bind]. rewrite (fold_texts fs anns) by exact A. reflexivity.
  Qed.

  Lemma flag_prints_crash : forall fs rest, wf fs -> overruns (len (encode fs ++ rest)) rest ->
    flag_prints E (encode fs ++ rest) = Panic PSlice.
  Proof.
    intros fs rest W Q. unfold flag_prints. fold (flag_loop (encode fs ++ rest)).
    destruct (frame_loop_crash _ E (encode fs ++ rest) (flag_loop (encode fs ++ rest))
      (fun st _ f => Ret (Continue (frame_texts st f))) fs rest []) as [i [B1 [B2 [_ ->]]]];
      [reflexivity | exact W | exact Q | apply flag_body |].
    rewrite (walk_pure _ _ (fun st _ f => frame_texts st f)) by reflexivity.
    cbn [bind]. unfold flag_loop. replace (i_body_size i =? 0) with false by lia.
    rewrite body_of_overrun by exact B2. reflexivity.
  Qed.

  (** ** Counting *)
  Definition bump (k : deed) (p : PlayerFlagEvents) : PlayerFlagEvents :=
    let '(mkPfe c pk r cf d cd ca) := p in
    let inc n := (n + 1) mod 256 in
    match k with
    | Captures => mkPfe (inc c) pk r cf d cd ca
    | Defends => mkPfe c pk r cf (inc d) cd ca
    | DefendsCarrier => mkPfe c pk r cf d (inc cd) ca
    | DefendsCarrierHard => mkPfe c pk r cf d cd (inc ca)
    | Takes => mkPfe c (inc pk) r cf d cd ca
    | Returns => mkPfe c pk (inc r) cf d cd ca
    | Assists => mkPfe c pk r (inc cf) d cd ca
    end.

  Lemma flag_apply_spec : forall k name p, counter k p < 256 ->
    flag_apply E (flag_event k name) p =
    if counter k p =? 255 then (if checked E then Panic POverflow else Ret (bump k p)) else Ret (bump k p).
  Proof.
    intros k name [c pk r cf d cd ca] H.
    destruct k; unfold flag_apply, flag_event, bump, counter in *;
      cbn [captures pickups returns carrier_frags defends carrier_defends carrier_defends_vs_aggressive] in *;
      unfold uadd, u8_bound;
      match goal with |- context[?x =? 255] =>
        destruct (x =? 255) eqn:Q;
        [ replace (x + 1 <? 256) with false by lia; destruct (checked E); reflexivity
        | replace (x + 1 <? 256) with true by lia; cbn [bind]; rewrite (N.mod_small (x + 1)) by lia; reflexivity ]
      end.
  Qed.

  Lemma counter_bump : forall k k' p, counter k (bump k' p) =
    if deed_eqb k' k then (counter k p + 1) mod 256 else counter k p.
  Proof. intros [] [] [c pk r cf d cd ca]; reflexivity. Qed.

  Definition count_deed (m : list (str * PlayerFlagEvents)) (x : deed * str) : M (list (str * PlayerFlagEvents)) :=
    let! p := flag_apply E (flag_event (fst x) (snd x)) (aget_or beq (snd x) pfe_default m) in
    Ret (aset beq (snd x) p m).

  Lemma count_flag_print_deeds : forall m text l, tells_all (to_unicode E text) l ->
    count_flag_print E m text = foldM count_deed l m.
  Proof.
    intros m text l [[k [name [T ->]]] | [N ->]]; unfold count_flag_print.
    - assert (flag_event_from (to_unicode E text) = Ok (flag_event k name)) as -> by (apply tells_iff; eauto).
      cbn [foldM]. unfold count_deed. cbn [fst snd].
      replace (flag_player (flag_event k name)) with name by (destruct k; reflexivity).
      destruct (flag_apply E (flag_event k name) (aget_or beq name pfe_default m)); reflexivity.
    - destruct (flag_event_from (to_unicode E text)) as [e |] eqn:F; [| reflexivity].
      apply tells_iff in F. destruct F as [k [name [T _]]]. exfalso. apply (N k name T).
  Qed.

  Lemma fold_flag_prints : forall texts evs m, Forall2 (fun t l => tells_all (to_unicode E t) l) texts evs ->
    foldM (count_flag_print E) texts m = foldM count_deed (concat evs) m.
  Proof.
    intros texts evs m H. revert m. induction H as [| t l texts evs T _ IH]; intros m; [reflexivity |].
    cbn [foldM concat]. rewrite foldM_app, (count_flag_print_deeds m t l T).
    destruct (foldM count_deed l m); cbn [bind]; auto.
  Qed.

  Lemma times_app : forall k name a b, times k name (a ++ b) = times k name a + times k name b.
  Proof. intros. unfold times. rewrite filter_app, len_app. reflexivity. Qed.

  Lemma times_one : forall k name x, times k name [x] = if deed_eqb (fst x) k && beq (snd x) name then 1 else 0.
  Proof. intros. unfold times. cbn [filter]. match goal with |- len (if ?c then _ else _) = if ?d then _ else _ => change c with d; destruct d end; reflexivity. Qed.

  Definition tallied (m : list (str * PlayerFlagEvents)) (l : list (deed * str)) : Prop :=
    NoDup (map fst m) /\
    (forall name, In name (map fst m) <-> In name (map snd l)) /\
    (forall name k, counter k (aget_or beq name pfe_default m) = times k name l mod 256).

  Lemma tallied_counts : forall m l, tallied m l -> counts m l.
  Proof.
    intros m l [ND [K C]]. split; [exact ND |]. split; [exact K |]. intros name p k I.
    rewrite <- C. unfold aget_or. rewrite (in_aget beq beq_eq name p m ND I). reflexivity.
  Qed.

  Lemma tallied_nil : tallied [] [].
  Proof.
    split; [constructor |]. split; [reflexivity |]. intros name k. destruct k; reflexivity.
  Qed.

  Lemma tallied_step : forall m l x, tallied m l ->
    tallied (aset beq (snd x) (bump (fst x) (aget_or beq (snd x) pfe_default m)) m) (l ++ [x]).
  Proof.
    intros m l [k name] [ND [K C]]. cbn [fst snd]. split; [apply aset_nodup; [apply beq_eq | exact ND] |]. split.
    - intros n. rewrite map_app, in_app_iff, <- K. cbn [map In snd].
      pose proof (aget_none beq beq_eq n (aset beq name (bump k (aget_or beq name pfe_default m)) m)) as A.
      pose proof (aget_none beq beq_eq n m) as B.
      rewrite (aget_aset beq beq_eq) in A. destruct (beq n name) eqn:X.
      + apply beq_eq in X. subst n. split; [auto |]. intros _.
        destruct (in_dec (list_eq_dec Byte.byte_eq_dec) name
          (map fst (aset beq name (bump k (aget_or beq name pfe_default m)) m))) as [I | I]; [exact I |].
        apply A in I. discriminate.
      + apply beq_neq in X.
        destruct (in_dec (list_eq_dec Byte.byte_eq_dec) n (map fst m)) as [I | I].
        * split; [auto |]. intros _.
          destruct (in_dec (list_eq_dec Byte.byte_eq_dec) n
            (map fst (aset beq name (bump k (aget_or beq name pfe_default m)) m))) as [J | J]; [exact J |].
          apply A in J. apply B in J. contradiction.
        * split.
          -- intros J. exfalso. apply B in I. apply A in I. contradiction.
          -- intros [J | [J | []]]; [contradiction | congruence].
    - intros n k'. rewrite (aget_or_aset beq beq_eq), times_app, times_one. cbn [fst snd].
      rewrite (beq_sym name n). destruct (beq n name) eqn:X.
      + apply beq_eq in X. subst n. rewrite counter_bump, andb_true_r, C. destruct (deed_eqb k k').
        * rewrite N.add_mod_idemp_l by lia. reflexivity.
        * rewrite N.add_0_r. reflexivity.
      + rewrite andb_false_r, N.add_0_r. apply C.
  Qed.

  Lemma counter_lt : forall m l name k, tallied m l -> counter k (aget_or beq name pfe_default m) < 256.
  Proof. intros m l name k [_ [_ C]]. rewrite C. apply N.mod_lt. lia. Qed.

  Lemma count_deeds : forall l pre m, tallied m pre ->
    (checked E = false \/ forall k name, times k name (pre ++ l) < 256) ->
    exists m', foldM count_deed l m = Ret m' /\ tallied m' (pre ++ l).
  Proof.
    induction l as [| x l IH]; intros pre m T H.
    - exists m. rewrite app_nil_r. auto.
    - cbn [foldM]. unfold count_deed at 1. rewrite flag_apply_spec by (eapply counter_lt; exact T).
      replace (pre ++ x :: l) with ((pre ++ [x]) ++ l) in * by (rewrite <- app_assoc; reflexivity).
      assert (forall r : M PlayerFlagEvents, r = Ret (bump (fst x) (aget_or beq (snd x) pfe_default m)) ->
        exists m', (let! a' := (let! p := r in Ret (aset beq (snd x) p m)) in foldM count_deed l a') = Ret m' /\
          tallied m' ((pre ++ [x]) ++ l)) as G.
      { intros r ->. cbn [bind]. apply IH; [apply tallied_step; exact T | exact H]. }
      destruct (counter (fst x) (aget_or beq (snd x) pfe_default m) =? 255) eqn:Q; [| apply G; reflexivity].
      destruct H as [-> | H]; [apply G; reflexivity |]. exfalso.
      specialize (H (fst x) (snd x)). rewrite !times_app, times_one, beq_refl in H.
      replace (deed_eqb (fst x) (fst x)) with true in H by (symmetry; apply deed_eqb_true; reflexivity).
      cbn [andb] in H. destruct T as [_ [_ C]]. rewrite C in Q. rewrite N.mod_small in Q by lia. lia.
  Qed.

  Lemma count_deeds_overflow : forall l pre m, tallied m pre -> checked E = true ->
    (forall k name, times k name pre < 256) -> (exists k name, 256 <= times k name (pre ++ l)) ->
    foldM count_deed l m = Panic POverflow.
  Proof.
    induction l as [| x l IH]; intros pre m T CH S [k [name B]].
    - rewrite app_nil_r in B. specialize (S k name). lia.
    - cbn [foldM]. unfold count_deed at 1. rewrite flag_apply_spec by (eapply counter_lt; exact T). rewrite CH.
      destruct (counter (fst x) (aget_or beq (snd x) pfe_default m) =? 255) eqn:Q; [reflexivity |].
      cbn [bind]. apply (IH (pre ++ [x])); [apply tallied_step; exact T | exact CH | |].
      + intros k' n'. rewrite times_app, times_one. specialize (S k' n').
        destruct (deed_eqb (fst x) k' && beq (snd x) n') eqn:Y; [| lia].
        apply andb_true_iff in Y. destruct Y as [Y1 Y2]. apply deed_eqb_true in Y1. apply beq_eq in Y2. subst k' n'.
        destruct T as [_ [_ C]]. rewrite C, N.mod_small in Q by exact S. lia.
      + exists k, name. rewrite <- app_assoc. exact B.
  Qed.
End Frame.

Lemma flags_counted_proof : forall E fs rest texts deeds,
  wf fs -> stops (len (encode fs ++ rest)) rest ->
  Forall2 (announces E) fs texts ->
  Forall2 (fun t l => tells_all (to_unicode E t) l) (concat texts) deeds ->
  (checked E = false \/ forall k name, times k name (concat deeds) < 256) ->
  exists tbl, flag_events_per_player_name E (encode fs ++ rest) = Ret tbl /\ counts tbl (concat deeds).
Proof.
  intros E fs rest texts deeds W S A T H. unfold flag_events_per_player_name.
  rewrite (flag_prints_quiet E fs rest texts W S A). cbn [bind]. rewrite (fold_flag_prints E _ deeds) by exact T.
  destruct (count_deeds E (concat deeds) [] [] tallied_nil H) as [m [-> C]].
  exists m. split; [reflexivity |]. apply tallied_counts. exact C.
Qed.

Lemma flags_overflow_proof : forall E fs rest texts deeds,
  wf fs -> stops (len (encode fs ++ rest)) rest ->
  Forall2 (announces E) fs texts ->
  Forall2 (fun t l => tells_all (to_unicode E t) l) (concat texts) deeds ->
  checked E = true -> (exists k name, 256 <= times k name (concat deeds)) ->
  flag_events_per_player_name E (encode fs ++ rest) = Panic POverflow.
Proof.
  intros E fs rest texts deeds W S A T C H. unfold flag_events_per_player_name.
  rewrite (flag_prints_quiet E fs rest texts W S A). cbn [bind]. rewrite (fold_flag_prints E _ deeds) by exact T.
  apply (count_deeds_overflow E _ [] []); auto; [apply tallied_nil |]. intros k name. unfold times. cbn [filter]. rewrite len_nil. lia.
Qed.

Lemma flags_crash_proof : forall E fs rest, wf fs -> overruns (len (encode fs ++ rest)) rest ->
  flag_events_per_player_name E (encode fs ++ rest) = Panic PSlice.
Proof.
  intros E fs rest W O. unfold flag_events_per_player_name. rewrite flag_prints_crash by assumption. reflexivity.
Qed.

Lemma scans_one : forall m, wf_message m -> scans (encode_message m) [m].
Proof. intros m W. rewrite <- (app_nil_r (encode_message m)). apply scans_message; [exact W | constructor]. Qed.

Lemma scans_two : forall a b, wf_message a -> wf_message b -> scans (encode_message a ++ encode_message b) [a; b].
Proof. intros a b A B. apply scans_message; [exact A | apply scans_one; exact B]. Qed.

Lemma carries_announces : forall E f k name, carries E f k name ->
  exists t, announces E f [t] /\ tells_all (to_unicode E t) [(k, name)].
Proof.
  intros E f k name [s [P [NN [O [[m [B [W [H U]]]] | [m1 [m2 [B [W1 [W2 [H1 [H2 [S U]]]]]]]]]]]]].
  - exists (m_text m). split.
    + right. split; [exact O |]. exists [m]. split; [rewrite B; apply scans_one; exact W |].
      cbn [filter]. rewrite H. constructor.
    + left. exists k, name. split; [| reflexivity]. rewrite U. apply flag_message_tells; assumption.
  - exists (m_text m1 ++ m_text m2). split.
    + right. split; [exact O |]. exists [m1; m2]. split; [rewrite B; apply scans_two; assumption |].
      cbn [filter]. rewrite H1, H2. apply pairs_joined; [exact S | constructor].
    + left. exists k, name. split; [| reflexivity]. rewrite U. apply flag_message_tells; assumption.
Qed.

Lemma flags_one_each_proof : forall E fs rest deeds,
  wf fs -> stops (len (encode fs ++ rest)) rest ->
  Forall2 (fun f l => (silent f /\ l = []) \/ (exists k name, carries E f k name /\ l = [(k, name)])) fs deeds ->
  (checked E = false \/ forall k name, times k name (concat deeds) < 256) ->
  exists tbl, flag_events_per_player_name E (encode fs ++ rest) = Ret tbl /\ counts tbl (concat deeds).
Proof.
  intros E fs rest deeds W S F H.
  assert (exists texts ds, Forall2 (announces E) fs texts /\
    Forall2 (fun t l => tells_all (to_unicode E t) l) (concat texts) ds /\ concat ds = concat deeds) as [texts [ds [A [T Q]]]].
  { clear -F. induction F as [| f l fs deeds C F IH].
    - exists [], []. repeat constructor.
    - destruct IH as [texts [ds [A [T Q]]]]. destruct C as [[N ->] | [k [name [C ->]]]].
      + exists ([] :: texts), ds. split; [constructor; [left; auto | exact A] |]. split; [exact T | exact Q].
      + destruct (carries_announces E f k name C) as [t [A' T']].
        exists ([t] :: texts), ([(k, name)] :: ds). split; [constructor; assumption |].
        split; [constructor; assumption |]. cbn [concat]. rewrite Q. reflexivity. }
  rewrite <- Q in *. apply (flags_counted_proof E fs rest texts ds); assumption.
Qed.
