(** Proofs for Properties/Damages.v *)
From Coq Require Import Lia ZifyN ZifyNat ZifyBool.
From Verif.Model Require Import Base Env Primitives Prot Clients FragEvent Frags Players.
From Verif.Spec Require Import Occ Mvd Messages Teams Obituary Score Join Damage.
From Verif.Proofs Require Import BaseFacts FrameFacts PrintFacts PrintProps ScoreFacts ScoreProps WalkProps ObituaryFacts TailFacts JoinFacts.

Definition named_in (n : str) (l : list (str * Z)) : Prop := In n (map fst l).

(** The entries [y] are those of [x] but for the names [ns]; the sums differ by something in [lo..hi]. *)
Definition close (ns : list str) (lo hi : Z) (x y : list (str * Z)) : Prop :=
  (forall n, ~ In n ns -> total n x = total n y /\ (named_in n x <-> named_in n y)) /\
  forall n, (lo <= total n y - total n x <= hi)%Z.

Lemma close_refl : forall x, close [] 0 0 x x.
Proof. intros x. split; [intros; split; reflexivity | intros n; lia]. Qed.
Lemma close_more : forall ns lo hi x y ns' lo' hi', close ns lo hi x y -> incl ns ns' -> (lo' <= lo)%Z -> (hi <= hi')%Z -> close ns' lo' hi' x y.
Proof. intros ns lo hi x y ns' lo' hi' [A B] I L H. split; [intros n N; apply A; intros J; apply N, I, J |]. intros n. specialize (B n). lia. Qed.
Lemma close_app : forall ns l h x y l' h' x' y', close ns l h x y -> close ns l' h' x' y' -> close ns (l + l') (h + h') (x ++ x') (y ++ y').
Proof.
  intros ns l h x y l' h' x' y' [A B] [A' B']. split.
  - intros n N. destruct (A n N) as [T M]. destruct (A' n N) as [T' M']. rewrite !total_app, T, T'. split; [reflexivity |].
    unfold named_in in *. rewrite !map_app, !in_app_iff. tauto.
  - intros n. rewrite !total_app. specialize (B n). specialize (B' n). lia.
Qed.
Lemma close_sym : forall ns l h x y, close ns l h x y -> close ns (- h) (- l) y x.
Proof. intros ns l h x y [A B]. split; [intros n N; destruct (A n N); split; [congruence | tauto] |]. intros n. specialize (B n). lia. Qed.
Lemma close_trans : forall ns l h x y ns' l' h' z, close ns l h x y -> close ns' l' h' y z -> close (ns ++ ns') (l + l') (h + h') x z.
Proof.
  intros ns l h x y ns' l' h' z [A B] [A' B']. split.
  - intros n N. rewrite in_app_iff in N. destruct (A n) as [T M]; [tauto |]. destruct (A' n) as [T' M']; [tauto |]. split; [congruence | tauto].
  - intros n. specialize (B n). specialize (B' n). lia.
Qed.

Section Entries.
  Context (E : env) (cs : list Client).
  Definition ent (x : message * list N) : list (str * Z) := entries_of cs (snd x) (event_of E (fst x)).
  Definition called (w : list N) : list str := map c_name (filter_map (fun n => List.find (fun c => c_number c =? n) cs) w).

  Lemma called_app : forall a b, called (a ++ b) = called a ++ called b.
  Proof.
    intros a b. unfold called. rewrite <- map_app. f_equal. induction a as [| n a IH]; [reflexivity |]. cbn [app filter_map].
    destruct (List.find _ cs); cbn [app]; rewrite IH; reflexivity.
  Qed.
  Lemma called_len : forall w, (length (called w) <= length w)%nat.
  Proof.
    intros w. unfold called. rewrite map_length. induction w as [| n w IH]; [reflexivity |]. cbn [filter_map length].
    destruct (List.find _ cs); cbn [length]; lia.
  Qed.

  Lemma filter_map_app : forall A B (f : A -> option B) a b, filter_map f (a ++ b) = filter_map f a ++ filter_map f b.
  Proof. intros A B f a b. induction a as [| x a IH]; [reflexivity |]. cbn [app filter_map]. destruct (f x); cbn [app]; rewrite IH; reflexivity. Qed.
  Lemma find_app : forall A (q : A -> bool) a b, List.find q (a ++ b) = match List.find q a with Some x => Some x | None => List.find q b end.
  Proof. intros A q a b. induction a as [| x a IH]; [reflexivity |]. cbn [app List.find]. destruct (q x); [reflexivity | exact IH]. Qed.

  Lemma killer_more : forall v s w, killer_of cs v (s ++ w) = killer_of cs v s \/
    killer_of cs v s = None /\ forall k, killer_of cs v (s ++ w) = Some k -> In k (called w).
  Proof.
    intros v s w. unfold killer_of. destruct (List.find _ cs) as [vic |]; [| left; reflexivity].
    rewrite filter_map_app, find_app. destruct (List.find _ (filter_map _ s)) as [k |]; [left; reflexivity |]. right. split; [reflexivity |].
    intros k H. destruct (List.find _ (filter_map _ w)) as [c |] eqn:F; [| discriminate H]. injection H as <-.
    unfold called. apply in_map. apply List.find_some in F. apply F.
  Qed.

  Lemma ent_one : forall x, ent x = [] \/ exists k v, ent x = [(k, v)] /\ (-2 <= v <= 1)%Z.
  Proof.
    intros [m nums]. unfold ent. cbn [fst snd]. destruct (event_of E m) as [[| | | | | v] | msg]; cbn [entries_of];
      try (right; eexists; eexists; split; [reflexivity | lia]); [| left; reflexivity].
    destruct (killer_of cs v nums); [right; eexists; eexists; split; [reflexivity | lia] | left; reflexivity].
  Qed.

  Lemma sum_one : forall n k v, total n [(k, v)] = if beq k n then v else 0%Z.
  Proof. intros n k v. unfold total. cbn [filter fst]. destruct (beq k n); cbn [map fold_right snd]; lia. Qed.
  Lemma blames : forall k ns (v : Z), In k ns -> close ns (Z.min v 0) (Z.max v 0) [] [(k, v)].
  Proof.
    intros k ns v I. split.
    - intros n N. rewrite sum_one. destruct (beq k n) eqn:B; [apply beq_eq in B; subst; contradiction |]. split; [reflexivity |].
      unfold named_in. cbn [map fst In]. apply beq_neq in B. tauto.
    - intros n. rewrite sum_one. change (total n []) with 0%Z. destruct (beq k n); lia.
  Qed.
  Lemma blames_both : forall k k' ns, In k ns -> In k' ns -> close ns (-1) 1 [(k, (-1)%Z)] [(k', (-1)%Z)].
  Proof.
    intros k k' ns I I'. pose proof (close_trans _ _ _ _ _ _ _ _ _ (close_sym _ _ _ _ _ (blames k ns (-1) I)) (blames k' ns (-1) I')) as H.
    split; [intros n N; apply H; rewrite in_app_iff; tauto |]. intros n. rewrite !sum_one. destruct (beq k n), (beq k' n); lia.
  Qed.

  (** the same message, with other score updates behind the ones in common *)
  Lemma ent_tail : forall m s w w', close (called (w ++ w')) (-1) 1 (ent (m, s ++ w)) (ent (m, s ++ w')).
  Proof.
    intros m s w w'. unfold ent. cbn [fst snd].
    assert (R : forall x, close (called (w ++ w')) (-1) 1 x x) by (intros x; eapply close_more; [apply close_refl | intros y [] | lia | lia]).
    destruct (event_of E m) as [[| | | | | v] | msg]; cbn [entries_of]; try apply R. rewrite called_app in *.
    assert (L : forall k, In k (called w) -> In k (called w ++ called w')) by (intros k I; apply in_or_app; left; exact I).
    assert (L' : forall k, In k (called w') -> In k (called w ++ called w')) by (intros k I; apply in_or_app; right; exact I).
    destruct (killer_more v s w) as [H | [N H]], (killer_more v s w') as [H' | [N' H']].
    - rewrite H, H'. apply R.
    - rewrite H, N'. destruct (killer_of cs v (s ++ w')) as [k |]; [| apply R]. eapply close_more; [apply (blames k _ (-1)) | apply incl_refl | lia | lia].
      apply L', H'. reflexivity.
    - rewrite H', N. destruct (killer_of cs v (s ++ w)) as [k |]; [| apply R].
      eapply close_more; [apply close_sym; apply (blames k _ (-1)) | apply incl_refl | lia | lia]. apply L, H. reflexivity.
    - destruct (killer_of cs v (s ++ w)) as [k |], (killer_of cs v (s ++ w')) as [k' |].
      + apply blames_both; [apply L, H | apply L', H']; reflexivity.
      + eapply close_more; [apply close_sym; apply (blames k _ (-1)) | apply incl_refl | lia | lia]. apply L, H. reflexivity.
      + eapply close_more; [apply (blames k' _ (-1)) | apply incl_refl | lia | lia]. apply L', H'. reflexivity.
      + apply R.
  Qed.
  (** with more of them *)
  Lemma ent_more : forall m s w, close (called w) (-1) 0 (ent (m, s)) (ent (m, s ++ w)).
  Proof.
    intros m s w. unfold ent. cbn [fst snd].
    assert (R : forall x, close (called w) (-1) 0 x x) by (intros x; eapply close_more; [apply close_refl | intros y [] | lia | lia]).
    destruct (event_of E m) as [[| | | | | v] | msg]; cbn [entries_of]; try apply R.
    destruct (killer_more v s w) as [H | [N H]]; [rewrite H; apply R |]. rewrite N.
    destruct (killer_of cs v (s ++ w)) as [k |]; [| apply R]. apply (blames k _ (-1)). apply H. reflexivity.
  Qed.

  (** ** The entries of a list of bodies *)
  Definition rows (l : list (message * list N)) : list (str * Z) := concat (map ent l).
  Lemma rows_app : forall a b, rows (a ++ b) = rows a ++ rows b.
  Proof. intros a b. unfold rows. rewrite map_app, concat_app. reflexivity. Qed.

  Definition ups (next : list bytes) : list N := concat (map score_update (firstn 2 next)).
  Definition opening (b : bytes) : option message :=
    match messages b with
    | m :: _ => if has_text m && (n_of (m_level m) =? 1) then Some m else None
    | [] => None
    end.
  Lemma one_eq : forall b next, body_reports_one b next =
    match opening b with Some m => [(m, score_update (skipn (length (encode_message m)) b) ++ ups next)] | None => [] end.
  Proof.
    intros b next. unfold body_reports_one, opening, ups. destruct (messages b) as [| m ms]; [reflexivity |].
    destruct (has_text m && _); reflexivity.
  Qed.
  Lemma opening_quiet : forall b, opening b <> None -> score_update b = [].
  Proof.
    intros b N. unfold opening in N. destruct (messages b) as [| m ms] eqn:M; [destruct (N eq_refl) |]. clear N.
    assert (H : hd_error (messages b) = Some m) by (rewrite M; reflexivity). rewrite messages_hd in H.
    destruct (message_at b) as [[m' r] |] eqn:A; [| discriminate H]. apply message_at_some in A. destruct A as [-> _].
    unfold encode_message. cbn [app]. unfold score_update. destruct ((m_text m' ++ [x00]) ++ r) as [| y [| z l]]; reflexivity.
  Qed.
  Lemma update_len : forall b, (length (score_update b) <= 1)%nat.
  Proof. intros b. unfold score_update. destruct b as [| t [| n [| x [| y r]]]]; cbn [length]; try lia. destruct (n_of t =? 14); cbn [length]; lia. Qed.

  (** the reports of [a], when [x] follows *)
  Fixpoint ahead (a x : list bytes) : list (message * list N) :=
    match a with
    | [] => []
    | b :: a' => body_reports_one b (a' ++ x) ++ ahead a' x
    end.
  Lemma reports_app : forall a x, body_reports (a ++ x) = ahead a x ++ body_reports x.
  Proof. induction a as [| b a IH]; intros x; [reflexivity |]. cbn [app body_reports ahead]. rewrite IH, app_assoc. reflexivity. Qed.
  Lemma ahead_app : forall a c x, ahead (a ++ c) x = ahead a (c ++ x) ++ ahead c x.
  Proof. induction a as [| b a IH]; intros c x; [reflexivity |]. cbn [app ahead]. rewrite IH, <- !app_assoc. reflexivity. Qed.
  Lemma ahead_two : forall a p q x x', ahead a (p :: q :: x) = ahead a (p :: q :: x').
  Proof.
    induction a as [| b a IH]; intros p q x x'; [reflexivity |]. cbn [ahead]. rewrite (IH p q x x'). f_equal. rewrite !one_eq.
    destruct (opening b); [| reflexivity]. do 3 f_equal. unfold ups. f_equal. f_equal.
    destruct a as [| a1 [| a2 a]]; reflexivity.
  Qed.

  (** What stands at the place of the changed frame: a body or nothing *)
  Definition own (o : list bytes) (b : list bytes) : list (message * list N) := match o with [] => [] | c :: _ => body_reports_one c b end.
  Definition at_most_one (o : list bytes) : Prop := o = [] \/ exists c, o = [c].
  Definition tells (o : list bytes) : bool := match o with [] => false | c :: _ => match opening c with Some _ => true | None => false end end.
  Lemma own_reports : forall o b, at_most_one o -> body_reports (o ++ b) = own o b ++ body_reports b.
  Proof. intros o b [-> | [c ->]]; reflexivity. Qed.

  Lemma own_none : forall o b, tells o = false -> own o b = [].
  Proof. intros [| c o] b T; [reflexivity |]. cbn [tells own] in *. rewrite one_eq. destruct (opening c); [discriminate T | reflexivity]. Qed.
  Lemma own_some : forall o b, exists ns, (length ns <= if tells o then 1 else 0)%nat /\ close ns (-2) 1 [] (rows (own o b)).
  Proof.
    intros o b. destruct (tells o) eqn:T.
    - destruct o as [| c o]; [discriminate T |]. cbn [own tells] in *. rewrite one_eq. destruct (opening c) as [m |]; [| discriminate T].
      unfold rows. cbn [map concat]. rewrite app_nil_r. destruct (ent_one (m, score_update (skipn (length (encode_message m)) c) ++ ups b)) as [-> | [k [v [-> B]]]].
      + exists []. split; [cbn [length]; lia |]. eapply close_more; [apply close_refl | intros y [] | lia | lia].
      + exists [k]. split; [cbn [length]; lia |]. eapply close_more; [apply (blames k [k] v); left; reflexivity | apply incl_refl | lia | lia].
    - rewrite own_none by exact T. exists []. split; [cbn [length]; lia |]. eapply close_more; [apply close_refl | intros y [] | lia | lia].
  Qed.

  (** one frame of two windows *)
  Definition nums_of (a : bytes) (m : message) : list N := score_update (skipn (length (encode_message m)) a).
  Lemma one_close : forall a x w w' s, ups x = s ++ w -> forall x', ups x' = s ++ w' ->
    close (called (w ++ w')) (-1) 1 (rows (body_reports_one a x)) (rows (body_reports_one a x')).
  Proof.
    intros a x w w' s X x' X'. rewrite !one_eq. destruct (opening a) as [m |].
    - unfold rows. cbn [map concat]. rewrite !app_nil_r, X, X', !app_assoc. apply ent_tail.
    - eapply close_more; [apply close_refl | intros y [] | lia | lia].
  Qed.
  Lemma one_more : forall a x s, ups x = s -> forall x' w, ups x' = s ++ w ->
    close (called w) (-1) 0 (rows (body_reports_one a x)) (rows (body_reports_one a x')).
  Proof.
    intros a x s X x' w X'. rewrite !one_eq. destruct (opening a) as [m |].
    - unfold rows. cbn [map concat]. rewrite !app_nil_r, X, X', app_assoc. apply ent_more.
    - eapply close_more; [apply close_refl | intros y [] | lia | lia].
  Qed.
  Lemma one_same : forall a x x', ups x = ups x' -> rows (body_reports_one a x) = rows (body_reports_one a x').
  Proof. intros a x x' X. rewrite !one_eq, X. reflexivity. Qed.

  Lemma glue : forall ns l1 h1 l2 h2 l3 h3 p x x' y y' z z' q, close ns l1 h1 x x' -> close ns l2 h2 y y' -> close ns l3 h3 z z' ->
    (-3 <= l1 + l2 + l3)%Z -> (h1 + h2 + h3 <= 3)%Z -> close ns (-3) 3 (p ++ x ++ y ++ z ++ q) (p ++ x' ++ y' ++ z' ++ q).
  Proof.
    intros ns l1 h1 l2 h2 l3 h3 p x x' y y' z z' q X Y Z L H.
    assert (R : forall w, close ns 0 0 w w) by (intros w; eapply close_more; [apply close_refl | intros k [] | lia | lia]).
    eapply close_more; [apply close_app; [apply R | apply close_app; [exact X | apply close_app; [exact Y | apply close_app; [exact Z | apply R]]]] | apply incl_refl | lia | lia].
  Qed.
  Lemma parts : forall a0 a2 a1 o b, at_most_one o -> rows (body_reports (a0 ++ a2 :: a1 :: o ++ b)) =
    rows (ahead a0 (a2 :: a1 :: [])) ++ rows (body_reports_one a2 (a1 :: o ++ b)) ++ rows (body_reports_one a1 (o ++ b)) ++ rows (own o b) ++ rows (body_reports b).
  Proof.
    intros a0 a2 a1 o b O. rewrite reports_app, (ahead_two a0 a2 a1 _ []). cbn [body_reports]. rewrite own_reports by exact O.
    rewrite !rows_app. reflexivity.
  Qed.
  Definition first_up (x : list bytes) : list N := concat (map score_update (firstn 1 x)).
  Definition second_up (x : list bytes) : list N := concat (map score_update (firstn 1 (skipn 1 x))).
  Lemma ups_cons : forall a x, ups (a :: x) = score_update a ++ first_up x.
  Proof. reflexivity. Qed.
  Lemma ups_both : forall x, ups x = first_up x ++ second_up x.
  Proof. intros [| a [| c x]]; unfold ups, first_up, second_up; cbn [firstn skipn map concat app]; rewrite ?app_nil_r; reflexivity. Qed.
  Lemma first_len : forall x, (length (first_up x) <= 1)%nat.
  Proof. intros [| a x]; unfold first_up; cbn [firstn map concat length]; [lia |]. rewrite app_nil_r. apply update_len. Qed.
  Lemma second_len : forall x, (length (second_up x) <= 1)%nat.
  Proof.
    intros [| a [| c x]]; unfold second_up; cbn [firstn skipn map concat length]; [lia | lia |]. rewrite app_nil_r. apply update_len.
  Qed.
  Lemma tells_quiet : forall c, tells [c] = true -> score_update c = [].
  Proof. intros c T. apply opening_quiet. cbn [tells] in T. intros X. rewrite X in T. discriminate T. Qed.

  Lemma wider : forall ns l h x y ns', close ns l h x y -> incl ns ns' -> close ns' l h x y.
  Proof. intros ns l h x y ns' C I. eapply close_more; [exact C | exact I | lia | lia]. Qed.
  Lemma swapped : forall (o o' : list bytes) X X',
    (exists ns, (length ns <= 3)%nat /\ close ns (-3) 3 X' X) -> exists ns, (length ns <= 3)%nat /\ close ns (-3) 3 X X'.
  Proof. intros o o' X X' [ns [L C]]. exists ns. split; [exact L |]. apply close_sym in C. exact C. Qed.

  (** another body *)
  Lemma change_both : forall a0 a2 a1 c c' b, (tells [c] = false -> tells [c'] = false) -> exists ns, (length ns <= 3)%nat /\
    close ns (-3) 3 (rows (body_reports (a0 ++ a2 :: a1 :: [c] ++ b))) (rows (body_reports (a0 ++ a2 :: a1 :: [c'] ++ b))).
  Proof.
    intros a0 a2 a1 c c' b W. rewrite !parts by (right; eexists; reflexivity).
    assert (U2 : forall d, ups (a1 :: [d] ++ b) = score_update a1 ++ score_update d).
    { intros d. rewrite ups_cons. unfold first_up. cbn [app firstn map concat]. rewrite app_nil_r. reflexivity. }
    assert (U1 : forall d, ups ([d] ++ b) = score_update d ++ first_up b) by (intros d; reflexivity).
    destruct (own_some [c] b) as [n1 [L1 C1]]. destruct (own_some [c'] b) as [n2 [L2 C2]].
    pose proof (update_len c) as UC. pose proof (update_len c') as UC'. pose proof (first_len b) as UB.
    destruct (tells [c]) eqn:T, (tells [c']) eqn:T'; [| | discriminate (W eq_refl) |].
    - exists (n1 ++ n2). split; [rewrite app_length; lia |].
      apply (glue _ 0 0 0 0 (-3) 3); try lia.
      + rewrite (one_same a2 _ (a1 :: [c'] ++ b)) by (rewrite !U2, (tells_quiet c T), (tells_quiet c' T'); reflexivity). apply (wider [] 0 0); [apply close_refl | intros k []].
      + rewrite (one_same a1 _ ([c'] ++ b)) by (rewrite !U1, (tells_quiet c T), (tells_quiet c' T'); reflexivity). apply (wider [] 0 0); [apply close_refl | intros k []].
      + eapply close_more; [eapply close_trans; [apply close_sym; exact C1 | exact C2] | apply incl_refl | lia | lia].
    - pose proof (tells_quiet c T) as Q. exists (n1 ++ called (score_update c' ++ first_up b)). split.
      { rewrite app_length. pose proof (called_len (score_update c' ++ first_up b)) as K. rewrite app_length in K. lia. }
      apply (glue _ (-1) 0 (-1) 1 (-1) 2); try lia.
      + eapply wider; [apply (one_more a2 _ (score_update a1)); [rewrite U2, Q, app_nil_r; reflexivity | apply U2] |].
        intros k K. rewrite called_app. apply in_or_app. right. apply in_or_app. left. exact K.
      + eapply wider; [apply (one_close a1 _ (first_up b) (score_update c' ++ first_up b) []); [rewrite U1, Q; reflexivity | apply U1] |].
        intros k K. rewrite called_app in K. apply in_or_app. right. apply in_app_or in K. destruct K as [K | K]; [| exact K].
        rewrite called_app. apply in_or_app. right. exact K.
      + rewrite (own_none [c'] b T'). apply close_sym in C1. eapply close_more; [exact C1 | intros k K; apply in_or_app; left; exact K | lia | lia].
    - exists (called (score_update c ++ score_update c' ++ first_up b)). split.
      { pose proof (called_len (score_update c ++ score_update c' ++ first_up b)) as K. rewrite !app_length in K. lia. }
      apply (glue _ (-1) 1 (-1) 1 0 0); try lia.
      + eapply wider; [apply (one_close a2 _ (score_update c) (score_update c') (score_update a1)); apply U2 |].
        rewrite !called_app. intros k K. rewrite !in_app_iff in *. tauto.
      + eapply wider; [apply (one_close a1 _ (score_update c ++ first_up b) (score_update c' ++ first_up b) []); apply U1 |].
        rewrite !called_app. intros k K. rewrite !in_app_iff in *. tauto.
      + rewrite !own_none by assumption. apply (wider [] 0 0); [apply close_refl | intros k []].
  Qed.
  (** one body more *)
  Lemma change_add : forall a0 a2 a1 c b, exists ns, (length ns <= 3)%nat /\
    close ns (-3) 3 (rows (body_reports (a0 ++ a2 :: a1 :: [] ++ b))) (rows (body_reports (a0 ++ a2 :: a1 :: [c] ++ b))).
  Proof.
    intros a0 a2 a1 c b. rewrite !parts by (first [left; reflexivity | right; eexists; reflexivity]).
    assert (U2 : ups (a1 :: [c] ++ b) = score_update a1 ++ score_update c).
    { rewrite ups_cons. unfold first_up. cbn [app firstn map concat]. rewrite app_nil_r. reflexivity. }
    assert (U1 : ups ([c] ++ b) = score_update c ++ first_up b) by reflexivity.
    assert (V2 : ups (a1 :: [] ++ b) = score_update a1 ++ first_up b) by reflexivity.
    assert (V1 : ups ([] ++ b) = first_up b ++ second_up b) by (apply ups_both).
    destruct (own_some [c] b) as [n2 [L2 C2]].
    pose proof (update_len c) as UC. pose proof (first_len b) as UB. pose proof (second_len b) as US.
    pose proof (called_len (first_up b ++ second_up b)) as K1. pose proof (called_len (score_update c)) as K2. rewrite app_length in K1.
    change (rows (own [] b)) with (@nil (str * Z)).
    destruct (tells [c]) eqn:T.
    - pose proof (tells_quiet c T) as Q. exists (n2 ++ called (first_up b ++ second_up b)). split; [rewrite app_length; lia |].
      apply (glue _ 0 1 0 1 (-2) 1); try lia.
      + apply (close_sym _ (-1) 0). eapply wider; [apply (one_more a2 _ (score_update a1)); [rewrite U2, Q, app_nil_r; reflexivity | exact V2] |].
        intros k K. rewrite called_app, !in_app_iff. tauto.
      + apply (close_sym _ (-1) 0). eapply wider; [apply (one_more a1 _ (first_up b)); [rewrite U1, Q; reflexivity | exact V1] |].
        intros k K. rewrite called_app, !in_app_iff. tauto.
      + eapply wider; [exact C2 |]. intros k K. apply in_or_app. left. exact K.
    - exists (called (score_update c) ++ called (first_up b ++ second_up b)). split; [rewrite app_length; lia |].
      apply (glue _ (-1) 1 (-1) 1 0 0); try lia.
      + eapply wider; [apply (one_close a2 _ (first_up b) (score_update c) (score_update a1)); [exact V2 | exact U2] |].
        rewrite !called_app. intros k K. rewrite !in_app_iff in *. tauto.
      + eapply wider; [apply (one_close a1 _ (first_up b ++ second_up b) (score_update c ++ first_up b) []); [exact V1 | exact U1] |].
        rewrite !called_app. intros k K. rewrite !in_app_iff in *. tauto.
      + rewrite (own_none [c] b T). apply (wider [] 0 0); [apply close_refl | intros k []].
  Qed.
  Lemma change_any : forall a0 a2 a1 o o' b, at_most_one o -> at_most_one o' -> exists ns, (length ns <= 3)%nat /\
    close ns (-3) 3 (rows (body_reports (a0 ++ a2 :: a1 :: o ++ b))) (rows (body_reports (a0 ++ a2 :: a1 :: o' ++ b))).
  Proof.
    intros a0 a2 a1 o o' b [-> | [c ->]] [-> | [c' ->]].
    - exists []. split; [cbn [length]; lia |]. eapply close_more; [apply close_refl | intros k [] | lia | lia].
    - apply change_add.
    - apply (swapped [c] []), change_add.
    - destruct (tells [c]) eqn:T.
      + apply change_both. intros X. rewrite X in T. discriminate T.
      + destruct (tells [c']) eqn:T'; [| apply change_both; intros _; exact T'].
        apply (swapped [c] [c']), change_both. intros X. rewrite X in T'. discriminate T'.
  Qed.
  (** two empty bodies in front change nothing *)
  Lemma padded : forall a, exists a0 a2 a1, forall x, body_reports (a ++ x) = body_reports (a0 ++ a2 :: a1 :: x).
  Proof.
    intros a. destruct (rev a) as [| a1 [| a2 r]] eqn:R; apply (f_equal (@rev bytes)) in R; rewrite rev_involutive in R; subst a; cbn [rev].
    - exists [], [], []. reflexivity.
    - exists [], [], a1. reflexivity.
    - exists (rev r), a2, a1. intros x. rewrite <- !app_assoc. reflexivity.
  Qed.
  Lemma change_bodies : forall a o o' b, at_most_one o -> at_most_one o' -> exists ns, (length ns <= 3)%nat /\
    close ns (-3) 3 (rows (body_reports (a ++ o ++ b))) (rows (body_reports (a ++ o' ++ b))).
  Proof. intros a o o' b O O'. destruct (padded a) as [a0 [a2 [a1 P]]]. rewrite !P. apply change_any; assumption. Qed.

  (** ** Frames *)
  Lemma all_rows : forall fs, all_entries E cs fs = rows (body_reports (bodies fs)).
  Proof.
    intros fs. rewrite <- reports_bodies. unfold all_entries, rows, reports. f_equal. rewrite map_map. apply map_ext. intros [m s]. reflexivity.
  Qed.
  Definition spot (f : frame) : list bytes := bodies [f].
  Lemma spot_one : forall f, at_most_one (spot f).
  Proof. intros f. unfold spot, bodies. cbn [filter]. destruct (has_body f); [right; eexists; reflexivity | left; reflexivity]. Qed.
  Lemma bodies_app : forall a b, bodies (a ++ b) = bodies a ++ bodies b.
  Proof. intros a b. unfold bodies. rewrite filter_app, map_app. reflexivity. Qed.
  Lemma bodies_at : forall f gs, bodies (f :: gs) = spot f ++ bodies gs.
  Proof. intros f gs. change (f :: gs) with ([f] ++ gs). apply bodies_app. Qed.

  Lemma edits_close : forall k fs gs, edits k fs gs -> forall a, exists ns, (length ns <= 3 * N.to_nat k)%nat /\
    close ns (- (3 * Z.of_N k)) (3 * Z.of_N k) (all_entries E cs (a ++ fs)) (all_entries E cs (a ++ gs)).
  Proof.
    assert (S1 : forall a o o' b c k, at_most_one o -> at_most_one o' ->
      (exists ns, (length ns <= 3 * N.to_nat k)%nat /\ close ns (- (3 * Z.of_N k)) (3 * Z.of_N k) (rows (body_reports (a ++ o' ++ b))) c) ->
      exists ns, (length ns <= 3 * N.to_nat (k + 1))%nat /\ close ns (- (3 * Z.of_N (k + 1))) (3 * Z.of_N (k + 1)) (rows (body_reports (a ++ o ++ b))) c).
    { intros a o o' b c k O O' [ns [L C]]. destruct (change_bodies a o o' b O O') as [n1 [L1 C1]]. exists (n1 ++ ns).
      split; [rewrite app_length; lia |]. eapply close_more; [eapply close_trans; [exact C1 | exact C] | apply incl_refl | lia | lia]. }
    intros k fs gs D. induction D as [| k f fs gs D IH | k f g fs gs D IH | k f fs gs D IH | k g fs gs D IH]; intros a.
    - exists []. split; [cbn [length]; lia |]. eapply close_more; [apply close_refl | intros n [] | lia | lia].
    - specialize (IH (a ++ [f])). rewrite <- !app_assoc in IH. exact IH.
    - rewrite (all_rows (a ++ f :: fs)), bodies_app, bodies_at. apply (S1 _ _ (spot g)); [apply spot_one | apply spot_one |].
      rewrite <- (bodies_at g fs), <- bodies_app, <- all_rows. specialize (IH (a ++ [g])). rewrite <- !app_assoc in IH. exact IH.
    - rewrite (all_rows (a ++ f :: fs)), bodies_app, bodies_at. apply (S1 _ _ []); [apply spot_one | left; reflexivity |].
      cbn [app]. rewrite <- bodies_app, <- all_rows. apply IH.
    - rewrite (all_rows (a ++ fs)), bodies_app. apply (S1 (bodies a) [] (spot g) (bodies fs)); [left; reflexivity | apply spot_one |].
      rewrite <- (bodies_at g fs), <- bodies_app, <- all_rows. specialize (IH (a ++ [g])). rewrite <- !app_assoc in IH. exact IH.
  Qed.
End Entries.

(** ** The tables *)
Lemma tabulated_total : forall tbl l n v, tabulates tbl l -> looked_up tbl n 0%Z v -> v = total n l.
Proof.
  intros tbl l n v [_ [M T]] [I | [N ->]]; [apply T; exact I |]. rewrite M in N. clear -N. induction l as [| [k d] l IH]; [reflexivity |].
  change ((k, d) :: l) with ([(k, d)] ++ l). rewrite total_app, sum_one, <- IH by (intros X; apply N; right; exact X).
  destruct (beq k n) eqn:B; [| reflexivity]. apply beq_eq in B. subst. exfalso. apply N. left. reflexivity.
Qed.
Lemma close_tables : forall ns lo hi x y a b, close ns lo hi x y -> tabulates a x -> tabulates b y ->
  agree_except ns a b /\ forall n u v, looked_up a n 0%Z u -> looked_up b n 0%Z v -> (lo <= v - u <= hi)%Z.
Proof.
  intros ns lo hi x y a b [C D] A B. split.
  - assert (K : forall p q s t, tabulates p s -> tabulates q t -> forall n v, total n s = total n t -> (named_in n s <-> named_in n t) ->
      In (n, v) p -> In (n, v) q).
    { intros p q s t [_ [P1 P2]] [_ [Q1 Q2]] n v T M I. pose proof (P2 _ _ I) as V. apply (in_map fst) in I. cbn [fst] in I.
      apply P1, M, Q1 in I. apply in_map_iff in I. destruct I as [[n' v'] [X I]]. cbn [fst] in X. subst n'. pose proof (Q2 _ _ I) as V'.
      replace v with v' by congruence. exact I. }
    intros n v N. destruct (C n N) as [T M]. split; [apply (K a b x y A B) | apply (K b a y x B A)]; auto; tauto.
  - intros n u v U V. rewrite (tabulated_total _ _ _ _ A U), (tabulated_total _ _ _ _ B V). apply D.
Qed.

Lemma edits_proof : forall E fs gs k r, wf fs -> wf gs -> len (encode fs) < 2147483648 -> len (encode gs) < 2147483648 ->
  clients E (encode fs) = Ret r -> clients E (encode gs) = Ret r -> edits k fs gs ->
  exists a b names, frags_per_player_name E (encode fs) = Ret a /\ frags_per_player_name E (encode gs) = Ret b /\
    len names <= 3 * k /\ agree_except names a b /\
    forall n x y, looked_up a n 0%Z x -> looked_up b n 0%Z y -> (Z.abs (y - x) <= 3 * Z.of_N k)%Z.
Proof.
  intros E fs gs k r W V L L' C C' D.
  assert (T : forall hs, wf hs -> len (encode hs) < 2147483648 -> clients E (encode hs) = Ret r ->
    exists t, frags_per_player_name E (encode hs) = Ret t /\ tabulates t (all_entries E (cs_of r) hs)).
  { intros hs H LH CH. destruct (frags_table E hs [] r H) as [t [X [ND G]]]; rewrite ?app_nil_r in *; auto; [exact I |].
    exists t. split; [exact X |]. apply tabulates_of; assumption. }
  destruct (T fs W L C) as [a [A TA]]. destruct (T gs V L' C') as [b [B TB]].
  destruct (edits_close E (cs_of r) k fs gs D []) as [ns [NL CL]]. cbn [app] in CL.
  destruct (close_tables _ _ _ _ _ _ _ CL TA TB) as [AG DI].
  exists a, b, ns. split; [exact A |]. split; [exact B |]. split; [unfold len; lia |]. split; [exact AG |].
  intros n x y X Y. specialize (DI n x y X Y). lia.
Qed.

(** without unnamed killers *)
Lemma frame_one : forall E f, exists ns, (length ns <= 1)%nat /\ close ns (-2) 1 [] (frame_entries E f).
Proof.
  intros E f. assert (Z : exists ns : list str, (length ns <= 1)%nat /\ close ns (-2) 1 [] [])
    by (exists []; split; [cbn [length]; lia | eapply close_more; [apply close_refl | intros k [] | lia | lia]]).
  unfold frame_entries, obit_of. destruct (messages (f_body f)) as [| m ms]; [exact Z |].
  destruct (has_text m && _); [| exact Z]. cbn [map concat]. rewrite app_nil_r.
  destruct (ent_one E [] (m, [])) as [H | [k [v [H B]]]]; unfold ent in H; cbn [fst snd] in H; rewrite H; [exact Z |].
  exists [k]. split; [cbn [length]; lia |]. eapply close_more; [apply (blames k [k] v); left; reflexivity | apply incl_refl | lia | lia].
Qed.
Lemma named_close : forall E k fs gs, edits k fs gs -> exists ns, (length ns <= 2 * N.to_nat k)%nat /\
  close ns (- (3 * Z.of_N k)) (3 * Z.of_N k) (concat (map (frame_entries E) fs)) (concat (map (frame_entries E) gs)).
Proof.
  intros E k fs gs D. induction D as [| k f fs gs D [ns [L C]] | k f g fs gs D [ns [L C]] | k f fs gs D [ns [L C]] | k g fs gs D [ns [L C]]]; cbn [map concat].
  - exists []. split; [cbn [length]; lia |]. eapply close_more; [apply close_refl | intros n [] | lia | lia].
  - exists ns. split; [exact L |]. eapply close_more; [eapply close_app; [| exact C] | apply incl_refl | |]; [| instantiate (1 := 0%Z); lia | instantiate (1 := 0%Z); lia].
    eapply close_more; [apply close_refl | intros n [] | lia | lia].
  - destruct (frame_one E f) as [n1 [L1 C1]]. destruct (frame_one E g) as [n2 [L2 C2]]. exists ((n1 ++ n2) ++ ns).
    split; [rewrite !app_length; lia |]. eapply close_more; [eapply close_app | apply incl_refl | |];
      [ apply (wider (n1 ++ n2) (-3) 3); [| intros n N; apply in_or_app; left; exact N] | apply (wider ns _ _ _ _ _ C); intros n N; apply in_or_app; right; exact N | lia | lia].
    eapply close_more; [eapply close_trans; [apply close_sym; exact C1 | exact C2] | apply incl_refl | lia | lia].
  - destruct (frame_one E f) as [n1 [L1 C1]]. exists (n1 ++ ns). split; [rewrite !app_length; lia |].
    change (concat (map (frame_entries E) gs)) with ([] ++ concat (map (frame_entries E) gs)).
    eapply close_more; [eapply close_app | apply incl_refl | |];
      [ apply (wider n1 (- (1)) (- (-2)) _ _ _ (close_sym _ _ _ _ _ C1)); intros n N; apply in_or_app; left; exact N
      | apply (wider ns _ _ _ _ _ C); intros n N; apply in_or_app; right; exact N | lia | lia].
  - destruct (frame_one E g) as [n1 [L1 C1]]. exists (n1 ++ ns). split; [rewrite !app_length; lia |].
    change (concat (map (frame_entries E) fs)) with ([] ++ concat (map (frame_entries E) fs)).
    eapply close_more; [eapply close_app | apply incl_refl | |];
      [ apply (wider n1 (-2) 1 _ _ _ C1); intros n N; apply in_or_app; left; exact N
      | apply (wider ns _ _ _ _ _ C); intros n N; apply in_or_app; right; exact N | lia | lia].
Qed.
Lemma edits_named_proof : forall E fs gs k, wf fs -> wf gs -> len (encode fs) < 2147483648 -> len (encode gs) < 2147483648 ->
  all_named E fs -> all_named E gs -> edits k fs gs ->
  exists a b names, frags_per_player_name E (encode fs) = Ret a /\ frags_per_player_name E (encode gs) = Ret b /\
    len names <= 2 * k /\ agree_except names a b /\
    forall n x y, looked_up a n 0%Z x -> looked_up b n 0%Z y -> (Z.abs (y - x) <= 3 * Z.of_N k)%Z.
Proof.
  intros E fs gs k W V L L' N N' D.
  destruct (named_table E fs W L N) as [a [A TA]]. destruct (named_table E gs V L' N') as [b [B TB]].
  destruct (named_close E k fs gs D) as [ns [NL CL]].
  destruct (close_tables _ _ _ _ _ _ _ CL TA TB) as [AG DI].
  exists a, b, ns. split; [exact A |]. split; [exact B |]. split; [unfold len; lia |]. split; [exact AG |].
  intros n x y X Y. specialize (DI n x y X Y). lia.
Qed.
