(** Consequences of the exact behaviour of prints(). *)
From Coq Require Import Lia ZifyN ZifyNat ZifyBool.
From Verif.Model Require Import Base Env Primitives Prot Frame Message Prints.
From Verif.Spec Require Import Occ Mvd Messages.
From Verif.Proofs Require Import BaseFacts FrameFacts PrintFacts.

(** collapse *)
Section Collapse.
  Context {A : Type} (dec : forall a b : A, {a = b} + {a <> b}).

  Lemma collapse_cons2 : forall x y l,
    collapse dec (x :: y :: l) = if dec x y then collapse dec (y :: l) else x :: collapse dec (y :: l).
  Proof. reflexivity. Qed.

  Lemma collapse_head : forall l x, exists l', collapse dec (x :: l) = x :: l'.
  Proof.
    induction l as [| y l IH]; intros x; [exists []; reflexivity |].
    rewrite collapse_cons2. destruct (dec x y) as [-> | _]; [apply IH | eauto].
  Qed.

  Lemma collapse_in : forall l x, In x (collapse dec l) <-> In x l.
  Proof.
    induction l as [| a l IH]; intros x; [reflexivity |].
    destruct l as [| b l]; [reflexivity |]. rewrite collapse_cons2.
    destruct (dec a b) as [-> | _].
    - rewrite IH. simpl. tauto.
    - simpl In at 1. rewrite IH. simpl. tauto.
  Qed.

  Lemma collapse_adjacent : forall l a x y b, collapse dec l = a ++ x :: y :: b -> x <> y.
  Proof.
    induction l as [| u l IH]; intros a x y b H.
    - destruct a; discriminate.
    - destruct l as [| v l].
      + destruct a as [| ? [| ? a]]; discriminate.
      + rewrite collapse_cons2 in H. destruct (dec u v) as [_ | N]; [apply (IH _ _ _ _ H) |].
        destruct a as [| a0 a].
        * cbn [app] in H. destruct (collapse_head l v) as [l' E]. rewrite E in H.
          inversion H; subst. exact N.
        * cbn [app] in H. apply (f_equal (@tl A)) in H. cbn [tl] in H. apply (IH _ _ _ _ H).
  Qed.

  Lemma collapse_app : forall l x y m,
    collapse dec ((l ++ [x]) ++ y :: m) =
    if dec x y then collapse dec (l ++ [x]) ++ tl (collapse dec (y :: m))
    else collapse dec (l ++ [x]) ++ collapse dec (y :: m).
  Proof.
    induction l as [| u l IH]; intros x y m.
    - cbn [app]. rewrite collapse_cons2. destruct (dec x y) as [-> | N]; [| reflexivity].
      simpl. destruct (collapse_head m y) as [l' E]. simpl in E. rewrite E. reflexivity.
    - specialize (IH x y m). destruct l as [| v l].
      + cbn [app] in *. rewrite collapse_cons2, IH. rewrite (collapse_cons2 u x []).
        destruct (dec u x); destruct (dec x y); reflexivity.
      + cbn [app] in *. rewrite !(collapse_cons2 u v). rewrite IH.
        destruct (dec u v); destruct (dec x y); reflexivity.
  Qed.

  Lemma collapse_last : forall l x, exists l', collapse dec (l ++ [x]) = l' ++ [x].
  Proof.
    induction l as [| u l IH]; intros x; [exists []; reflexivity |].
    destruct (IH x) as [l' E]. destruct l as [| v l].
    - simpl. destruct (dec u x) as [-> | N]; [exists []; reflexivity | exists [u]; reflexivity].
    - cbn [app] in *. rewrite collapse_cons2, E. destruct (dec u v); [eauto | exists (u :: l'); reflexivity].
  Qed.
End Collapse.

(** Membership in the messages of a demo *)
Lemma messages_in : forall body m, In m (messages body) ->
  wf_message m /\ exists a b, body = a ++ encode_message m ++ b.
Proof.
  intros body m H. destruct (messages_opens body) as [W [tail [E _]]].
  split; [rewrite Forall_forall in W; auto |].
  apply in_split in H. destruct H as [l1 [l2 H]]. rewrite H in E.
  rewrite map_app, concat_app in E. cbn [map concat] in E. rewrite <- !app_assoc in E. eauto.
Qed.

Lemma frame_in_encode : forall fs f, In f fs -> exists a b, encode fs = a ++ f_body f ++ b.
Proof.
  intros fs f H. apply in_split in H. destruct H as [l1 [l2 ->]].
  rewrite encode_app, encode_cons. unfold encode_frame.
  exists (encode l1 ++ f_time f :: f_type f :: f_mask f ++
    (if has_length (f_type f) then enc32 (len (f_body f)) else [])), (encode l2).
  rewrite <- !app_assoc. simpl. rewrite <- !app_assoc. reflexivity.
Qed.

Lemma demo_messages_in : forall fs m, In m (demo_messages fs) ->
  wf_message m /\ m_text m <> [] /\ exists a b, encode fs = a ++ encode_message m ++ b.
Proof.
  intros fs m H. unfold demo_messages in H. apply filter_In in H. destruct H as [H T].
  apply in_concat in H. destruct H as [ms [H1 H2]]. apply in_map_iff in H1. destruct H1 as [f [<- H1]].
  apply messages_in in H2. destruct H2 as [W [a [b E]]].
  apply frame_in_encode in H1. destruct H1 as [c [d E2]].
  split; [exact W |]. split.
  - unfold has_text in T. apply negb_true_iff, is_empty_false in T. exact T.
  - exists (c ++ a), (b ++ d). rewrite E2, E, <- !app_assoc. reflexivity.
Qed.

Lemma prints_cases : forall E data,
  exists fs rest, data = encode fs ++ rest /\ wf fs /\ no_frame rest /\
  ((stops (len data) rest /\ prints E data = Ret (collapse print_dec (map as_print (demo_messages fs))))
   \/ (overruns (len data) rest /\ prints E data = Panic PSlice)).
Proof.
  intros E data. destruct (decompose data) as [fs [rest [-> [W N]]]].
  exists fs, rest. split; [reflexivity |]. split; [exact W |]. split; [exact N |].
  destruct (rest_cases (len (encode fs ++ rest)) rest) as [S | O]; [rewrite len_app; lia | exact N | |].
  - left. split; [exact S |]. apply prints_quiet; assumption.
  - right. split; [exact O |]. apply prints_crash; assumption.
Qed.

Lemma prints_shape : forall E data ps, prints E data = Ret ps ->
  (forall p, In p ps -> pr_content p <> [] /\ ~ In x00 (pr_content p) /\
     exists level, level_of level = pr_id p /\ occurs data (x08 :: level :: pr_content p ++ [x00])) /\
  (forall a p q b, ps = a ++ p :: q :: b -> p <> q).
Proof.
  intros E data ps H. destruct (prints_cases E data) as [fs [rest [D [W [N [[S P] | [O P]]]]]]];
    rewrite P in H; inv H. split.
  - intros p Hp. rewrite collapse_in in Hp. apply in_map_iff in Hp. destruct Hp as [m [<- Hm]].
    apply demo_messages_in in Hm. destruct Hm as [Wm [T [a [b Q]]]]. cbn [as_print pr_content pr_id].
    split; [exact T |]. split; [exact Wm |]. exists (m_level m). split; [reflexivity |].
    exists a, (b ++ rest). rewrite Q, <- !app_assoc. reflexivity.
  - apply collapse_adjacent.
Qed.

(** Cutting a demo off inside a frame *)
Lemma announced_prefix : forall f k, wf_frame f -> k < len (encode_frame f) ->
  announced (firstn (N.to_nat k) (encode_frame f)) =
  if k <? hdr (f_type f) then None else Some (len (encode_frame f)).
Proof.
  intros f k W L.
  pose proof (announced_encode f [] W) as A. rewrite app_nil_r in A.
  pose proof (len_encode_frame f W) as LE. pose proof (hdr_pos (f_type f)) as HP.
  set (d := encode_frame f) in *.
  assert (LF : len (firstn (N.to_nat k) d) = k) by (rewrite len_firstn; lia).
  assert (D : d = firstn (N.to_nat k) d ++ skipn (N.to_nat k) d) by (symmetry; apply firstn_skipn).
  set (x := firstn (N.to_nat k) d) in *. set (y := skipn (N.to_nat k) d) in *.
  assert (T : exists q, d = f_time f :: f_type f :: q) by (unfold d, encode_frame; eauto).
  destruct T as [q T]. set (t := f_type f) in *.
  destruct x as [| x0 [| x1 x]].
  - rewrite len_nil in LF. replace (k <? hdr t) with true by lia. reflexivity.
  - rewrite len_cons, len_nil in LF. replace (k <? hdr t) with true by lia. reflexivity.
  - rewrite D in T. simpl in T. inversion T; subst x0 x1. clear T.
    rewrite !len_cons in LF.
    assert (A2 : announced (f_time f :: t :: x ++ y) = Some (len d)) by (rewrite <- A; f_equal; symmetry; exact D).
    simpl in A2 |- *. unfold hdr in *.
    destruct (has_length t) eqn:HL.
    + set (n := (if has_mask t then 4 else 0)%nat) in *.
      assert (Hn : N.of_nat n = if has_mask t then 4 else 0) by (subst n; destruct (has_mask t); reflexivity).
      destruct (k <? 2 + (if has_mask t then 4 else 0) + 4) eqn:C.
      * assert (LS : len (skipn n x) < 4) by (rewrite len_skipn; lia).
        destruct (skipn n x) as [| a [| b [| c [| e z]]]]; try reflexivity.
        rewrite !len_cons in LS. lia.
      * assert (LS : 4 <= len (skipn n x)) by (rewrite len_skipn; lia).
        rewrite skipn_app in A2.
        replace (n - length x)%nat with O in A2 by (unfold len in LF; lia).
        destruct (skipn n x) as [| a [| b [| c [| e z]]]];
          try (rewrite ?len_cons, len_nil in LS; exfalso; lia).
        simpl in A2. exact A2.
    + assert (HM : has_mask t = false).
      { destruct (has_mask t) eqn:HM; [| reflexivity]. apply mask_has_length in HM. congruence. }
      rewrite HM. replace (k <? 2 + 0 + 0) with false by lia. exact A2.
Qed.

Lemma prints_truncated : forall E fs f k, wf fs -> wf_frame f -> k < len (encode_frame f) ->
  prints E (encode fs ++ firstn (N.to_nat k) (encode_frame f)) =
  if (k <? hdr (f_type f)) || (len (encode fs) + k <? len (encode_frame f))
  then Ret (collapse print_dec (map as_print (demo_messages fs)))
  else Panic PSlice.
Proof.
  intros E fs f k W Wf L.
  pose proof (announced_prefix f k Wf L) as A.
  assert (LF : len (firstn (N.to_nat k) (encode_frame f)) = k) by (rewrite len_firstn; lia).
  set (rest := firstn (N.to_nat k) (encode_frame f)) in *.
  destruct (k <? hdr (f_type f)) eqn:C; simpl.
  - apply prints_quiet; [exact W |]. unfold stops. rewrite A. exact I.
  - destruct (len (encode fs) + k <? len (encode_frame f)) eqn:C2.
    + apply prints_quiet; [exact W |]. unfold stops. rewrite A, len_app. lia.
    + apply prints_crash; [exact W |]. exists (len (encode_frame f)).
      split; [exact A |]. rewrite len_app. lia.
Qed.

(** Every proper prefix of a demo is some complete frames and a part of the next. *)
Lemma cut_frames : forall fs k, k < len (encode fs) ->
  exists fs1 f fs2 j, fs = fs1 ++ f :: fs2 /\ j < len (encode_frame f) /\
    firstn (N.to_nat k) (encode fs) = encode fs1 ++ firstn (N.to_nat j) (encode_frame f).
Proof.
  induction fs as [| f fs IH]; intros k L.
  - change (len (encode [])) with 0 in L. lia.
  - rewrite encode_cons, len_app in L.
    destruct (N.lt_ge_cases k (len (encode_frame f))) as [C | C].
    + exists [], f, fs, k. split; [reflexivity |]. split; [exact C |].
      rewrite encode_cons, firstn_app. change (encode []) with (@nil byte). cbn [app].
      replace (N.to_nat k - length (encode_frame f))%nat with O by (unfold len in C; lia).
      cbn [firstn]. apply app_nil_r.
    + destruct (IH (k - len (encode_frame f))) as [fs1 [f' [fs2 [j [-> [Hj E]]]]]]; [lia |].
      exists (f :: fs1), f', fs2, j. split; [reflexivity |]. split; [exact Hj |].
      rewrite !encode_cons, firstn_app.
      rewrite firstn_all2 by (unfold len in C; lia).
      replace (N.to_nat k - length (encode_frame f))%nat with (N.to_nat (k - len (encode_frame f)))
        by (unfold len; lia).
      rewrite E, <- app_assoc. reflexivity.
Qed.

(** Concatenation *)
Lemma join_collapse : forall l m,
  collapse print_dec (l ++ m) = join (collapse print_dec l) (collapse print_dec m).
Proof.
  intros l m. destruct m as [| y m].
  - rewrite app_nil_r. unfold join. simpl. destruct (rev (collapse print_dec l)); rewrite app_nil_r; reflexivity.
  - destruct (rev l) as [| x r] eqn:R.
    + assert (l = []) as -> by (rewrite <- (rev_involutive l), R; reflexivity). reflexivity.
    + assert (l = rev r ++ [x]) as -> by (rewrite <- (rev_involutive l), R; reflexivity).
      rewrite collapse_app. unfold join.
      destruct (collapse_last print_dec (rev r) x) as [l' E]. rewrite E, rev_app_distr. simpl.
      destruct (collapse_head print_dec m y) as [m' E2]. simpl in E2. rewrite E2.
      destruct (print_dec x y); reflexivity.
Qed.

Lemma demo_messages_app : forall fs gs, demo_messages (fs ++ gs) = demo_messages fs ++ demo_messages gs.
Proof. intros. unfold demo_messages. rewrite map_app, concat_app, filter_app. reflexivity. Qed.

Lemma prints_encode : forall E fs, wf fs ->
  prints E (encode fs) = Ret (collapse print_dec (map as_print (demo_messages fs))).
Proof.
  intros E fs W. rewrite <- (app_nil_r (encode fs)). apply prints_quiet; [exact W | exact I].
Qed.

Lemma prints_concat : forall E fs gs a b, wf fs -> wf gs ->
  prints E (encode fs) = Ret a -> prints E (encode gs) = Ret b ->
  prints E (encode fs ++ encode gs) = Ret (join a b).
Proof.
  intros E fs gs a b Wf Wg A B. rewrite prints_encode in A, B by assumption. inv A. inv B.
  rewrite <- encode_app, prints_encode, demo_messages_app, map_app, join_collapse.
  - reflexivity.
  - apply Forall_app. auto.
Qed.

Lemma byte_size_encode : forall m, byte_size (as_print m) + 1 = len (encode_message m).
Proof. intros. rewrite len_encode_message. unfold byte_size. cbn [as_print pr_content]. lia. Qed.
