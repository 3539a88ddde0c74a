(** The search for userinfo strings, exactly *)
From Coq Require Import Lia ZifyN ZifyNat ZifyBool.
From Verif.Model Require Import Base Env Clientinfo.
From Verif.Spec Require Import Occ Texts Userinfo.
From Verif.Proofs Require Import BaseFacts ClientFacts.

Lemma first_unique : forall d p i j, first_at d p i -> first_at d p j -> i = j.
Proof. intros d p i j [A B] [C D]. specialize (B _ C). specialize (D _ A). lia. Qed.

Lemma next_name_one : forall data offset i j, next_name data offset i -> next_name data offset j -> i = j.
Proof. intros data offset i j [A B] [C D]. pose proof (first_unique _ _ _ _ B D). lia. Qed.

(** Two NUL-free stretches around the same place are the same. *)
Lemma split_same : forall (a b c d : bytes), a ++ x00 :: b = c ++ x00 :: d -> ~ In x00 b -> ~ In x00 d -> a = c /\ b = d.
Proof.
  induction a as [| x a IH]; intros b c d H NB ND; destruct c as [| y c]; cbn [app] in H.
  - injection H as H. auto.
  - injection H as <- H. exfalso. apply NB. rewrite H. apply in_or_app. right. left. reflexivity.
  - injection H as -> H. exfalso. apply ND. rewrite <- H. apply in_or_app. right. left. reflexivity.
  - injection H as -> H. destruct (IH _ _ _ H NB ND) as [-> ->]. auto.
Qed.

Lemma split_first : forall (a b c d : bytes), a ++ x00 :: b = c ++ x00 :: d -> ~ In x00 a -> ~ In x00 c -> a = c /\ b = d.
Proof.
  induction a as [| x a IH]; intros b c d H NB ND; destruct c as [| y c]; cbn [app] in H.
  - injection H as H. auto.
  - injection H as <- H. exfalso. apply ND. left. reflexivity.
  - injection H as -> H. exfalso. apply NB. left. reflexivity.
  - injection H as -> H. destruct (IH _ _ _ H) as [-> ->]; [intros I; apply NB; right; exact I | intros I; apply ND; right; exact I |]. auto.
Qed.

Lemma app_split : forall A (a b c d : list A), a ++ b = c ++ d -> (length a <= length c)%nat -> exists e, c = a ++ e /\ b = e ++ d.
Proof.
  induction a as [| x a IH]; intros b c d H L; cbn [app] in *; [exists c; auto |].
  destruct c as [| y c]; cbn [length app] in *; [lia |]. injection H as -> H.
  destruct (IH b c d H) as [e [-> ->]]; [lia |]. exists e. auto.
Qed.

Lemma firstn_skipn_mid : forall A (t : list A) n, (n <= length t)%nat -> t = firstn n t ++ skipn n t.
Proof. intros. symmetry. apply firstn_skipn. Qed.

Lemma not_in_app : forall (x : byte) a b, ~ In x (a ++ b) -> ~ In x a /\ ~ In x b.
Proof. intros x a b H. split; intros I; apply H; apply in_or_app; auto. Qed.

(** a stretch seen from a place in it *)
Lemma stretch_at : forall (data : bytes) i from text u v, stretch data i from text -> data = u ++ v -> len u = i ->
  exists a c s r, u = a ++ x00 :: c /\ v = s ++ x00 :: r /\ text = c ++ s /\ from = len a + 1 /\ ~ In x00 c /\ ~ In x00 s /\ s <> [].
Proof.
  intros data i from text u v [a [b [D [F [NT [L1 L2]]]]]] D2 LU. rewrite D in D2.
  set (n := N.to_nat (i - from)).
  assert (text = firstn n text ++ skipn n text) as T by (symmetry; apply firstn_skipn).
  assert (length (firstn n text) = n) as LF by (rewrite firstn_length; unfold len, n in *; lia).
  assert ((a ++ x00 :: firstn n text) ++ (skipn n text ++ x00 :: b) = u ++ v) as X.
  { rewrite <- D2, <- !app_assoc. cbn [app]. rewrite (app_assoc (firstn n text)), firstn_skipn. reflexivity. }
  assert (length (a ++ x00 :: firstn n text) = length u) as LL.
  { rewrite app_length. cbn [length]. rewrite LF. unfold len, n in *. lia. }
  assert (a ++ x00 :: firstn n text = u /\ skipn n text ++ x00 :: b = v) as [U V].
  { destruct (app_split _ _ _ _ _ X) as [e [U V]]; [lia |]. pose proof (f_equal (@length _) U) as LE. rewrite app_length in LE.
    assert (e = []) by (destruct e; [reflexivity | cbn [length] in LE; lia]). subst e. rewrite app_nil_r in U. auto. }
  rewrite T in NT. apply not_in_app in NT. destruct NT as [N1 N2].
  exists a, (firstn n text), (skipn n text), b. repeat split; auto.
  intros E. assert (length (skipn n text) = 0%nat) as Z by (rewrite E; reflexivity). rewrite skipn_length in Z. unfold len, n in *. lia.
Qed.

Lemma stretch_one : forall data i from text from' text', stretch data i from text -> stretch data i from' text' ->
  from = from' /\ text = text'.
Proof.
  intros data i from text from' text' A B. pose proof A as [a [b [D [F [_ [L1 L2]]]]]].
  assert (i <= len data) as LI by (rewrite D, len_app, len_cons, len_app, len_cons; lia).
  assert (data = firstn (N.to_nat i) data ++ skipn (N.to_nat i) data) as X by (symmetry; apply firstn_skipn).
  assert (len (firstn (N.to_nat i) data) = i) as LF by (rewrite len_firstn; lia).
  destruct (stretch_at _ _ _ _ _ _ A X LF) as [a1 [c1 [s1 [r1 [U1 [V1 [T1 [F1 [NC1 [NS1 _]]]]]]]]]].
  destruct (stretch_at _ _ _ _ _ _ B X LF) as [a2 [c2 [s2 [r2 [U2 [V2 [T2 [F2 [NC2 [NS2 _]]]]]]]]]].
  rewrite U1 in U2. rewrite V1 in V2. destruct (split_same _ _ _ _ U2 NC1 NC2) as [<- <-].
  destruct (split_first _ _ _ _ V2 NS1 NS2) as [<- <-]. subst. auto.
Qed.

Lemma step_one : forall data offset from text from' text', step data offset from text -> step data offset from' text' ->
  from = from' /\ text = text'.
Proof.
  intros data offset from text from' text' [_ [i [A [B _]]]] [_ [j [C [D _]]]].
  pose proof (next_name_one _ _ _ _ A C) as <-. eapply stretch_one; eassumption.
Qed.

(** What a round does *)
Lemma round_steps : forall E fuel data max offset acc, offset + 512 <= len data ->
  (clientinfo_loop E (S fuel) data max offset acc = Ret acc /\ forall from text, ~ step data offset from text) \/
  exists from text, step data offset from text /\ offset < from + len text /\ from + len text < len data /\
    clientinfo_loop E (S fuel) data max offset acc =
    if max <=? from + len text then Ret (acc ++ [to_unicode E text])
    else clientinfo_loop E fuel data max (from + len text) (acc ++ [to_unicode E text]).
Proof.
  intros E fuel data max offset acc L.
  destruct (round data offset L) as [H | [H | [H | [p [c [s [r [D [NY [LO [LW F]]]]]]]]]]].
  - left. split; [apply loop_stop; auto |]. intros from text [_ [i [[_ [O _]] _]]]. apply H. apply occurs_iff. eauto.
  - left. split; [apply loop_stop; auto |]. intros from text [_ [i [NN [ST _]]]].
    destruct H as [p [c [r [_ [D [NN0 [LO F]]]]]]]. rewrite app_assoc in D.
    assert (i = len (p ++ c)) as -> by (eapply next_name_one; [exact NN | split; [exact LO | exact F]]).
    destruct (stretch_at _ _ _ _ _ _ ST D eq_refl) as [a [c' [s [r' [U _]]]]].
    apply NN0. rewrite U. apply in_or_app. right. left. reflexivity.
  - left. split; [apply loop_stop; auto |]. intros from text [_ [i [NN [ST _]]]].
    destruct H as [p [c [r [D [NC [NR [LO F]]]]]]].
    assert (data = (p ++ x00 :: c) ++ NAME ++ r) as D' by (rewrite D, <- app_assoc; reflexivity).
    assert (len (p ++ x00 :: c) = len p + 1 + len c) as LL by (rewrite len_app, len_cons; lia).
    assert (i = len p + 1 + len c) as -> by (eapply next_name_one; [exact NN | split; [exact LO | exact F]]).
    destruct (stretch_at _ _ _ _ _ _ ST D' LL) as [a [c' [s [r' [_ [V _]]]]]].
    assert (In x00 (NAME ++ r)) as I by (rewrite V; apply in_or_app; right; left; reflexivity).
    apply in_app_or in I. destruct I as [I | I]; [apply no_nul_name in I; exact I | contradiction].
  - rewrite (loop_found E fuel data max offset acc p c s r L D NY LO F).
    assert (stretch data (len p + 1 + len c) (len p + 1) (c ++ NAME ++ s)) as ST.
    { exists p, r. split; [rewrite D, <- !app_assoc; reflexivity |]. split; [reflexivity |]. split; [exact NY |].
      split; [lia |]. rewrite !len_app. change (len NAME) with 6. lia. }
    assert (next_name data offset (len p + 1 + len c)) as NN by (split; [exact LO | exact F]).
    destruct (_ && _) eqn:C.
    + right. exists (len p + 1), (c ++ NAME ++ s). apply andb_true_iff in C.
      split; [split; [exact L |]; exists (len p + 1 + len c); repeat split; try assumption; try apply NN; try lia |].
      split; [rewrite !len_app; change (len NAME) with 6; lia |].
      split; [rewrite D; rewrite !len_app, !len_cons, !len_app, !len_cons; lia |]. reflexivity.
    + left. split; [reflexivity |]. intros from text [_ [i [NN' [ST' LT]]]].
      pose proof (next_name_one _ _ _ _ NN NN') as <-. destruct (stretch_one _ _ _ _ _ _ ST ST') as [<- <-].
      apply andb_false_iff in C. lia.
Qed.

Lemma loop_search : forall E fuel data max offset acc l,
  clientinfo_loop E fuel data max offset acc = Ret l ->
  exists st, search data max offset st /\ l = acc ++ map (to_unicode E) st.
Proof.
  intros E fuel. induction fuel as [| fuel IH]; intros data max offset acc l H; [discriminate |].
  destruct (N.lt_ge_cases (len data) (offset + 512)) as [S | L].
  { rewrite loop_short in H by exact S. discriminate. }
  destruct (round_steps E fuel data max offset acc L) as [[R NS] | [from [text [ST [_ [_ R]]]]]]; rewrite R in H.
  - injection H as <-. exists []. split; [constructor; assumption |]. rewrite app_nil_r. reflexivity.
  - destruct (max <=? from + len text) eqn:C.
    + injection H as <-. exists [text]. split; [eapply search_limit; [exact ST | lia] | reflexivity].
    + apply IH in H. destruct H as [st [SE ->]]. exists (text :: st).
      split; [eapply search_more; [exact ST | lia | exact SE] |]. cbn [map]. rewrite <- app_assoc. reflexivity.
Qed.

Lemma search_loop : forall E data max offset st, search data max offset st -> forall fuel acc,
  (length data < fuel + N.to_nat offset)%nat -> (1 <= fuel)%nat ->
  clientinfo_loop E fuel data max offset acc = Ret (acc ++ map (to_unicode E) st).
Proof.
  intros E data max offset st H. induction H as [offset L NS | offset from text ST LM | offset from text l ST LM H IH];
    intros fuel acc LF F1; (destruct fuel as [| fuel]; [lia |]).
  - destruct (round_steps E fuel data max offset acc L) as [[R _] | [from [text [ST _]]]].
    + rewrite R. rewrite app_nil_r. reflexivity.
    + exfalso. exact (NS _ _ ST).
  - destruct (round_steps E fuel data max offset acc (proj1 ST)) as [[_ NS] | [from' [text' [ST' [_ [_ R]]]]]].
    + exfalso. exact (NS _ _ ST).
    + destruct (step_one _ _ _ _ _ _ ST ST') as [<- <-]. rewrite R. replace (max <=? from + len text) with true by lia. reflexivity.
  - destruct (round_steps E fuel data max offset acc (proj1 ST)) as [[_ NS] | [from' [text' [ST' [O1 [O2 R]]]]]].
    + exfalso. exact (NS _ _ ST).
    + destruct (step_one _ _ _ _ _ _ ST ST') as [<- <-]. rewrite R. replace (max <=? from + len text) with false by lia.
      rewrite IH; [cbn [map]; rewrite <- app_assoc; reflexivity | lia | unfold len in *; lia].
Qed.

Lemma loop_search_short : forall E fuel data max offset acc p,
  clientinfo_loop E fuel data max offset acc = Panic p -> p = PSlice /\ search_short data max offset.
Proof.
  intros E fuel. induction fuel as [| fuel IH]; intros data max offset acc q H; [discriminate |].
  destruct (N.lt_ge_cases (len data) (offset + 512)) as [S | L].
  { rewrite loop_short in H by exact S. injection H as <-. split; [reflexivity |]. apply short_here. exact S. }
  destruct (round_steps E fuel data max offset acc L) as [[R NS] | [from [text [ST [_ [_ R]]]]]]; rewrite R in H; [discriminate |].
  destruct (max <=? from + len text) eqn:C; [discriminate |]. apply IH in H. destruct H as [-> H].
  split; [reflexivity |]. eapply short_later; [exact ST | lia | exact H].
Qed.

Lemma search_short_loop : forall E data max offset, search_short data max offset -> forall fuel acc,
  (length data < fuel + N.to_nat offset)%nat -> (1 <= fuel)%nat ->
  clientinfo_loop E fuel data max offset acc = Panic PSlice.
Proof.
  intros E data max offset H. induction H as [offset L | offset from text ST LM H IH];
    intros fuel acc LF F1; (destruct fuel as [| fuel]; [lia |]).
  - apply loop_short. exact L.
  - destruct (round_steps E fuel data max offset acc (proj1 ST)) as [[_ NS] | [from' [text' [ST' [O1 [O2 R]]]]]].
    + exfalso. exact (NS _ _ ST).
    + destruct (step_one _ _ _ _ _ _ ST ST') as [<- <-]. rewrite R. replace (max <=? from + len text) with false by lia.
      apply IH; [lia | unfold len in *; lia].
Qed.

Lemma clientinfo_exact_proof : forall E data spawn, first_at data spawn_mark spawn ->
  (forall l, clientinfo_strings E data = Ret (Ok l) <->
     exists st, search data (spawn + 12288) spawn st /\ l = map (to_unicode E) st) /\
  (forall p, clientinfo_strings E data = Panic p <-> p = PSlice /\ search_short data (spawn + 12288) spawn).
Proof.
  intros E data spawn F. apply find_some in F. unfold clientinfo_strings. change CMD_SPAWN with spawn_mark. rewrite F.
  change (MAX_PLAYERS * MAX_LOOKAHEAD) with 12288. split.
  - intros l. split.
    + intros H. apply bind_ret_inv in H. destruct H as [l' [H R]]. injection R as <-. apply loop_search in H. exact H.
    + intros [st [S ->]]. rewrite (search_loop E _ _ _ _ S); [reflexivity | lia | lia].
  - intros p. split.
    + intros H. destruct (clientinfo_loop _ _ _ _ _ _) eqn:X; cbn [bind] in H; try discriminate.
      injection H as <-. eapply loop_search_short. exact X.
    + intros [-> S]. rewrite (search_short_loop E _ _ _ S) by lia. reflexivity.
Qed.

Lemma search_decides : forall data limit offset, 
  ((exists st, search data limit offset st /\ forall st', search data limit offset st' -> st' = st) /\ ~ search_short data limit offset) \/
  ((forall st, ~ search data limit offset st) /\ search_short data limit offset).
Proof.
  intros data limit offset.
  set (E := mkEnv true true (fun b => b) (fun b => b) (fun l => l)
       (fun _ => mkClientinfo None None None None None None None None None None)
       (fun _ => mkSettings None None None []) (fun _ => Err "") (fun _ => Err "") (fun s => s) (fun l => l) (fun l => l) (fun _ l => l)).
  assert (forall st, map (to_unicode E) st = st) as ID by (intros st; cbn [E to_unicode]; apply map_id).
  set (fuel := S (length data)).
  assert (length data < fuel + N.to_nat offset)%nat as L1 by (unfold fuel; lia).
  assert (1 <= fuel)%nat as L2 by (unfold fuel; lia).
  destruct (clientinfo_loop E fuel data limit offset []) as [l | p |] eqn:X.
  - left. split.
    + destruct (loop_search _ _ _ _ _ _ _ X) as [st [S L]]. exists st. split; [exact S |]. intros st' S'.
      pose proof (search_loop E _ _ _ _ S' fuel [] L1 L2) as Y. rewrite X in Y. injection Y as Y. cbn [app] in *. rewrite ID in *. congruence.
    + intros S. rewrite (search_short_loop E _ _ _ S fuel [] L1 L2) in X. discriminate.
  - right. split; [| eapply loop_search_short; exact X].
    intros st S. rewrite (search_loop E _ _ _ _ S fuel [] L1 L2) in X. discriminate.
  - exfalso. eapply loop_fuel; [exact L1 | exact L2 | exact X].
Qed.
