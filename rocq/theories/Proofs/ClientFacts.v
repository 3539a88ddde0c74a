(** Facts about the userinfo strings and the clients. *)
From Coq Require Import Lia Permutation.
From Verif.Model Require Import Base Env Clientinfo Clients.
From Verif.Spec Require Import Occ Texts Clientlist.
From Verif.Proofs Require Import BaseFacts.

(** Occurrences in concatenations *)
Lemma occurs_at_left : forall a b p j, occurs_at (a ++ b) p j -> j + len p <= len a -> occurs_at a p j.
Proof.
  intros a b p j [x [y [H <-]]] L. rewrite app_assoc in H. symmetry in H.
  apply app_eq_prefix in H; [| rewrite len_app; exact L]. destruct H as [e [-> _]].
  exists x, e. rewrite <- app_assoc. auto.
Qed.

Lemma occurs_at_right : forall a b p j, occurs_at (a ++ b) p j -> len a <= j -> occurs_at b p (j - len a).
Proof.
  intros a b p j [x [y [H <-]]] L. apply app_eq_prefix in H; [| exact L]. destruct H as [e [-> ->]].
  exists e, y. rewrite len_app. split; [reflexivity | lia].
Qed.

Lemma occurs_at_app_r : forall a b p j, occurs_at b p j -> occurs_at (a ++ b) p (len a + j).
Proof. intros a b p j [x [y [-> <-]]]. exists (a ++ x), y. rewrite <- app_assoc, len_app. auto. Qed.

Lemma occurs_at_app_l : forall a b p j, occurs_at a p j -> occurs_at (a ++ b) p j.
Proof. intros a b p j [x [y [-> <-]]]. exists x, (y ++ b). rewrite <- !app_assoc. auto. Qed.

(** An occurrence of a pattern without [c] does not cross a [c]. *)
Lemma occurs_at_sep : forall a c b p j, ~ In c p -> occurs_at (a ++ c :: b) p j ->
  j + len p <= len a \/ len a < j \/ p = [].
Proof.
  intros a c b p j NI [x [y [H <-]]].
  destruct (N.le_gt_cases (len x + len p) (len a)) as [L | G]; [auto |].
  destruct (N.le_gt_cases (len x) (len a)) as [L | G']; [| auto]. exfalso. apply NI.
  symmetry in H. apply app_eq_prefix in H; [| exact L]. destruct H as [e [-> H]].
  rewrite len_app in G. symmetry in H. apply app_eq_prefix in H; [| lia].
  destruct H as [f [-> H]]. apply in_or_app. right. destruct f as [| z f].
  - rewrite app_nil_r in G. lia.
  - inv H. left. reflexivity.
Qed.

Lemma occurs_at_head : forall d c p j, occurs_at d (c :: p) j -> nth_error d (N.to_nat j) = Some c.
Proof.
  intros d c p j [x [y [-> <-]]]. rewrite to_nat_len, nth_error_app2, Nat.sub_diag; auto.
Qed.

Lemma occurs_at_not_in : forall a b c p j, ~ In c a -> occurs_at (a ++ b) (c :: p) j -> len a <= j.
Proof.
  intros a b c p j NI H. destruct (N.le_gt_cases (len a) j) as [L | G]; [exact L |].
  exfalso. apply occurs_at_head in H. unfold len in G. rewrite nth_error_app1 in H by lia.
  apply nth_error_In in H. contradiction.
Qed.

Lemma first_at_skip : forall a b p i, first_at b p i -> (forall j, occurs_at (a ++ b) p j -> len a <= j) ->
  first_at (a ++ b) p (len a + i).
Proof.
  intros a b p i [O F] H. split; [apply occurs_at_app_r; exact O |].
  intros j J. pose proof (H j J). apply occurs_at_right in J; [| assumption]. apply F in J. lia.
Qed.

Lemma first_at_extend : forall a b p i, first_at a p i -> first_at (a ++ b) p i.
Proof.
  intros a b p i [O F]. split; [apply occurs_at_app_l; exact O |].
  intros j J. destruct (N.le_gt_cases i j) as [L | G]; [exact L |].
  apply F. apply occurs_at_le in O. eapply occurs_at_left; [exact J | lia].
Qed.

Lemma first_at_firstn : forall d p i n, first_at d p i -> i + len p <= N.of_nat n -> first_at (firstn n d) p i.
Proof.
  intros d p i n [O F] L. pose proof (occurs_at_le _ _ _ O).
  rewrite <- (firstn_skipn n d) in O. split.
  - eapply occurs_at_left; [exact O | rewrite len_firstn; lia].
  - intros j J. apply F. rewrite <- (firstn_skipn n d). apply occurs_at_app_l. exact J.
Qed.

Lemma occurs_app_l : forall a b p, occurs a p -> occurs (a ++ b) p.
Proof. intros a b p [x [y ->]]. exists x, (y ++ b). rewrite <- !app_assoc. reflexivity. Qed.
Lemma occurs_app_r : forall a b p, occurs b p -> occurs (a ++ b) p.
Proof. intros a b p [x [y ->]]. exists (a ++ x), y. rewrite <- !app_assoc. reflexivity. Qed.

(** one round of the loop *)
Lemma clientinfo_loop_S : forall E fuel data max offset acc,
  clientinfo_loop E (S fuel) data max offset acc =
  (let! window := slice data offset (offset + 512) in
   match find window NAME with
   | None => Ret acc
   | Some o =>
       let! before := slice_to data (offset + o) in
       match rfind_byte before x00 with
       | None => Ret acc
       | Some z =>
           let! after := slice_from data (z + 1) in
           match find_byte after x00 with
           | None => Ret acc
           | Some t =>
               if (7 <=? z + 1 + t - (z + 1)) && (z + 1 + t - (z + 1) <=? 256) then
                 let! d := slice data (z + 1) (z + 1 + t) in
                 if max <=? z + 1 + t then Ret (acc ++ [to_unicode E d])
                 else clientinfo_loop E fuel data max (z + 1 + t) (acc ++ [to_unicode E d])
               else Ret acc
           end
       end
   end).
Proof. reflexivity. Qed.

Lemma no_nul_name : ~ In x00 NAME.
Proof. intros H. vm_compute in H. repeat (destruct H as [H | H]; [discriminate |]). exact H. Qed.

(** What a round finds: [s] is the stretch around the first \name\ of the window. *)
Lemma round : forall data offset,
  offset + 512 <= len data ->
  let window := firstn 512 (skipn (N.to_nat offset) data) in
  ~ occurs window NAME
  \/ (exists p c r, occurs window NAME /\ data = p ++ c ++ NAME ++ r /\ ~ In x00 (p ++ c) /\
        offset <= len (p ++ c) /\ first_at window NAME (len (p ++ c) - offset))
  \/ (exists p c r, data = p ++ x00 :: c ++ NAME ++ r /\ ~ In x00 c /\ ~ In x00 r /\
        offset <= len p + 1 + len c /\ first_at window NAME (len p + 1 + len c - offset))
  \/ (exists p c s r, data = p ++ x00 :: c ++ NAME ++ s ++ x00 :: r /\ ~ In x00 (c ++ NAME ++ s) /\
        offset <= len p + 1 + len c /\ len p + 1 + len c + 6 <= offset + 512 /\
        first_at window NAME (len p + 1 + len c - offset)).
Proof.
  intros data offset L window.
  assert (exists w0 w1, data = w0 ++ window ++ w1 /\ len w0 = offset) as [w0 [w1 [D LW]]].
  { exists (firstn (N.to_nat offset) data), (skipn 512 (skipn (N.to_nat offset) data)).
    unfold window. rewrite firstn_skipn, firstn_skipn, len_firstn. split; [reflexivity | lia]. }
  assert (len window = 512) as LWin.
  { unfold window. rewrite len_firstn, len_skipn. lia. }
  destruct (find window NAME) as [o |] eqn:F.
  2: { left. apply find_none. exact F. }
  right. apply find_some in F. pose proof F as [[u [v [W LU]]] _].
  assert (data = (w0 ++ u) ++ NAME ++ (v ++ w1)) as D'.
  { rewrite D, W, <- !app_assoc. reflexivity. }
  assert (len (w0 ++ u) = offset + o) as LO by (rewrite len_app; lia).
  destruct (rfind_byte (w0 ++ u) x00) as [z |] eqn:Z.
  2: { left. exists (w0 ++ u), [], (v ++ w1). apply rfind_byte_none in Z.
       rewrite app_nil_r. split. { apply occurs_iff. exists o. apply F. }
       split; [exact D' |]. split; [exact Z |]. split; [lia |].
       replace (len (w0 ++ u) - offset) with o by lia. exact F. }
  right. apply rfind_byte_some in Z. destruct Z as [p [c [P [LP NC]]]].
  assert (len p + 1 + len c = offset + o) as LC.
  { rewrite <- LO, P, len_app, len_cons. lia. }
  rewrite P, <- app_assoc in D'. cbn [app] in D'.
  assert (offset <= len p + 1 + len c /\ first_at window NAME (len p + 1 + len c - offset)) as [B1 B2].
  { split; [lia |]. replace (len p + 1 + len c - offset) with o by lia. exact F. }
  destruct (find_byte (v ++ w1) x00) as [t |] eqn:T.
  - right. apply find_byte_some in T. destruct T as [s [r [S [LS NS]]]].
    exists p, c, s, r. rewrite <- S. split; [exact D' |]. split.
    { intros I. apply in_app_or in I. destruct I as [I | I]; [contradiction |].
      apply in_app_or in I. destruct I as [I | I]; [apply no_nul_name in I; exact I | contradiction]. }
    split; [exact B1 |]. split; [| exact B2].
    assert (len window = len u + 6 + len v) as X by (rewrite W, !len_app; change (len NAME) with 6; lia). lia.
  - left. apply find_byte_none in T. exists p, c, (v ++ w1). auto.
Qed.

(** The loop in terms of [round] *)
Lemma window_slice : forall (data : bytes) offset, offset + 512 <= len data ->
  slice data offset (offset + 512) = Ret (firstn 512 (skipn (N.to_nat offset) data)).
Proof.
  intros. rewrite slice_ret by lia. unfold sub_list.
  replace (offset + 512 - offset) with 512 by lia. reflexivity.
Qed.

Lemma slice_mid : forall (p y q : bytes) a b, a = len p -> b = len p + len y -> slice (p ++ y ++ q) a b = Ret y.
Proof. intros; subst. apply slice_app. Qed.

Lemma loop_found : forall E fuel data max offset acc p c s r,
  offset + 512 <= len data ->
  data = p ++ x00 :: c ++ NAME ++ s ++ x00 :: r -> ~ In x00 (c ++ NAME ++ s) ->
  offset <= len p + 1 + len c ->
  first_at (firstn 512 (skipn (N.to_nat offset) data)) NAME (len p + 1 + len c - offset) ->
  let y := c ++ NAME ++ s in
  clientinfo_loop E (S fuel) data max offset acc =
  if (7 <=? len y) && (len y <=? 256) then
    if max <=? len p + 1 + len y then Ret (acc ++ [to_unicode E y])
    else clientinfo_loop E fuel data max (len p + 1 + len y) (acc ++ [to_unicode E y])
  else Ret acc.
Proof.
  intros E fuel data max offset acc p c s r L D NY LO F y.
  rewrite clientinfo_loop_S. rewrite window_slice by exact L. cbn [bind].
  apply find_some in F. rewrite F.
  assert (slice_to data (offset + (len p + 1 + len c - offset)) = Ret (p ++ x00 :: c)) as S1.
  { replace (offset + (len p + 1 + len c - offset)) with (len (p ++ x00 :: c)) by (rewrite len_app, len_cons; lia).
    replace data with ((p ++ x00 :: c) ++ NAME ++ s ++ x00 :: r) by (rewrite D, <- app_assoc; reflexivity).
    apply slice_to_app. }
  rewrite S1. cbn [bind]. rewrite rfind_byte_app by (intros I; apply NY; apply in_or_app; auto).
  assert (data = (p ++ [x00]) ++ y ++ x00 :: r) as D2.
  { rewrite D. unfold y. rewrite <- !app_assoc. reflexivity. }
  assert (len p + 1 = len (p ++ [x00])) as LP by (rewrite len_app; reflexivity).
  rewrite LP. assert (slice_from data (len (p ++ [x00])) = Ret (y ++ x00 :: r)) as S2 by (rewrite D2; apply slice_from_app).
  rewrite S2. cbn [bind]. rewrite find_byte_app by exact NY.
  replace (len (p ++ [x00]) + len y - len (p ++ [x00])) with (len y) by lia.
  destruct (_ && _) eqn:C; [| reflexivity].
  assert (slice data (len (p ++ [x00])) (len (p ++ [x00]) + len y) = Ret y) as S3 by (rewrite D2; apply slice_app).
  rewrite S3. cbn [bind]. reflexivity.
Qed.

Lemma loop_stop : forall E fuel data max offset acc,
  offset + 512 <= len data ->
  let window := firstn 512 (skipn (N.to_nat offset) data) in
  ~ occurs window NAME
  \/ (exists p c r, occurs window NAME /\ data = p ++ c ++ NAME ++ r /\ ~ In x00 (p ++ c) /\
        offset <= len (p ++ c) /\ first_at window NAME (len (p ++ c) - offset))
  \/ (exists p c r, data = p ++ x00 :: c ++ NAME ++ r /\ ~ In x00 c /\ ~ In x00 r /\
        offset <= len p + 1 + len c /\ first_at window NAME (len p + 1 + len c - offset)) ->
  clientinfo_loop E (S fuel) data max offset acc = Ret acc.
Proof.
  intros E fuel data max offset acc L window H. unfold window in H.
  rewrite clientinfo_loop_S, window_slice by exact L. cbn [bind].
  destruct H as [H | [[p [c [r [_ [D [N [LO F]]]]]]] | [p [c [r [D [NC [NR [LO F]]]]]]]]].
  - apply find_none in H. rewrite H. reflexivity.
  - apply find_some in F. rewrite F.
    replace (offset + (len (p ++ c) - offset)) with (len (p ++ c)) by lia.
    assert (slice_to data (len (p ++ c)) = Ret (p ++ c)) as S1.
    { rewrite D, app_assoc. apply slice_to_app. }
    rewrite S1. cbn [bind]. apply rfind_byte_none in N. rewrite N. reflexivity.
  - apply find_some in F. rewrite F.
    assert (slice_to data (offset + (len p + 1 + len c - offset)) = Ret (p ++ x00 :: c)) as S1.
    { replace (offset + (len p + 1 + len c - offset)) with (len (p ++ x00 :: c)) by (rewrite len_app, len_cons; lia).
      replace data with ((p ++ x00 :: c) ++ NAME ++ r) by (rewrite D, <- app_assoc; reflexivity).
      apply slice_to_app. }
    rewrite S1. cbn [bind]. rewrite rfind_byte_app by exact NC.
    assert (len p + 1 = len (p ++ [x00])) as LP by (rewrite len_app; reflexivity).
    rewrite LP. assert (slice_from data (len (p ++ [x00])) = Ret (c ++ NAME ++ r)) as S2.
    { rewrite D. change (x00 :: c ++ NAME ++ r) with ([x00] ++ (c ++ NAME ++ r)). rewrite app_assoc. apply slice_from_app. }
    rewrite S2. cbn [bind].
    assert (find_byte (c ++ NAME ++ r) x00 = None) as F3.
    { apply find_byte_none. intros I. apply in_app_or in I. destruct I as [I | I]; [contradiction |].
      apply in_app_or in I. destruct I as [I | I]; [apply no_nul_name in I; exact I | contradiction]. }
    rewrite F3. reflexivity.
Qed.

Lemma loop_short : forall E fuel data max offset acc, len data < offset + 512 ->
  clientinfo_loop E (S fuel) data max offset acc = Panic PSlice.
Proof. intros. rewrite clientinfo_loop_S, slice_panic by assumption. reflexivity. Qed.

(** One round: stop, or one more stretch behind the offset. *)
Lemma round_cases : forall E fuel data max offset acc, offset + 512 <= len data ->
  clientinfo_loop E (S fuel) data max offset acc = Ret acc \/
  exists p y r, data = p ++ x00 :: y ++ x00 :: r /\ is_userinfo y /\
    offset < len p + 1 + len y /\ len p + 7 <= offset + 512 /\
    (nth_error data (N.to_nat offset) = Some x00 -> offset <= len p) /\
    clientinfo_loop E (S fuel) data max offset acc =
    if max <=? len p + 1 + len y then Ret (acc ++ [to_unicode E y])
    else clientinfo_loop E fuel data max (len p + 1 + len y) (acc ++ [to_unicode E y]).
Proof.
  intros E fuel data max offset acc L.
  destruct (round data offset L) as [H | [H | [H | [p [c [s [r [D [NY [LO [LW F]]]]]]]]]]].
  1-3: left; apply loop_stop; auto.
  rewrite (loop_found E fuel data max offset acc p c s r L D NY LO F).
  destruct (_ && _) eqn:C; [| left; reflexivity]. right.
  exists p, (c ++ NAME ++ s), r. apply andb_true_iff in C. destruct C as [C1 C2].
  split. { rewrite D, <- !app_assoc. reflexivity. }
  split. { split; [exact NY |]. split; [lia |]. exists c, s. reflexivity. }
  split. { rewrite !len_app. change (len NAME) with 6. lia. }
  split. { lia. }
  split; [| reflexivity].
  intros Z. destruct (N.le_gt_cases offset (len p)) as [G | G]; [exact G | exfalso].
  rewrite D in Z. unfold len in *. rewrite nth_error_app2 in Z by lia.
  destruct (N.to_nat offset - length p)%nat as [| k] eqn:K; [lia |]. cbn [nth_error] in Z.
  assert (k < length c \/ k = length c)%nat as [X | X] by lia.
  - rewrite nth_error_app1 in Z by exact X. apply nth_error_In in Z. apply NY. apply in_or_app. auto.
  - subst k. rewrite nth_error_app2, Nat.sub_diag in Z by lia. vm_compute in Z. discriminate.
Qed.

Lemma nth_error_mid : forall A (a : list A) x b, nth_error (a ++ x :: b) (length a) = Some x.
Proof. intros. rewrite nth_error_app2, Nat.sub_diag by lia. reflexivity. Qed.

Lemma nul_after : forall (p y r : bytes),
  nth_error (p ++ x00 :: y ++ x00 :: r) (N.to_nat (len p + 1 + len y)) = Some x00.
Proof.
  intros. replace (p ++ x00 :: y ++ x00 :: r) with ((p ++ x00 :: y) ++ x00 :: r) by (rewrite <- app_assoc; reflexivity).
  replace (N.to_nat (len p + 1 + len y)) with (length (p ++ x00 :: y)).
  - apply nth_error_mid.
  - rewrite app_length. cbn [length]. unfold len. lia.
Qed.

(** C22 *)
Definition clear_at (data : bytes) (offset i : N) : Prop :=
  nth_error data (N.to_nat offset) = Some x00 -> offset <= i.

Lemma loop_shape : forall E fuel data max offset acc l,
  offset < max -> clientinfo_loop E fuel data max offset acc = Ret l ->
  exists st, l = acc ++ map (fun x => to_unicode E (snd x)) st /\ in_order st /\
    Forall (fun '(i, s) => delimited_at data i s /\ is_userinfo s /\ i + 1 < max + 512) st /\
    match st with [] => True | (i, s) :: _ => clear_at data offset i /\ offset < i + 1 + len s end.
Proof.
  intros E fuel. induction fuel as [| fuel IH]; intros data max offset acc l LM H; [discriminate |].
  destruct (N.lt_ge_cases (len data) (offset + 512)) as [S | L].
  { rewrite loop_short in H by exact S. discriminate. }
  destruct (round_cases E fuel data max offset acc L) as [R | [p [y [r [D [U [O1 [O2 [CA R]]]]]]]]]; rewrite R in H.
  { inv H. exists []. rewrite app_nil_r. repeat split; constructor. }
  assert (delimited_at data (len p) y) as DA.
  { exists p, r. split; [| reflexivity]. rewrite D. cbn [app]. rewrite <- app_assoc. reflexivity. }
  destruct (max <=? len p + 1 + len y) eqn:C.
  - inv H. exists [(len p, y)]. split; [reflexivity |]. split; [exact I |].
    split; [constructor; [| constructor]; repeat split; try apply U; auto; lia |]. auto.
  - apply IH in H; [| lia]. destruct H as [st [-> [IO [FA HD]]]].
    exists ((len p, y) :: st). split; [rewrite <- app_assoc; reflexivity |].
    split; [| split; [constructor; [split; [exact DA | split; [exact U | lia]] | exact FA] | auto]].
    destruct st as [| [i s] st]; [exact I |]. split; [| exact IO].
    destruct HD as [HD _]. apply HD. rewrite D at 1. apply nul_after.
Qed.

Lemma loop_fuel : forall E fuel data max offset acc,
  (length data < fuel + N.to_nat offset)%nat -> (1 <= fuel)%nat ->
  clientinfo_loop E fuel data max offset acc <> OutOfFuel.
Proof.
  intros E fuel. induction fuel as [| fuel IH]; intros data max offset acc L F; [lia |].
  destruct (N.lt_ge_cases (len data) (offset + 512)) as [S | G].
  { rewrite loop_short by exact S. discriminate. }
  destruct (round_cases E fuel data max offset acc G) as [R | [p [y [r [D [U [O1 [O2 [CA R]]]]]]]]]; rewrite R.
  { discriminate. }
  destruct (_ <=? _); [discriminate |]. apply IH.
  - lia.
  - assert (len p + 1 + len y < len data) as X by (rewrite D, len_app, len_cons, len_app, len_cons; lia).
    unfold len in *. lia.
Qed.

Lemma loop_ret : forall E fuel data max offset acc,
  (length data < fuel + N.to_nat offset)%nat -> (1 <= fuel)%nat -> offset < max -> max + 511 <= len data ->
  exists l, clientinfo_loop E fuel data max offset acc = Ret l.
Proof.
  intros E fuel. induction fuel as [| fuel IH]; intros data max offset acc L F LM G; [lia |].
  destruct (round_cases E fuel data max offset acc) as [R | [p [y [r [D [U [O1 [O2 [CA R]]]]]]]]]; [lia | |]; rewrite R.
  { eauto. }
  destruct (max <=? len p + 1 + len y) eqn:C; [eauto |]. apply IH; try lia; auto.
  assert (len p + 1 + len y < len data) as X by (rewrite D, len_app, len_cons, len_app, len_cons; lia).
  unfold len in *. lia.
Qed.

(** The only panic is the window overrunning the data. *)
Lemma loop_panic : forall E fuel data max offset acc p,
  clientinfo_loop E fuel data max offset acc = Panic p -> p = PSlice /\ (offset < max -> len data < max + 511).
Proof.
  intros E fuel. induction fuel as [| fuel IH]; intros data max offset acc q H; [discriminate |].
  destruct (N.lt_ge_cases (len data) (offset + 512)) as [S | G].
  { rewrite loop_short in H by exact S. inv H. split; [reflexivity | lia]. }
  destruct (round_cases E fuel data max offset acc G) as [R | [p [y [r [D [U [O1 [O2 [CA R]]]]]]]]]; rewrite R in H.
  { discriminate. }
  destruct (max <=? _) eqn:C; [discriminate |]. apply IH in H. destruct H as [-> H]. split; [reflexivity |].
  intros _. apply H. lia.
Qed.

Lemma clientinfo_strings_shape_proof : forall E data l, clientinfo_strings E data = Ret (Ok l) ->
  exists spawn st, first_at data spawn_mark spawn /\
    l = map (fun x => to_unicode E (snd x)) st /\ in_order st /\
    Forall (fun '(i, s) => delimited_at data i s /\ is_userinfo s /\ i + 1 < spawn + 24 * 512 + 512) st.
Proof.
  intros E data l H. unfold clientinfo_strings in H. destruct (find data CMD_SPAWN) as [spawn |] eqn:F; [| discriminate].
  apply find_some in F. apply bind_ret_inv in H. destruct H as [l' [H R]]. inv R.
  apply loop_shape in H; [| change (MAX_PLAYERS * MAX_LOOKAHEAD) with 12288; lia].
  destruct H as [st [-> [IO [FA _]]]]. exists spawn, st. repeat split; try assumption. apply F. apply F.
Qed.

Lemma clientinfo_strings_missing_proof : forall E data, ~ occurs data spawn_mark <->
  clientinfo_strings E data = Ret (Err "Unable to find clientinfo strings").
Proof.
  intros E data. rewrite <- find_none. unfold clientinfo_strings. change CMD_SPAWN with spawn_mark.
  destruct (find data spawn_mark) as [o |]; split; try congruence.
  intros H. apply bind_ret_inv in H. destruct H as [a [_ H]]. discriminate.
Qed.

Lemma clientinfo_strings_returns_proof : forall E data spawn, first_at data spawn_mark spawn ->
  spawn + 12799 <= len data -> exists l, clientinfo_strings E data = Ret (Ok l).
Proof.
  intros E data spawn F L. unfold clientinfo_strings. change CMD_SPAWN with spawn_mark.
  apply find_some in F. rewrite F.
  destruct (loop_ret E (S (length data)) data (spawn + MAX_PLAYERS * MAX_LOOKAHEAD) spawn []) as [l H].
  1-4: change (MAX_PLAYERS * MAX_LOOKAHEAD) with 12288; lia.
  rewrite H. exists l. reflexivity.
Qed.

Lemma clientinfo_strings_fuel : forall E data, clientinfo_strings E data <> OutOfFuel.
Proof.
  intros E data. unfold clientinfo_strings. destruct (find data CMD_SPAWN) as [o |]; [| discriminate].
  apply bind_fuel; [apply loop_fuel; lia | discriminate].
Qed.

(** C21 *)
Lemma loop_run : forall recs E fuel data max x pre post acc,
  data = pre ++ x ++ run recs post -> ~ In x5c x -> 1 <= len x <= 10 ->
  match recs with [] => True | (g, _) :: _ => exists h, x ++ g = h ++ [x00] end ->
  Forall wf_record recs -> len (pre ++ x ++ run recs []) <= max ->
  ~ occurs (firstn 511 post) name_key -> 511 <= len post ->
  (length data < fuel + length pre)%nat ->
  clientinfo_loop E fuel data max (len pre) acc = Ret (acc ++ map (fun x => to_unicode E (snd x)) recs).
Proof.
  induction recs as [| [g s] recs IH]; intros E fuel data max x pre post acc D NX LX HX W LM NP LP LF.
  - assert (len pre + 512 <= len data) as L by (rewrite D, !len_app; cbn [run]; lia).
    destruct fuel as [| fuel]; [unfold len in L; lia |].
    rewrite loop_stop; [rewrite app_nil_r; reflexivity | exact L |]. left.
    assert (skipn (N.to_nat (len pre)) data = x ++ post) as SK by (rewrite D; apply skipn_len_app).
    rewrite SK. rewrite firstn_app. intros O. apply NP. apply occurs_iff in O. destruct O as [j O].
    rewrite (firstn_all2 x) in O by (unfold len in LX; lia).
    pose proof (occurs_at_not_in x _ x5c (lit "name\") j NX O) as LJ.
    apply occurs_at_right in O; [| exact LJ].
    assert (exists k, (512 - length x = k /\ k <= 511)%nat) as [k [K1 K2]] by (unfold len in LX; eexists; split; [reflexivity | lia]).
    rewrite K1 in O. rewrite <- (firstn_skipn k (firstn 511 post)).
    rewrite firstn_firstn, Nat.min_l by exact K2. apply occurs_app_l. apply occurs_iff. eauto.
  - pose proof (Forall_inv W) as H1. pose proof (Forall_inv_tail W) as H2. destruct H1 as [US [GN [NG [i [FU LU]]]]]. cbn [fst snd] in *. destruct HX as [h HX].
    cbn [run] in *. pose proof US as [NS [LS _]]. pose proof FU as [[u [v [SV LI]]] _]. change name_key with NAME in *. subst i.
    set (rest := run recs post) in *.
    assert (len pre + 512 <= len data) as L.
    { assert (len (run recs post) >= len post) as X.
      { clear. induction recs as [| [g s] recs IH]; cbn [run]; [lia |]. rewrite !len_app, len_cons. lia. }
      fold rest in X. rewrite D, !len_app, len_cons. lia. }
    destruct fuel as [| fuel]; [unfold len in L; lia |].
    assert (data = (pre ++ h) ++ x00 :: u ++ NAME ++ v ++ x00 :: rest) as D2.
    { rewrite D. replace (x ++ g ++ s ++ x00 :: rest) with ((x ++ g) ++ s ++ x00 :: rest) by (rewrite <- app_assoc; reflexivity).
      rewrite HX, SV, <- !app_assoc. reflexivity. }
    assert (len h + 1 = len x + len g) as LH.
    { assert (len (x ++ g) = len (h ++ [x00])) as X by (rewrite HX; reflexivity). rewrite !len_app in X. change (len [x00]) with 1 in X. lia. }
    assert (first_at (skipn (N.to_nat (len pre)) data) NAME (len x + len g + len u)) as FA.
    { assert (skipn (N.to_nat (len pre)) data = x ++ g ++ s ++ x00 :: rest) as SK by (rewrite D; apply skipn_len_app).
      rewrite SK. replace (len x + len g + len u) with (len x + (len g + len u)) by lia.
      apply first_at_skip; [| intros j J; eapply occurs_at_not_in; [exact NX | exact J]].
      apply first_at_skip; [apply first_at_extend; exact FU |].
      intros j J. destruct GN as [-> | [g' ->]]; [rewrite len_nil; lia |].
      rewrite <- app_assoc in J. cbn [app] in J.
      destruct (occurs_at_sep _ _ _ _ _ no_nul_name J) as [X | [X | X]]; [| rewrite len_app; change (len [x00]) with 1; lia | discriminate].
      exfalso. apply NG. apply occurs_iff. exists j. apply occurs_at_app_l. eapply occurs_at_left; [exact J | exact X]. }
    rewrite (loop_found E fuel data max (len pre) acc (pre ++ h) u v rest L D2).
    + rewrite <- SV. replace ((7 <=? len s) && (len s <=? 256)) with true by lia.
      assert (len (pre ++ h) + 1 + len s = len (pre ++ x ++ g ++ s)) as LT by (rewrite !len_app; lia).
      rewrite LT. replace (max <=? len (pre ++ x ++ g ++ s)) with false.
      2: { symmetry. rewrite !len_app, len_cons in LM. rewrite !len_app. lia. }
      rewrite (IH E fuel data max [x00] (pre ++ x ++ g ++ s) post); [rewrite <- app_assoc; reflexivity | | | | | assumption | | assumption | assumption |].
      * rewrite D, <- !app_assoc. reflexivity.
      * intros [X | []]. discriminate.
      * change (len [x00]) with 1. lia.
      * destruct recs as [| [g2 s2] recs]; [exact I |]. destruct (Forall_inv H2) as [_ [GN2 _]]. cbn [fst] in GN2. destruct GN2 as [-> | [g' ->]].
        { exists []. reflexivity. } { exists (x00 :: g'). reflexivity. }
      * rewrite !len_app, len_cons in LM. rewrite !len_app. change (len [x00]) with 1. lia.
      * rewrite !app_length. unfold len in LX. lia.
    + rewrite <- SV. exact NS.
    + rewrite len_app. lia.
    + replace (len (pre ++ h) + 1 + len u - len pre) with (len x + len g + len u) by (rewrite len_app; lia).
      apply first_at_firstn; [exact FA |]. change (len NAME) with 6. lia.
Qed.

Lemma clientinfo_strings_run_proof : forall E pre recs post,
  first_at (pre ++ spawn_mark ++ run recs post) spawn_mark (len pre) ->
  Forall wf_record recs -> (forall g s r, recs = (g, s) :: r -> g <> []) ->
  10 + len (run recs []) <= 12288 ->
  511 <= len post -> ~ occurs (firstn 511 post) name_key ->
  clientinfo_strings E (pre ++ spawn_mark ++ run recs post) = Ret (Ok (map (fun r => to_unicode E (snd r)) recs)).
Proof.
  intros E pre recs post F W G L LP NP. unfold clientinfo_strings. change CMD_SPAWN with spawn_mark.
  apply find_some in F. rewrite F.
  change (MAX_PLAYERS * MAX_LOOKAHEAD) with 12288.
  rewrite (loop_run recs E _ _ (len pre + 12288) spawn_mark pre post []); try assumption.
  - reflexivity.
  - reflexivity.
  - intros H. vm_compute in H. repeat (destruct H as [H | H]; [discriminate |]). exact H.
  - change (len spawn_mark) with 10. lia.
  - destruct recs as [| [g s] r]; [exact I |]. specialize (G g s r eq_refl).
    destruct (Forall_inv W) as [_ [GN _]]. cbn [fst] in GN. destruct GN as [X | [g' ->]]; [contradiction |]. exists (spawn_mark ++ g'). rewrite <- app_assoc. reflexivity.
  - rewrite !len_app. change (len spawn_mark) with 10. lia.
  - lia.
Qed.

(** clients *)
Lemma number_clients_nth : forall l i k, nth_error (number_clients i l) k =
  match nth_error l k with Some x => Some (client_from ((i + N.of_nat k) mod 256) x) | None => None end.
Proof.
  induction l as [| x l IH]; intros i k; destruct k as [| k]; cbn [number_clients nth_error]; try reflexivity.
  - rewrite N.add_0_r. reflexivity.
  - rewrite IH. replace (i + 1 + N.of_nat k) with (i + N.of_nat (S k)) by lia. reflexivity.
Qed.

Lemma number_clients_length : forall l i, length (number_clients i l) = length l.
Proof. induction l as [| x l IH]; intros i; cbn [number_clients length]; auto. Qed.

Lemma clients_inv : forall E data cs, clients E data = Ret (Ok cs) ->
  exists l, clientinfo_strings E data = Ret (Ok l) /\ cs = number_clients 0 (map (clientinfo_from E) l).
Proof.
  intros E data cs H. unfold clients, clientinfo in H.
  destruct (clientinfo_strings E data) as [[l | e] | p |]; cbn [bind] in H; try discriminate.
  exists l. inv H. auto.
Qed.

Lemma clients_of_strings : forall E data l, clientinfo_strings E data = Ret (Ok l) ->
  clients E data = Ret (Ok (number_clients 0 (map (clientinfo_from E) l))).
Proof. intros E data l H. unfold clients, clientinfo. rewrite H. reflexivity. Qed.

Lemma bind_ok_panic : forall A B (m : M (result A)) (f : A -> B), 
  (exists p, bind m (fun r => match r with Ok x => Ret (Ok (f x)) | Err e => Ret (Err e) end) = Panic p) <->
  (exists p, m = Panic p).
Proof. intros A B [[a | e] | p |] f; cbn [bind]; split; intros [q H]; try discriminate; eauto. Qed.

(** C23 *)
Lemma nonzero_set : forall o, nonzero o = true <-> set o.
Proof.
  intros [v |]; unfold nonzero, set.
  - rewrite negb_true_iff, Z.eqb_neq. split; [eauto |]. intros [w [H N]]. inv H. exact N.
  - split; [discriminate |]. intros [w [H _]]. discriminate.
Qed.

Lemma as_u8_low : forall o, low_byte o (as_u8 (unwrap_or o 0%Z)).
Proof.
  intros o. unfold low_byte, as_u8.
  pose proof (Z.mod_pos_bound (unwrap_or o 0%Z) 256 eq_refl). split; [lia |].
  exists (unwrap_or o 0%Z). split; [destruct o; auto | lia].
Qed.

Lemma client_from_describes : forall n i, describes n i (client_from n i).
Proof.
  intros n i. constructor; cbn [client_from c_number c_name c_team c_color c_is_spectator c_is_bot c_auth_username c_auth_cc fst snd];
    try reflexivity; try apply nonzero_set; try apply as_u8_low.
  - destruct (ci_name i); [left | right]; auto.
  - destruct (ci_team i); [left | right]; auto.
Qed.

Lemma clients_numbered_proof : forall E data l, clientinfo_strings E data = Ret (Ok l) ->
  exists cs, clients E data = Ret (Ok cs) /\ length cs = length l /\
    forall k s, nth_error l k = Some s ->
      exists c, nth_error cs k = Some c /\ describes (N.of_nat k mod 256) (clientinfo_from E s) c.
Proof.
  intros E data l H. eexists. split; [apply clients_of_strings; exact H |].
  rewrite number_clients_length, map_length. split; [reflexivity |].
  intros k s K. eexists. rewrite number_clients_nth, nth_error_map, K. cbn [option_map].
  split; [reflexivity |]. apply client_from_describes.
Qed.

Lemma clients_fail_proof : forall E data,
  (forall e, clientinfo_strings E data = Ret (Err e) -> clients E data = Ret (Err e)) /\
  (forall p, clientinfo_strings E data = Panic p -> clients E data = Panic p).
Proof. intros E data. unfold clients, clientinfo. split; intros x ->; reflexivity. Qed.

Lemma splits_filter : forall A (f g : A -> bool) P l,
  (forall x, f x = true <-> P x) -> (forall x, g x = negb (f x)) ->
  splits P l (filter f l) (filter g l).
Proof.
  intros A f g P l HF HG. induction l as [| x l IH]; cbn [filter]; [constructor |].
  rewrite HG. destruct (f x) eqn:F; cbn [negb]; constructor; auto.
  - apply HF. exact F.
  - intros X. apply HF in X. congruence.
Qed.

Lemma players_spectators_proof : forall E data cs, clients E data = Ret (Ok cs) ->
  exists ps ss, player_clients E data = Ret (Ok ps) /\ spectator_clients E data = Ret (Ok ss) /\
    splits (fun c => c_is_spectator c = true) cs ss ps.
Proof.
  intros E data cs H. unfold player_clients, spectator_clients. rewrite H. cbn [bind].
  do 2 eexists. split; [reflexivity |]. split; [reflexivity |].
  apply splits_filter; [reflexivity | reflexivity].
Qed.

Lemma splits_perm : forall A (P : A -> Prop) l a b, splits P l a b -> Permutation l (a ++ b).
Proof.
  intros A P l a b H. induction H; [constructor | constructor; assumption |].
  apply Permutation_cons_app. exact IHsplits.
Qed.

(** C24 *)
Lemma names_proof : forall E data ps ss, (forall l, Permutation (unicode_sort E l) l) ->
  player_clients E data = Ret (Ok ps) -> spectator_clients E data = Ret (Ok ss) ->
  exists pn sn, player_names E data = Ret (Ok pn) /\ Permutation pn (map c_name ps) /\
                spectator_names E data = Ret (Ok sn) /\ Permutation sn (map c_name ss).
Proof.
  intros E data ps ss HS P S. unfold player_names, spectator_names. rewrite P, S. cbn [bind].
  do 2 eexists. repeat split; apply HS.
Qed.

Lemma dedup_from_in : forall l prev x, In x (dedup_from beq prev l) -> In x l.
Proof.
  induction l as [| y l IH]; intros prev x; cbn [dedup_from]; [auto |].
  destruct (beq y prev); [| intros [-> | H]]; cbn [In]; eauto.
Qed.

Lemma in_dedup_from : forall l prev x, In x l -> x = prev \/ In x (dedup_from beq prev l).
Proof.
  induction l as [| y l IH]; intros prev x; cbn [dedup_from In]; [tauto |].
  destruct (beq y prev) eqn:B.
  - apply beq_eq in B. subst y. intros [-> | H]; [auto | apply IH; exact H].
  - intros [-> | H]; [right; left; reflexivity |]. destruct (IH y x H) as [-> | K]; right; [left; reflexivity | right; exact K].
Qed.

Lemma dedup_in : forall l x, In x (dedup beq l) <-> In x l.
Proof.
  intros [| y l] x; cbn [dedup In]; [reflexivity |]. split; intros [-> | H]; auto.
  - right. eapply dedup_from_in. exact H.
  - destruct (in_dedup_from l y x H); subst; auto.
Qed.

Definition grouped (l : list str) : Prop := forall a x b c,
  l = a ++ x :: b ++ x :: c -> forall y, In y b -> y = x.

Lemma grouped_tail : forall x l, grouped (x :: l) -> grouped l.
Proof. intros x l G a y b c H. apply (G (x :: a) y b c). rewrite H. reflexivity. Qed.

Lemma dedup_from_nodup : forall l prev, grouped (prev :: l) ->
  ~ In prev (dedup_from beq prev l) /\ NoDup (dedup_from beq prev l).
Proof.
  induction l as [| y l IH]; intros prev G; cbn [dedup_from]; [split; [auto | constructor] |].
  destruct (beq y prev) eqn:B.
  - apply beq_eq in B. subst y. apply IH. eapply grouped_tail. exact G.
  - apply beq_neq in B. destruct (IH y (grouped_tail _ _ G)) as [A D]. split.
    + intros [X | X]; [contradiction |]. apply dedup_from_in in X. apply in_split in X.
      destruct X as [u [v ->]]. apply B. apply (G [] prev (y :: u) v); [reflexivity | left; reflexivity].
    + constructor; assumption.
Qed.

Lemma dedup_nodup : forall l, grouped l -> NoDup (dedup beq l).
Proof.
  intros [| x l] G; cbn [dedup]; [constructor |]. destruct (dedup_from_nodup l x G). constructor; assumption.
Qed.

Lemma team_names_proof : forall E data ps, (forall l, Permutation (unicode_sort E l) l) ->
  player_clients E data = Ret (Ok ps) ->
  exists ts, team_names E data = Ret (Ok ts) /\
    (forall t, In t ts <-> exists p, In p ps /\ c_team p = t) /\
    (groups_equals (unicode_sort E) -> NoDup ts).
Proof.
  intros E data ps HS P. unfold team_names. rewrite P. cbn [bind]. eexists. split; [reflexivity |]. split.
  - intros t. rewrite dedup_in. split.
    + intros H. apply (Permutation_in _ (HS _)) in H. apply in_map_iff in H. destruct H as [p [A B]]. eauto.
    + intros [p [A B]]. apply (Permutation_in _ (Permutation_sym (HS _))). apply in_map_iff. eauto.
  - intros G. apply dedup_nodup. intros a x b c. apply G.
Qed.

(** C25 *)
Lemma humans_proof : forall E data ps, player_clients E data = Ret (Ok ps) ->
  exists b, has_human_players E data = Ret (Ok b) /\ (b = true <-> exists p, In p ps /\ c_is_bot p = false).
Proof.
  intros E data ps P. unfold has_human_players. rewrite P. cbn [bind]. eexists. split; [reflexivity |].
  rewrite existsb_exists. split; intros [p [A B]]; exists p; split; auto; apply negb_true_iff; auto.
Qed.

Lemma bots_proof : forall E data ps, player_clients E data = Ret (Ok ps) ->
  exists b, has_bot_players E data = Ret (Ok b) /\
    (b = true <-> (exists p, In p ps /\ c_is_bot p = true) \/ occurs data (lit """bot"": {")).
Proof.
  intros E data ps P. unfold has_bot_players. rewrite P. cbn [bind].
  destruct (existsb c_is_bot ps) eqn:X.
  - exists true. split; [reflexivity |]. split; [| reflexivity]. intros _. left. apply existsb_exists. exact X.
  - eexists. split; [reflexivity |]. rewrite is_some_rfind. split; [auto |]. intros [H | H]; [| exact H].
    apply existsb_exists in H. congruence.
Qed.

Lemma humans_or_bots_proof : forall E data p ps, player_clients E data = Ret (Ok (p :: ps)) ->
  has_human_players E data = Ret (Ok true) \/ has_bot_players E data = Ret (Ok true).
Proof.
  intros E data p ps P. destruct (humans_proof _ _ _ P) as [h [H1 H2]]. destruct (bots_proof _ _ _ P) as [b [B1 B2]].
  destruct (c_is_bot p) eqn:C.
  - right. rewrite B1. do 2 f_equal. apply B2. left. exists p. split; [left; reflexivity | exact C].
  - left. rewrite H1. do 2 f_equal. apply H2. exists p. split; [left; reflexivity | exact C].
Qed.
