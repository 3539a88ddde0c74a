(** Facts about time zones, match dates and time stamps. *)
From Coq Require Import Lia ZifyN ZifyNat ZifyBool.
From Verif.Model Require Import Base Env Serverinfo Timezone Matchdate.
From Verif.Spec Require Import Occ Mvd Texts Utf8 Dates.
From Verif.Proofs Require Import BaseFacts FrameFacts ObituaryFacts Utf8Facts TextFacts.
Open Scope N_scope.
Local Arguments Z.mul : simpl never.
Local Arguments Z.add : simpl never.
Local Arguments Z.opp : simpl never.
Local Arguments is_cont : simpl never.

(** ** Bounded quantifiers by computation *)
Definition upto (n : nat) : list N := map N.of_nat (seq 0 n).
Lemma in_upto : forall n k, k < N.of_nat n -> In k (upto n).
Proof. intros n k H. apply in_map_iff. exists (N.to_nat k). rewrite in_seq. lia. Qed.

Definition opt_is (r : M (option str)) (o : str) : bool :=
  match r with Ret (Some x) => beq x o | _ => false end.
Lemma opt_is_true : forall r o, opt_is r o = true -> r = Ret (Some o).
Proof. intros [[x |] | |] o H; try discriminate. apply beq_eq in H. subst. reflexivity. Qed.

(** ** Named zones *)
Definition string_in (a : string) (l : list string) : bool := existsb (fun b => beq (lit a) (lit b)) l.
Definition minus_for (a : string) : bytes := if string_in a long_minus then encode_char 0x2212 else lit "-".

Lemma named_check : forallb (fun '(a, min) => opt_is (utc_offset (lit a)) (offset_text (minus_for a) min)) zones = true.
Proof. vm_compute. reflexivity. Qed.

Lemma minus_of_for : forall a minus, minus_of (lit a) minus <-> minus = minus_for a.
Proof.
  intros a minus. unfold minus_of, minus_for.
  assert (string_in a long_minus = true <-> exists b, In b long_minus /\ lit a = lit b) as Q.
  { unfold string_in. rewrite existsb_exists. split; intros [b [I B]]; exists b; (split; [exact I |]);
      [apply beq_eq; exact B | apply beq_eq; exact B]. }
  destruct (string_in a long_minus).
  - split; [intros [[_ ->] | [N _]]; [reflexivity | exfalso; apply N, Q; reflexivity] |].
    intros ->. left. split; [apply Q; reflexivity | reflexivity].
  - split; [intros [[X _] | [_ ->]]; [apply Q in X; discriminate | reflexivity] |].
    intros ->. right. split; [intros X; apply Q in X; discriminate | reflexivity].
Qed.

Lemma named_offset_proof : forall z min minus, named_zone z min -> minus_of z minus ->
  utc_offset z = Ret (Some (offset_text minus min)).
Proof.
  intros z min minus [a [I ->]] M. apply minus_of_for in M. subst minus.
  pose proof named_check as C. rewrite forallb_forall in C. apply (opt_is_true _ _ (C (a, min) I)).
Qed.

(** ** Numeric zones *)
Definition numeric_check_one (neg : bool) (h m : N) : bool :=
  (1200 <? 100 * h + m) ||
  let sign := if neg then lit "-" else lit "+" in
  let min := (if neg then - Z.of_N (60 * h + m) else Z.of_N (60 * h + m))%Z in
  let o := sign ++ two_digits (Z.abs_N min / 60) ++ lit ":" ++ two_digits (Z.abs_N min mod 60) in
  opt_is (utc_offset (sign ++ two_digits h ++ two_digits m)) o &&
  opt_is (utc_offset (sign ++ two_digits h ++ lit ":" ++ two_digits m)) o &&
  (negb (m =? 0) || opt_is (utc_offset (sign ++ two_digits h)) o).

Lemma numeric_check : forallb (fun neg => forallb (fun h => forallb (fun m => numeric_check_one neg h m) (upto 60)) (upto 13)) [true; false] = true.
Proof. vm_compute. reflexivity. Qed.

(** The offset of a numeric zone keeps its sign, also for zero. *)
Lemma numeric_offset_signed : forall z min, numeric_zone z min ->
  exists sign, (sign = lit "+" \/ sign = lit "-") /\ (min < 0 -> sign = lit "-")%Z /\ (0 < min -> sign = lit "+")%Z /\
  (exists r, z = sign ++ r) /\
  utc_offset z = Ret (Some (sign ++ two_digits (Z.abs_N min / 60) ++ lit ":" ++ two_digits (Z.abs_N min mod 60))).
Proof.
  intros z min [neg [h [m [B [M [-> Z]]]]]].
  pose proof numeric_check as C. rewrite forallb_forall in C.
  specialize (C neg). assert (In neg [true; false]) as I by (destruct neg; simpl; auto). specialize (C I).
  rewrite forallb_forall in C. specialize (C h (in_upto 13 h ltac:(lia))).
  rewrite forallb_forall in C. specialize (C m (in_upto 60 m ltac:(lia))).
  unfold numeric_check_one in C. apply orb_true_iff in C. destruct C as [C | C]; [lia |].
  cbv zeta in *. apply andb_true_iff in C. destruct C as [C C3]. apply andb_true_iff in C. destruct C as [C1 C2].
  exists (if neg then lit "-" else lit "+").
  split; [destruct neg; auto |]. split; [destruct neg; [reflexivity | lia] |].
  split; [destruct neg; [lia | reflexivity] |].
  destruct Z as [-> | [-> | [-> ->]]].
  - split; [eauto |]. apply opt_is_true. exact C1.
  - split; [eauto |]. apply opt_is_true. exact C2.
  - split; [eauto |]. apply opt_is_true. exact C3.
Qed.

(** ** All texts *)
Lemma by_abbr_some : forall z o, utc_offset_by_abbr z = Some o -> exists a min, In (a, min) zones /\ z = lit a.
Proof.
  intros z o H. unfold utc_offset_by_abbr in H. apply find_map_some in H.
  destruct H as [l1 [[a x] [l2 [T [B _]]]]]. destruct (beq a z) eqn:Q; [| discriminate]. apply beq_eq in Q. subst a.
  assert (forallb (fun '(a, _) => existsb (fun '(n, _) => beq (lit n) a) zones) UTC_OFFSET_BY_ABBR = true) as C
    by (vm_compute; reflexivity).
  rewrite forallb_forall in C. specialize (C (z, x)). rewrite T in C.
  assert (existsb (fun '(n, _) => beq (lit n) z) zones = true) as X by (apply C, in_or_app; right; left; reflexivity).
  apply existsb_exists in X. destruct X as [[n min] [I X]]. apply beq_eq in X. exists n, min. auto.
Qed.

Lemma by_abbr_sign : forall sign t, sign = x2b \/ sign = x2d -> utc_offset_by_abbr (sign :: t) = None.
Proof.
  intros sign t S. destruct (utc_offset_by_abbr (sign :: t)) as [o |] eqn:H; [| reflexivity]. exfalso.
  apply by_abbr_some in H. destruct H as [a [min [I L]]].
  assert (forallb (fun '(a, _) => match lit a with b :: _ => negb (Byte.eqb b x2b || Byte.eqb b x2d) | [] => true end) zones = true) as C
    by (vm_compute; reflexivity).
  rewrite forallb_forall in C. specialize (C _ I). cbn beta iota in C. rewrite <- L in C.
  destruct S as [-> | ->]; discriminate C.
Qed.

Lemma digit_byte : forall b, in_range b 0x30 0x39 = true -> exists d, d < 10 /\ b = char_of d /\ n_of b = 48 + d.
Proof.
  intros b H. unfold in_range in H. exists (n_of b - 48). unfold char_of.
  replace (48 + (n_of b - 48)) with (n_of b) by lia. rewrite byte_of_n_of. repeat split; lia.
Qed.
Lemma char_of_range : forall d, d < 10 -> in_range (char_of d) 0x30 0x39 = true /\ n_of (char_of d) = 48 + d.
Proof. intros d H. unfold in_range, char_of. rewrite n_of_small by lia. lia. Qed.

Lemma all_digits_cons : forall d s v, d < 10 -> all_digits (char_of d :: s) v = all_digits s (10 * v + Z.of_N d)%Z.
Proof.
  intros d s v H. cbn [all_digits]. destruct (char_of_range d H) as [-> ->]. f_equal. lia.
Qed.
Lemma all_digits_some : forall b s v r, all_digits (b :: s) v = Some r -> exists d, d < 10 /\ b = char_of d /\ all_digits s (10 * v + Z.of_N d)%Z = Some r.
Proof.
  intros b s v r H. cbn [all_digits] in H. destruct (in_range b 0x30 0x39) eqn:R; [| discriminate].
  destruct (digit_byte b R) as [d [D [-> N]]]. exists d. split; [exact D |]. split; [reflexivity |].
  rewrite N in H. rewrite <- H. f_equal. lia.
Qed.

Lemma char_of_sign : forall d, d < 10 -> Byte.eqb (char_of d) x2b = false /\ Byte.eqb (char_of d) x2d = false.
Proof.
  intros d H. assert (forallb (fun d => negb (Byte.eqb (char_of d) x2b) && negb (Byte.eqb (char_of d) x2d)) (upto 10) = true) as C
    by (vm_compute; reflexivity).
  rewrite forallb_forall in C. specialize (C d (in_upto 10 d ltac:(lia))).
  destruct (Byte.eqb (char_of d) x2b), (Byte.eqb (char_of d) x2d); auto; discriminate.
Qed.

Lemma four_digits_of : forall a b c d, a < 10 -> b < 10 -> c < 10 -> d < 10 ->
  four_digits (1000 * a + 100 * b + 10 * c + d) = [char_of a; char_of b; char_of c; char_of d].
Proof.
  intros a b c d A B C D. unfold four_digits. repeat f_equal; lia.
Qed.

Lemma parse_four : forall a b c d,
  (exists n, parse_i32 [a; b; c; d] = Some n /\ (0 <= n <= 1200)%Z) <->
  ((exists n, n <= 1200 /\ [a; b; c; d] = four_digits n) \/
   (a = x2b /\ is_digit b /\ is_digit c /\ is_digit d) \/
   [a; b; c; d] = lit "-000").
Proof.
  intros a b c d. split.
  - intros [n [P R]]. unfold parse_i32 in P. cbn [is_empty] in P.
    destruct (Byte.eqb a x2b) eqn:A1.
    { apply byte_eqb_true in A1. subst a. right. left.
      destruct (all_digits [b; c; d] 0) as [v |] eqn:V; [| discriminate].
      apply all_digits_some in V. destruct V as [x [X [-> V]]].
      apply all_digits_some in V. destruct V as [y [Y [-> V]]].
      apply all_digits_some in V. destruct V as [w [W [-> V]]]. unfold is_digit. eauto 10. }
    destruct (Byte.eqb a x2d) eqn:A2.
    { apply byte_eqb_true in A2. subst a. right. right.
      destruct (all_digits [b; c; d] 0) as [v |] eqn:V; [| discriminate].
      apply all_digits_some in V. destruct V as [x [X [-> V]]].
      apply all_digits_some in V. destruct V as [y [Y [-> V]]].
      apply all_digits_some in V. destruct V as [w [W [-> V]]]. cbn [all_digits] in V. injection V as <-.
      match type of P with (if ?c then _ else _) = _ => destruct c; [| discriminate] end. injection P as <-.
      assert (x = 0 /\ y = 0 /\ w = 0) as [-> [-> ->]] by lia. reflexivity. }
    destruct (all_digits [a; b; c; d] 0) as [v |] eqn:V; [| discriminate].
    apply all_digits_some in V. destruct V as [u [U [-> V]]].
    apply all_digits_some in V. destruct V as [x [X [-> V]]].
    apply all_digits_some in V. destruct V as [y [Y [-> V]]].
    apply all_digits_some in V. destruct V as [w [W [-> V]]]. cbn [all_digits] in V. injection V as <-.
    match type of P with (if ?c then _ else _) = _ => destruct c; [| discriminate] end. injection P as <-.
    left. exists (1000 * u + 100 * x + 10 * y + w). split; [lia |]. rewrite four_digits_of by assumption. reflexivity.
  - intros [[n [B Q]] | [[-> [[x [X ->]] [[y [Y ->]] [w [W ->]]]]] | Q]].
    + unfold four_digits in Q. injection Q as -> -> -> ->. exists (Z.of_N n). split; [| lia].
      unfold parse_i32. cbn [is_empty].
      destruct (char_of_sign (n / 1000 mod 10)) as [-> ->]; [lia |].
      rewrite !all_digits_cons by lia. cbn [all_digits].
      match goal with |- (if ?c then Some ?v else _) = _ => assert (v = Z.of_N n) as -> by lia end.
      replace ((-2147483648 <=? Z.of_N n) && (Z.of_N n <=? 2147483647))%Z with true by lia. reflexivity.
    + eexists. unfold parse_i32. change (Byte.eqb x2b x2b) with true. cbn [is_empty]. cbn iota.
      rewrite !all_digits_cons by assumption. cbn [all_digits].
      match goal with |- (if ?c then Some ?v else _) = _ /\ _ => assert (0 <= v <= 999)%Z by lia; replace c with true by lia end.
      split; [reflexivity | lia].
    + injection Q as -> -> -> ->. exists 0%Z. split; [reflexivity | lia].
Qed.

Lemma char_count_ascii : forall s, Forall (fun b => is_cont b = false) s -> char_count s = len s.
Proof.
  intros s F. unfold char_count. f_equal. induction F as [| b s B F IH]; [reflexivity |].
  cbn [filter]. rewrite B. cbn [negb]. rewrite IH. reflexivity.
Qed.

Lemma four_not_cont : forall a b c d,
  ((exists n, n <= 1200 /\ [a; b; c; d] = four_digits n) \/
   (a = x2b /\ is_digit b /\ is_digit c /\ is_digit d) \/
   [a; b; c; d] = lit "-000") -> Forall (fun b => is_cont b = false) [a; b; c; d].
Proof.
  intros a b c d H.
  assert (forall d, d < 10 -> is_cont (char_of d) = false) as G.
  { intros x X. unfold is_cont, in_range, char_of. rewrite n_of_small by lia. lia. }
  destruct H as [[n [B Q]] | [[-> [[x [X ->]] [[y [Y ->]] [w [W ->]]]]] | Q]].
  - injection Q as -> -> -> ->. repeat constructor; apply G; lia.
  - repeat constructor; apply G; assumption.
  - injection Q as -> -> -> ->. repeat constructor.
Qed.

Lemma pad4_four : forall s a b c d, Forall (fun b => is_cont b = false) [a; b; c; d] ->
  (exists zeros, s ++ repeat x30 zeros = [a; b; c; d]) -> pad4 s = [a; b; c; d].
Proof.
  intros s a b c d F [zeros Q]. unfold pad4.
  assert (Forall (fun b => is_cont b = false) s) as Fs by (rewrite <- Q in F; apply Forall_app in F; apply F).
  rewrite char_count_ascii by exact Fs.
  assert (length (s ++ repeat x30 zeros) = 4)%nat as L by (rewrite Q; reflexivity).
  rewrite app_length, repeat_length in L. rewrite <- Q. do 2 f_equal. unfold len. lia.
Qed.

Lemma slices_four : forall a b c d, Forall (fun b => is_cont b = false) [a; b; c; d] ->
  str_slice [a; b; c; d] 0 2 = Ret [a; b] /\ str_slice [a; b; c; d] 2 4 = Ret [c; d].
Proof.
  intros a b c d F. rewrite Forall_forall in F.
  assert (is_cont a = false) as A by (apply F; simpl; auto). assert (is_cont c = false) as C by (apply F; simpl; auto).
  unfold str_slice, is_char_boundary. change (N.to_nat 2) with 2%nat. change (N.to_nat 0) with 0%nat.
  cbn [nth_error]. rewrite A, C. split; reflexivity.
Qed.

Lemma by_offset_exact : forall sign t o, sign = x2b \/ sign = x2d ->
  utc_offset_by_offset (sign :: t) = Ret (Some o) <-> offset_reads (sign :: t) o.
Proof.
  intros sign t o S. unfold utc_offset_by_offset.
  replace (Byte.eqb sign x2b || Byte.eqb sign x2d) with true by (destruct S as [-> | ->]; reflexivity).
  set (u := filter (fun b => negb (Byte.eqb b x3a)) t). split.
  - destruct (len (pad4 u) =? 4) eqn:L; cbn [negb]; [| discriminate].
    destruct (pad4 u) as [| a [| b [| c [| d [| e l]]]]] eqn:P; try (rewrite ?len_cons, ?len_nil in L; lia).
    intros H. assert (exists n, parse_i32 [a; b; c; d] = Some n /\ (0 <= n <= 1200)%Z) as N.
    { destruct (parse_i32 [a; b; c; d]) as [n |]; [| discriminate]. exists n. split; [reflexivity |].
      destruct ((0 <=? n) && (n <=? 1200))%Z eqn:R; [lia | discriminate]. }
    pose proof N as N'. apply parse_four in N. pose proof (four_not_cont _ _ _ _ N) as F.
    destruct N' as [n [PN R]]. rewrite PN in H. replace ((0 <=? n) && (n <=? 1200))%Z with true in H by lia.
    assert (str_slice [a; b; c; d] 0 2 = Ret [a; b] /\ str_slice [a; b; c; d] 2 4 = Ret [c; d]) as [S1 S2].
    { apply slices_four. exact F. }
    rewrite S1, S2 in H. cbn [bind] in H. injection H as <-.
    exists sign, t, (4 - N.to_nat (char_count u))%nat, a, b, c, d.
    split; [exact S |]. split; [reflexivity |]. split; [exact P |]. split; [reflexivity | exact N].
  - intros [sign' [t' [zeros [a [b [c [d [_ [Q [P [-> N]]]]]]]]]]]. injection Q as <- <-.
    pose proof (four_not_cont _ _ _ _ N) as F.
    rewrite (pad4_four u a b c d F) by (exists zeros; exact P).
    change (len [a; b; c; d] =? 4) with true. cbn [negb].
    apply parse_four in N. destruct N as [n [-> R]]. replace ((0 <=? n) && (n <=? 1200))%Z with true by lia.
    destruct (slices_four a b c d F) as [-> ->]. reflexivity.
Qed.

Lemma by_offset_total : forall z, exists o, utc_offset_by_offset z = Ret o.
Proof.
  intros [| sign t]; [eexists; reflexivity |]. unfold utc_offset_by_offset.
  destruct (Byte.eqb sign x2b || Byte.eqb sign x2d); [| eexists; reflexivity].
  set (u := filter (fun b => negb (Byte.eqb b x3a)) t).
  destruct (len (pad4 u) =? 4) eqn:L; cbn [negb]; [| eexists; reflexivity].
  destruct (pad4 u) as [| a [| b [| c [| d [| e l]]]]] eqn:P; try (rewrite ?len_cons, ?len_nil in L; lia).
  destruct (parse_i32 [a; b; c; d]) as [n |] eqn:PN; [| eexists; reflexivity].
  destruct ((0 <=? n) && (n <=? 1200))%Z eqn:R; [| eexists; reflexivity].
  assert (Forall (fun b => is_cont b = false) [a; b; c; d]) as F.
  { apply four_not_cont, parse_four. exists n. split; [exact PN | lia]. }
  destruct (slices_four a b c d F) as [-> ->]. eexists. reflexivity.
Qed.

Lemma by_offset_other : forall z, (forall sign t, sign = x2b \/ sign = x2d -> z <> sign :: t) ->
  utc_offset_by_offset z = Ret None.
Proof.
  intros [| b t] H; [reflexivity |]. unfold utc_offset_by_offset.
  destruct (Byte.eqb b x2b) eqn:A; [apply byte_eqb_true in A; exfalso; apply (H b t); auto |].
  destruct (Byte.eqb b x2d) eqn:B; [apply byte_eqb_true in B; exfalso; apply (H b t); auto |]. reflexivity.
Qed.

Lemma utc_offset_total_proof : forall z, exists o, utc_offset z = Ret o.
Proof. intros z. unfold utc_offset. destruct (utc_offset_by_abbr z); [eauto | apply by_offset_total]. Qed.

Lemma utc_offset_exact_proof : forall z o, utc_offset z = Ret (Some o) <->
  (exists min minus, named_zone z min /\ minus_of z minus /\ o = offset_text minus min) \/ offset_reads z o.
Proof.
  intros z o. split.
  - unfold utc_offset at 1. destruct (utc_offset_by_abbr z) as [x |] eqn:A.
    + intros H. injection H as <-. left. pose proof A as A'. apply by_abbr_some in A. destruct A as [a [min [I ->]]].
      exists min, (minus_for a). assert (minus_of (lit a) (minus_for a)) as M by (apply minus_of_for; reflexivity).
      split; [exists a; auto |]. split; [exact M |].
      assert (utc_offset (lit a) = Ret (Some (offset_text (minus_for a) min))) as U
        by (apply named_offset_proof; [exists a; auto | exact M]).
      unfold utc_offset in U. rewrite A' in U. injection U as U. exact U.
    + intros H. right. destruct z as [| sign t]; [discriminate |].
      assert (sign = x2b \/ sign = x2d) as S.
      { destruct (Byte.eqb sign x2b) eqn:X; [apply byte_eqb_true in X; auto |].
        destruct (Byte.eqb sign x2d) eqn:Y; [apply byte_eqb_true in Y; auto |].
        unfold utc_offset_by_offset in H. rewrite X, Y in H. discriminate. }
      apply by_offset_exact; assumption.
  - intros [[min [minus [N [M ->]]]] | R]; [apply named_offset_proof; assumption |].
    pose proof R as [sign [t [_ [_ [_ [_ [_ [S [-> _]]]]]]]]].
    unfold utc_offset. rewrite by_abbr_sign by exact S. apply by_offset_exact; assumption.
Qed.

(** ** matchdate_string() *)
Lemma matchdate_mark_needle : MATCHDATE_NEEDLE = matchdate_mark.
Proof. reflexivity. Qed.

Lemma matchdate_string_cases : forall data,
  (exists text, has_matchdate data text /\ matchdate_string data = Ret (Ok text)) \/
  ((forall text, ~ has_matchdate data text) /\ exists m, matchdate_string data = Ret (Err m)).
Proof.
  intros data. unfold matchdate_string. rewrite matchdate_mark_needle.
  destruct (find data matchdate_mark) as [i |] eqn:F.
  2: { right. split; [| eauto]. intros text [[from [x [z [-> _]]]] _]. apply find_none in F. apply F. exists x, (text ++ [x0a] ++ z). reflexivity. }
  apply find_some in F. pose proof F as F0. destruct F as [[x [r [D <-]]] F].
  assert (slice_from data (len x + len matchdate_mark) = Ret r) as -> by (rewrite D; apply slice_from_mid).
  cbn [bind]. unfold find_byte.
  destruct (find r [x0a]) as [j |] eqn:G.
  2: { right. split; [| eauto]. intros text [[from [x' [z [D' [_ [F' G']]]]]] _].
       pose proof (first_at_unique _ _ _ _ F0 F') as L. pose proof (eq_trans (eq_sym D) D') as D''. clear D'. rename D'' into D'.
       apply app_inj_len in D'; [| exact L]. destruct D' as [_ D']. apply app_inv_head in D'. subst r.
       apply find_none in G. apply G. exists text, z. reflexivity. }
  apply find_some in G. pose proof G as G0. destruct G as [[y [z [R <-]]] G].
  replace (len y + (len x + len matchdate_mark) - (len x + len matchdate_mark)) with (len y) by lia.
  assert (S : stands_between data matchdate_mark [x0a] y (len x + len matchdate_mark)).
  { exists x, z. subst r. rewrite len_app. repeat split; auto; try apply F0; apply G0. }
  assert (U : forall text, has_matchdate data text -> text = y).
  { intros text [[from T] _]. apply (stands_between_unique _ _ _ _ _ _ _ T S). }
  unfold MD_MIN_LEN, MD_MAX_LEN. destruct ((22 <=? len y) && (len y <=? 25)) eqn:L.
  - assert (slice data (len x + len matchdate_mark) (len y + (len x + len matchdate_mark)) = Ret y) as ->.
    { rewrite D, R. rewrite (app_assoc x). replace (len y + (len x + len matchdate_mark)) with (len (x ++ matchdate_mark) + len y) by (rewrite len_app; lia).
      rewrite <- len_app. apply slice_app. }
    cbn [bind]. destruct (utf8_valid y) eqn:V.
    + left. exists y. split; [| reflexivity]. split; [eauto |]. split; [lia |]. apply utf8_valid_iff. exact V.
    + right. split; [| eauto]. intros text T. pose proof T as [_ [_ T2]]. rewrite (U text T) in T2.
      apply utf8_valid_iff in T2. congruence.
  - right. split; [| eauto]. intros text T. pose proof T as [_ [T2 _]]. rewrite (U text T) in T2. lia.
Qed.

Lemma has_matchdate_unique : forall data a b, has_matchdate data a -> has_matchdate data b -> a = b.
Proof. intros data a b [[i A] _] [[j B] _]. eapply stands_between_unique; eauto. Qed.

Lemma matchdate_string_ok_proof : forall data text, matchdate_string data = Ret (Ok text) <-> has_matchdate data text.
Proof.
  intros data text. destruct (matchdate_string_cases data) as [[t [T ->]] | [N [m ->]]].
  - split; [intros H; injection H as <-; exact T | intros H; rewrite (has_matchdate_unique _ _ _ T H); reflexivity].
  - split; [discriminate | intros H; exfalso; apply (N text H)].
Qed.

Lemma matchdate_string_err_proof : forall data, (exists m, matchdate_string data = Ret (Err m)) <-> forall text, ~ has_matchdate data text.
Proof.
  intros data. destruct (matchdate_string_cases data) as [[t [T ->]] | [N [m ->]]].
  - split; [intros [m H]; discriminate | intros H; exfalso; apply (H t T)].
  - split; [auto | eauto].
Qed.

(** ** matchdate() *)
Lemma matchdate_cases_proof : forall E data,
  ((forall text, ~ has_matchdate data text) -> exists m, matchdate E data = Ret (Err m)) /\
  (forall text, has_matchdate data text ->
     (inside_char text 20 -> matchdate E data = Panic PCharBoundary) /\
     (~ inside_char text 20 -> forall z, z = skipn 20 text ->
        (utc_offset z = Ret None -> exists m, matchdate E data = Ret (Err m)) /\
        (forall o, utc_offset z = Ret (Some o) ->
           (inside_char text 19 -> matchdate E data = Panic PCharBoundary) /\
           (~ inside_char text 19 -> matchdate E data = Ret (parse_datetime E (firstn 19 text ++ o)))))).
Proof.
  intros E data. split.
  - intros N. apply matchdate_string_err_proof in N. destruct N as [m N]. exists m. unfold matchdate. rewrite N. reflexivity.
  - intros text T. pose proof T as [_ [L V]]. apply matchdate_string_ok_proof in T. unfold matchdate. rewrite T. cbn [bind].
    unfold replace_tz_abbr_with_offset. change (DATETIME_LEN + 1) with 20. unfold DATETIME_LEN, str_from, str_to.
    replace (20 <=? len text) with true by lia. replace (19 <=? len text) with true by lia. cbn [andb].
    pose proof (is_char_boundary_iff text 20 V ltac:(lia)) as B20. pose proof (is_char_boundary_iff text 19 V ltac:(lia)) as B19.
    change (N.to_nat 20) with 20%nat. change (N.to_nat 19) with 19%nat. split.
    + intros I. apply B20 in I. rewrite I. reflexivity.
    + intros N z ->. destruct (is_char_boundary text 20); [| exfalso; apply N, B20; reflexivity]. cbn [bind]. split.
      * intros ->. eexists. reflexivity.
      * intros o ->. cbn [bind]. split.
        -- intros I. apply B19 in I. rewrite I. reflexivity.
        -- intros NI. destruct (is_char_boundary text 19); [| exfalso; apply NI, B19; reflexivity]. reflexivity.
Qed.

Lemma inside_dec : forall text i, utf8_text text -> i <= len text -> inside_char text i \/ ~ inside_char text i.
Proof.
  intros text i V L. pose proof (is_char_boundary_iff text i V L) as B.
  destruct (is_char_boundary text i); [right; intros I; apply B in I; discriminate | left; apply B; reflexivity].
Qed.

Lemma matchdate_panics_proof : forall E data,
  (exists p, matchdate E data = Panic p) <->
  exists text, has_matchdate data text /\
    (inside_char text 20 \/ (inside_char text 19 /\ exists o, utc_offset (skipn 20 text) = Ret (Some o))).
Proof.
  intros E data. destruct (matchdate_cases_proof E data) as [C0 C1]. split.
  - intros [p P]. destruct (matchdate_string_cases data) as [[text [T _]] | [N _]].
    + exists text. split; [exact T |]. destruct (C1 text T) as [_ C2]. pose proof T as [_ [L V]].
      destruct (inside_dec text 20 V ltac:(lia)) as [I | NI]; [left; exact I | right].
      destruct (C2 NI _ eq_refl) as [C3 C4].
      destruct (utc_offset_total_proof (skipn 20 text)) as [[o |] U].
      * destruct (C4 o U) as [_ C5]. destruct (inside_dec text 19 V ltac:(lia)) as [I | NI']; [eauto |].
        rewrite (C5 NI') in P. discriminate.
      * destruct (C3 U) as [m M]. rewrite M in P. discriminate.
    + destruct (C0 N) as [m M]. rewrite M in P. discriminate.
  - intros [text [T H]]. exists PCharBoundary. destruct (C1 text T) as [C2 C3]. pose proof T as [_ [L V]].
    destruct (inside_dec text 20 V ltac:(lia)) as [I | NI]; [auto |].
    destruct H as [H | [H [o U]]]; [contradiction |].
    destruct (C3 NI _ eq_refl) as [_ C4]. destruct (C4 o U) as [C5 _]. auto.
Qed.

Lemma matchdate_no_fuel : forall E data, matchdate E data <> OutOfFuel.
Proof.
  intros E data H. destruct (matchdate_cases_proof E data) as [C0 C1].
  destruct (matchdate_string_cases data) as [[text [T _]] | [N _]].
  - destruct (C1 text T) as [C2 C3]. pose proof T as [_ [L V]].
    destruct (inside_dec text 20 V ltac:(lia)) as [I | NI]; [rewrite (C2 I) in H; discriminate |].
    destruct (C3 NI _ eq_refl) as [C4 C5]. destruct (utc_offset_total_proof (skipn 20 text)) as [[o |] U].
    + destruct (C5 o U) as [C6 C7]. destruct (inside_dec text 19 V ltac:(lia)) as [I | NI']; [rewrite (C6 I) in H | rewrite (C7 NI') in H]; discriminate.
    + destruct (C4 U) as [m M]. rewrite M in H. discriminate.
  - destruct (C0 N) as [m M]. rewrite M in H. discriminate.
Qed.

(** ASCII *)
Definition ascii (d : bytes) : Prop := Forall (fun b => n_of b < 128) d.

Lemma ascii_utf8 : forall d, ascii d -> utf8_text d.
Proof.
  intros d A. exists (map n_of d). split.
  - rewrite Forall_forall. intros c I. apply in_map_iff in I. destruct I as [b [<- I]].
    unfold ascii in A. rewrite Forall_forall in A. specialize (A b I). unfold scalar. lia.
  - unfold encode_text. rewrite map_map. induction A as [| b d B A IH]; [reflexivity |].
    cbn [map concat]. rewrite <- IH. unfold encode_char at 1. replace (n_of b <? 0x80) with true by lia.
    rewrite byte_of_n_of. reflexivity.
Qed.

Lemma ascii_not_inside : forall d i, ascii d -> i <= len d -> ~ inside_char d i.
Proof.
  intros d i A L I. apply (is_char_boundary_iff d i (ascii_utf8 d A) L) in I. unfold is_char_boundary in I.
  destruct (i =? len d) eqn:Q; [discriminate |]. destruct (nth_error d (N.to_nat i)) as [b |] eqn:N.
  - apply nth_error_In in N. unfold ascii in A. rewrite Forall_forall in A. specialize (A b N).
    unfold is_cont, in_range in I. lia.
  - apply nth_error_None in N. unfold len in *. lia.
Qed.

Lemma ascii_app : forall a b, ascii a -> ascii b -> ascii (a ++ b).
Proof. intros a b A B. apply Forall_app. auto. Qed.
Lemma ascii_char : forall d, d < 10 -> n_of (char_of d) < 128.
Proof. intros d H. unfold char_of. rewrite n_of_small by lia. lia. Qed.
Lemma ascii_two : forall n, ascii (two_digits n).
Proof. intros n. repeat constructor; apply ascii_char; lia. Qed.
Lemma ascii_four : forall n, ascii (four_digits n).
Proof. intros n. repeat constructor; apply ascii_char; lia. Qed.
Lemma ascii_moment : forall m, ascii (moment_text m).
Proof.
  intros m. unfold moment_text.
  repeat (apply ascii_app; [first [apply ascii_four | apply ascii_two | repeat constructor] |]). apply ascii_two.
Qed.
Lemma len_moment : forall m, len (moment_text m) = 19.
Proof. reflexivity. Qed.

Lemma zone_ascii : forall z min, named_zone z min \/ numeric_zone z min -> ascii z /\ 2 <= len z.
Proof.
  intros z min [[a [I ->]] | [neg [h [m [_ [_ [_ H]]]]]]].
  - assert (forallb (fun '(a, _) => forallb (fun b => n_of b <? 128) (lit a) && (2 <=? len (lit a))) zones = true) as C
      by (vm_compute; reflexivity).
    rewrite forallb_forall in C. specialize (C _ I). cbn beta iota in C. apply andb_true_iff in C. destruct C as [C L].
    split; [| lia]. apply Forall_forall. intros b B. rewrite forallb_forall in C. specialize (C b B). lia.
  - cbv zeta in H. assert (ascii (if neg then lit "-" else lit "+")) as S by (destruct neg; repeat constructor).
    assert (1 <= len (if neg then lit "-" else lit "+")) as S1 by (destruct neg; vm_compute; discriminate).
    destruct H as [-> | [-> | [_ ->]]]; (split; [| rewrite !len_app; change (len (two_digits h)) with 2; lia]);
      repeat (apply ascii_app; [first [exact S | apply ascii_two | repeat constructor] |]); try apply ascii_two.
Qed.

Lemma named_short : forall z min, named_zone z min -> len z <= 5.
Proof.
  intros z min [a [I ->]].
  assert (forallb (fun '(a, _) => len (lit a) <=? 5) zones = true) as C by (vm_compute; reflexivity).
  rewrite forallb_forall in C. specialize (C _ I). cbn beta iota in C. lia.
Qed.

Lemma matchdate_proof : forall E data m z min,
  (forall m sign off, valid_moment m -> off < 1440 ->
     (sign = lit "+" -> parse_datetime E (moment_text m ++ sign ++ two_digits (off / 60) ++ lit ":" ++ two_digits (off mod 60))
        = Ok (seconds m - 60 * Z.of_N off)%Z) /\
     (In sign minus_signs -> parse_datetime E (moment_text m ++ sign ++ two_digits (off / 60) ++ lit ":" ++ two_digits (off mod 60))
        = Ok (seconds m + 60 * Z.of_N off)%Z)) ->
  valid_moment m -> named_zone z min \/ numeric_zone z min -> len z <= 5 ->
  (exists from, stands_between data matchdate_mark [x0a] (moment_text m ++ lit " " ++ z) from) ->
  matchdate E data = Ret (Ok (seconds m - 60 * min)%Z).
Proof.
  intros E data m z min C V Z LZ S. destruct (zone_ascii z min Z) as [AZ L2].
  set (text := moment_text m ++ lit " " ++ z) in *.
  assert (ascii text) as A by (apply ascii_app; [apply ascii_moment | apply ascii_app; [repeat constructor | exact AZ]]).
  assert (len text = 20 + len z) as LT by (unfold text; rewrite !len_app, len_moment; change (len (lit " ")) with 1; lia).
  assert (has_matchdate data text) as H by (split; [exact S | split; [lia | apply ascii_utf8; exact A]]).
  destruct (matchdate_cases_proof E data) as [_ C1]. destruct (C1 text H) as [_ C2].
  assert (skipn 20 text = z) as SK by reflexivity.
  destruct (C2 (ascii_not_inside text 20 A ltac:(lia)) z (eq_sym SK)) as [_ C3].
  assert (forall sign off, off < 1440 -> utc_offset z = Ret (Some (sign ++ two_digits (off / 60) ++ lit ":" ++ two_digits (off mod 60))) ->
    matchdate E data = Ret (parse_datetime E (moment_text m ++ sign ++ two_digits (off / 60) ++ lit ":" ++ two_digits (off mod 60)))) as G.
  { intros sign off B U. destruct (C3 _ U) as [_ C4]. rewrite C4 by (apply ascii_not_inside; [exact A | lia]). reflexivity. }
  destruct Z as [Z | Z].
  - assert (exists minus, minus_of z minus /\ In minus minus_signs) as [minus [M IM]].
    { destruct Z as [a [_ ->]]. exists (minus_for a). split; [apply minus_of_for; reflexivity |].
      unfold minus_for. destruct (string_in a long_minus); simpl; auto. }
    assert (Z.abs min < 1440)%Z as B.
    { destruct Z as [a [I _]]. assert (forallb (fun '(_, min) => (Z.abs min <? 1440)%Z) zones = true) as K by (vm_compute; reflexivity).
      rewrite forallb_forall in K. specialize (K _ I). cbn beta iota in K. lia. }
    pose proof (named_offset_proof z min minus Z M) as U. unfold offset_text in U.
    rewrite (G _ (Z.abs_N min) ltac:(lia) U). f_equal.
    destruct (min <? 0)%Z eqn:Q.
    + destruct (C m minus (Z.abs_N min) V ltac:(lia)) as [_ K]. rewrite K by exact IM. f_equal. lia.
    + destruct (C m (lit "+") (Z.abs_N min) V ltac:(lia)) as [K _]. rewrite K by reflexivity. f_equal. lia.
  - assert (Z.abs min < 1440)%Z as B.
    { destruct Z as [neg [h [mm [B1 [B2 [-> _]]]]]]. destruct neg; lia. }
    destruct (numeric_offset_signed z min Z) as [sign [S1 [S2 [S3 [_ U]]]]].
    rewrite (G _ (Z.abs_N min) ltac:(lia) U). f_equal. destruct (C m sign (Z.abs_N min) V ltac:(lia)) as [K1 K2].
    destruct S1 as [-> | ->].
    + rewrite K1 by reflexivity. f_equal. destruct (Z.lt_trichotomy min 0) as [X | [X | X]]; [specialize (S2 X); discriminate S2 | lia | lia].
    + rewrite K2 by (simpl; auto). f_equal. destruct (Z.lt_trichotomy min 0) as [X | [X | X]]; [lia | lia | specialize (S3 X); discriminate S3].
Qed.
