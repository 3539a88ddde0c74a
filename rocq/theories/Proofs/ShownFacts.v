(** What [{:?}] writes. *)
From Coq Require Import Lia ZifyN ZifyNat ZifyBool.
From Verif.Model Require Import Base Env Float Prot Message Clients Players Flags Ktxstats Debug.
From Verif.Spec Require Import Occ Times Faults Flags Shown.
From Verif.Proofs Require Import BaseFacts DecimalFacts LiteralFacts ServerFacts.
Open Scope N_scope.

(** The texts are the ones described. *)
Lemma hex_shown : forall n, n < 16 -> exists c, hex n = [c] /\ hex_char n c.
Proof.
  intros n H. assert (exists k, n = N.of_nat k /\ (k < 16)%nat) as [k [-> K]] by (exists (N.to_nat n); lia).
  do 16 (destruct k as [| k]; [eexists; split; [reflexivity |]; vm_compute; intuition congruence |]). lia.
Qed.

Lemma char_shown : forall b, n_of b < 128 -> shows_char b (escape b).
Proof.
  intros b H. unfold shows_char. cbv zeta.
  destruct (N.lt_ge_cases (n_of b) 32) as [L | L].
  2:{ destruct (N.eq_dec (n_of b) 127) as [Q | Q].
      - right; right; right; right; right; right. split; [right; exact Q |]. repeat (split; [lia |]).
        exists 7, 15, x37, x66. rewrite Q. split; [reflexivity |].
        split; [left; split; reflexivity |]. split; [right; split; [lia | reflexivity] |].
        unfold escape. rewrite Q. reflexivity.
      - destruct (N.eq_dec (n_of b) 34) as [Q1 | Q1].
        { right; left. split; [left; exact Q1 |]. assert (b = x22) as -> by (apply n_of_inj; exact Q1). reflexivity. }
        destruct (N.eq_dec (n_of b) 92) as [Q2 | Q2].
        { right; left. split; [right; exact Q2 |]. assert (b = x5c) as -> by (apply n_of_inj; exact Q2). reflexivity. }
        left. split; [lia |]. split; [exact Q1 |]. split; [exact Q2 |].
        clear - L Q Q1 Q2 H. destruct b; try reflexivity; exfalso; vm_compute in L, Q, Q1, Q2, H; try congruence. }
  assert (C : n_of b = 0 \/ n_of b = 9 \/ n_of b = 10 \/ n_of b = 13 \/
    (n_of b <> 0 /\ n_of b <> 9 /\ n_of b <> 10 /\ n_of b <> 13)) by lia.
  right; right. destruct C as [Q | [Q | [Q | [Q | [Q1 [Q2 [Q3 Q4]]]]]]].
  - left. split; [exact Q |]. unfold escape. rewrite Q. reflexivity.
  - right; left. split; [exact Q |]. unfold escape. rewrite Q. reflexivity.
  - right; right; left. split; [exact Q |]. unfold escape. rewrite Q. reflexivity.
  - right; right; right; left. split; [exact Q |]. unfold escape. rewrite Q. reflexivity.
  - right; right; right; right. split; [left; exact L |]. repeat (split; [assumption |]).
    exists (n_of b / 16), (n_of b mod 16).
    assert (D : n_of b = 16 * (n_of b / 16) + n_of b mod 16) by (apply N.div_mod; discriminate).
    assert (M : n_of b mod 16 < 16) by (apply N.mod_lt; discriminate).
    assert (H' : n_of b / 16 < 16) by (apply N.div_lt_upper_bound; lia).
    destruct (hex_shown _ H') as [ch [Eh Ch]]. destruct (hex_shown _ M) as [cl [El Cl]].
    exists ch, cl. split; [exact D |]. split; [exact Ch |]. split; [exact Cl |].
    assert (X : escape b = if n_of b <? 16 then lit "\u{" ++ hex (n_of b) ++ lit "}"
                           else lit "\u{" ++ hex (n_of b / 16) ++ hex (n_of b mod 16) ++ lit "}").
    { clear - L Q1 Q2 Q3 Q4. destruct b; try reflexivity; exfalso; vm_compute in L, Q1, Q2, Q3, Q4; congruence. }
    rewrite X. destruct (n_of b <? 16) eqn:S.
    + rewrite N.div_small in * by lia. rewrite N.mod_small in * by lia. rewrite El. reflexivity.
    + assert (1 <= n_of b / 16) by (apply N.div_le_lower_bound; lia).
      replace (n_of b / 16 =? 0) with false by lia. rewrite Eh, El. reflexivity.
Qed.

Lemma text_shown : forall s, ascii s -> shows_text s (debug_str s).
Proof.
  intros s F. exists (map escape s). split; [| unfold debug_str; rewrite flat_map_concat_map; reflexivity].
  induction F as [| b s H F IH]; constructor; [apply char_shown; exact H | exact IH].
Qed.

Lemma number_shown : forall n, shows_number n (debug_u n).
Proof. intros n. destruct (display_N_proof n) as [ds [D P]]. exists ds. split; [exact P | exact D]. Qed.

Lemma integer_shown : forall z, shows_integer z (debug_i z).
Proof.
  intros z. exists (Z.abs_N z), (display_N (Z.abs_N z)). split; [apply number_shown |].
  unfold debug_i. destruct (z <? 0)%Z eqn:S; [right | left]; (split; [lia |]); [split; [lia | reflexivity] | reflexivity].
Qed.

Lemma bool_shown : forall b, shows_bool b (debug_bool b).
Proof. intros [|]; [left | right]; split; reflexivity. Qed.

Lemma option_shown : forall o, ascii_option o -> shows_option o (debug_option debug_str o).
Proof.
  intros [s |] A; [right | left; split; reflexivity]. exists s, (debug_str s). split; [reflexivity |].
  split; [apply text_shown; apply A; reflexivity | reflexivity].
Qed.

Lemma color_shown : forall c, shows_color c (debug_color c).
Proof.
  intros c. exists (debug_u (fst c)), (debug_u (snd c)). split; [apply number_shown |]. split; [apply number_shown |].
  unfold debug_color, debug_list. cbn [map separated]. rewrite <- !app_assoc. reflexivity.
Qed.

Lemma id_shown : forall i, shows_id i (debug_print_id i).
Proof. intros []; vm_compute; tauto. Qed.

Lemma separated_shown : forall A (f : A -> bytes -> Prop) g l x, (forall y, In y (x :: l) -> f y (g y)) ->
  exists v, shows_rest f l v /\ separated (map g (x :: l)) ++ lit "]" = g x ++ v.
Proof.
  intros A f g l. induction l as [| y l IH]; intros x H.
  - exists (lit "]"). split; reflexivity.
  - destruct (IH y) as [v [V E]]; [intros z Z; apply H; right; exact Z |].
    exists (lit ", " ++ g y ++ v). split.
    + exists (g y), v. split; [apply H; right; left; reflexivity |]. split; [exact V | reflexivity].
    + change (separated (map g (x :: y :: l))) with (g x ++ lit ", " ++ separated (map g (y :: l))).
      rewrite <- !app_assoc, E. reflexivity.
Qed.

Lemma list_shown : forall A (f : A -> bytes -> Prop) g l, (forall y, In y l -> f y (g y)) -> shows_list f l (debug_list g l).
Proof.
  intros A f g [| x l] H; [reflexivity |]. destruct (separated_shown A f g l x H) as [v [V E]].
  exists (g x), v. split; [apply H; left; reflexivity |]. split; [exact V |].
  exact (f_equal (app (lit "[")) E).
Qed.

Ltac flat := unfold debug_struct, field; cbn [separated]; rewrite <- !app_assoc; reflexivity.

Lemma print_shown : forall to_ascii p, ascii (to_ascii (pr_content p)) ->
  shows_print (pr_id p) (to_ascii (pr_content p)) (debug_print to_ascii p).
Proof.
  intros ta p A. exists (debug_print_id (pr_id p)), (debug_str (ta (pr_content p))).
  split; [apply id_shown |]. split; [apply text_shown; exact A |]. unfold debug_print. flat.
Qed.

Lemma deeds_shown : forall e, shows_deeds (fun k => counter k e) (debug_flag_events e).
Proof.
  intros e. do 7 eexists. cbn [counter].
  do 7 (split; [apply number_shown |]). unfold debug_flag_events. flat.
Qed.

Lemma client_shown : forall c, ascii_client c -> shows_client c (debug_client c).
Proof.
  intros c (A1 & A2 & A3 & A4). do 8 eexists.
  split; [apply number_shown |]. split; [apply text_shown; exact A1 |]. split; [apply text_shown; exact A2 |].
  split; [apply color_shown |]. split; [apply bool_shown |]. split; [apply bool_shown |].
  split; [apply option_shown; exact A3 |]. split; [apply option_shown; exact A4 |]. unfold debug_client. flat.
Qed.

Lemma player_shown : forall p, ascii_player p -> shows_player p (debug_player p).
Proof.
  intros p (A1 & A2 & A3 & A4). do 8 eexists.
  split; [apply text_shown; exact A1 |]. split; [apply text_shown; exact A2 |].
  split; [apply color_shown |]. split; [apply integer_shown |]. split; [apply number_shown |]. split; [apply bool_shown |].
  split; [apply option_shown; exact A3 |]. split; [apply option_shown; exact A4 |]. unfold debug_player. flat.
Qed.

Lemma team_shown : forall t, ascii_team t -> shows_team t (debug_team t).
Proof.
  intros t (A1 & A2). do 5 eexists.
  split; [apply text_shown; exact A1 |]. split; [apply color_shown |]. split; [apply integer_shown |].
  split; [apply number_shown |]. split.
  - apply (list_shown _ shows_player debug_player). intros y Y. apply player_shown. rewrite Forall_forall in A2. exact (A2 y Y).
  - unfold debug_team. flat.
Qed.

Lemma server_shown : forall s, ascii_server s -> shows_server s (debug_server s).
Proof.
  intros s (A1 & A2 & A3). do 4 eexists.
  split; [apply text_shown; exact A1 |]. split; [apply text_shown; exact A2 |]. split; [apply text_shown; exact A3 |].
  split; [apply number_shown |]. unfold debug_server. flat.
Qed.

(** A text belongs to one value: where it ends can be told if what follows is no digit. *)
Definition parts {A} (f : A -> bytes -> Prop) : Prop :=
  forall a b t u r q, f a t -> f b u -> t ++ r = u ++ q -> no_digit r -> no_digit q -> a = b /\ r = q.

Lemma numeral_parts : forall ds es r q, wf_digits ds -> wf_digits es -> numeral ds ++ r = numeral es ++ q ->
  no_digit r -> no_digit q -> ds = es /\ r = q.
Proof.
  induction ds as [| d ds IH]; intros [| e es] r q W V H R Q.
  - split; [reflexivity | exact H].
  - exfalso. inv V. cbn [numeral map app] in H. subst r. cbn in R. rewrite digit_of_char in R by assumption. discriminate.
  - exfalso. inv W. cbn [numeral map app] in H. subst q. cbn in Q. rewrite digit_of_char in Q by assumption. discriminate.
  - inv W. inv V. cbn [numeral map app] in H. injection H as HD HT.
    destruct (IH es r q H3 H5 HT R Q) as [-> ->]. split; [| reflexivity]. f_equal.
    pose proof (digit_of_char d H2) as D. rewrite HD, digit_of_char in D by assumption. congruence.
Qed.

Lemma number_parts : parts shows_number.
Proof.
  intros a b t u r q [ds [[W [N _]] ->]] [es [[V [M _]] ->]] H R Q.
  destruct (numeral_parts ds es r q W V H R Q) as [-> ->]. split; congruence.
Qed.

Lemma number_head : forall n t, shows_number n t -> exists c t', t = c :: t' /\ c <> x2d.
Proof.
  intros n t [ds [[W [_ F]] ->]].
  assert (exists d r, ds = d :: r) as [d [r ->]] by (destruct F as [-> | [d [r [-> _]]]]; eauto).
  inv W. exists (digit_char d), (numeral r). split; [reflexivity |]. intros C.
  pose proof (digit_of_char d H1) as D. rewrite C in D. discriminate.
Qed.

Lemma integer_parts : parts shows_integer.
Proof.
  intros a b t u r q (n & t' & N & A) (m & u' & M & B) H R Q.
  pose proof (number_head n t' N) as [c [t1 [T1 C]]]. pose proof (number_head m u' M) as [d [u1 [U1 D]]].
  destruct A as [[-> ->] | [-> [PN ->]]]; destruct B as [[-> ->] | [-> [PM ->]]].
  - destruct (number_parts n m t' u' r q N M H R Q) as [-> ->]. auto.
  - exfalso. rewrite T1 in H. injection H as H _. congruence.
  - exfalso. rewrite U1 in H. injection H as H _. congruence.
  - injection H as H. destruct (number_parts n m t' u' r q N M H R Q) as [-> ->]. auto.
Qed.

Lemma bool_parts : parts shows_bool.
Proof.
  intros a b t u r q [[-> ->] | [-> ->]] [[-> ->] | [-> ->]] H _ _; cbn in H; try discriminate H;
    (split; [reflexivity | congruence]).
Qed.

(** Texts between quotes: reading them back *)
Definition unhex (c : byte) : N := if n_of c <? 60 then n_of c - 48 else n_of c - 87.
Definition unescape (t : bytes) : option (N * bytes) :=
  match t with
  | x22 :: _ => None
  | x5c :: x75 :: x7b :: a :: x7d :: r => Some (unhex a, r)
  | x5c :: x75 :: x7b :: a :: b :: x7d :: r => Some (16 * unhex a + unhex b, r)
  | x5c :: x30 :: r => Some (0, r)
  | x5c :: x74 :: r => Some (9, r)
  | x5c :: x6e :: r => Some (10, r)
  | x5c :: x72 :: r => Some (13, r)
  | x5c :: c :: r => Some (n_of c, r)
  | c :: r => Some (n_of c, r)
  | [] => None
  end.

Lemma unhex_char : forall n c, hex_char n c -> unhex c = n /\ c <> x7d.
Proof.
  intros n c [[H E] | [H E]]; unfold unhex; rewrite E.
  - replace (48 + n <? 60) with true by lia. split; [lia |]. intros ->. change (n_of x7d) with 125 in E. lia.
  - replace (87 + n <? 60) with false by lia. split; [lia |]. intros ->. change (n_of x7d) with 125 in E. lia.
Qed.

Lemma unescape_plain : forall b r, n_of b <> 34 -> n_of b <> 92 -> unescape (b :: r) = Some (n_of b, r).
Proof. intros b r H1 H2. destruct b; try reflexivity; exfalso; vm_compute in H1, H2; congruence. Qed.

Lemma unescape_pair : forall a b r, a <> x7d -> b <> x7d ->
  unescape (x5c :: x75 :: x7b :: a :: b :: x7d :: r) = Some (16 * unhex a + unhex b, r).
Proof. intros a b r _ H. destruct b; try reflexivity. congruence. Qed.

Lemma unescape_shown : forall b t r, shows_char b t -> unescape (t ++ r) = Some (n_of b, r).
Proof.
  intros b t r [(_ & H1 & H2 & ->) | [([H | H] & ->) | [(H & ->) | [(H & ->) | [(H & ->) | [(H & ->) |
    (_ & _ & _ & _ & _ & h & l & ch & cl & E & Ch & Cl & ->)]]]]]].
  - apply unescape_plain; assumption.
  - assert (b = x22) as -> by (apply n_of_inj; exact H). reflexivity.
  - assert (b = x5c) as -> by (apply n_of_inj; exact H). reflexivity.
  - rewrite H. reflexivity.
  - rewrite H. reflexivity.
  - rewrite H. reflexivity.
  - rewrite H. reflexivity.
  - destruct (unhex_char h ch Ch) as [Uh Nh]. destruct (unhex_char l cl Cl) as [Ul Nl].
    rewrite E. destruct (h =? 0) eqn:Z.
    + replace (16 * h + l) with l by lia. rewrite <- Ul.
      change ((lit "\u{" ++ [cl] ++ lit "}") ++ r) with (x5c :: x75 :: x7b :: cl :: x7d :: r).
      destruct cl; try reflexivity.
    + rewrite <- Uh, <- Ul. apply unescape_pair; assumption.
Qed.

Lemma chars_parts : forall s s' ps ps' r q, Forall2 shows_char s ps -> Forall2 shows_char s' ps' ->
  concat ps ++ x22 :: r = concat ps' ++ x22 :: q -> s = s' /\ r = q.
Proof.
  induction s as [| b s IH]; intros s' ps ps' r q F F' H; inv F.
  - inv F'.
    + injection H as ->. auto.
    + exfalso. cbn [concat app] in H. rewrite <- app_assoc in H.
      pose proof (unescape_shown _ _ (concat l' ++ x22 :: q) H0) as U. rewrite <- H in U. discriminate.
  - inv F'.
    + exfalso. cbn [concat app] in H. rewrite <- app_assoc in H.
      pose proof (unescape_shown _ _ (concat l' ++ x22 :: r) H2) as U. rewrite H in U. discriminate.
    + cbn [concat] in H. rewrite <- !app_assoc in H.
      pose proof (unescape_shown _ _ (concat l' ++ x22 :: r) H2) as U.
      pose proof (unescape_shown _ _ (concat l'0 ++ x22 :: q) H0) as U'.
      rewrite H, U' in U. injection U as UB UR. apply n_of_inj in UB. subst x.
      destruct (IH l l' l'0 r q H4 H1 (eq_sym UR)) as [-> ->]. auto.
Qed.

Lemma text_parts : parts shows_text.
Proof.
  intros a b t u r q [ps [F ->]] [ps' [F' ->]] H _ _. rewrite <- !app_assoc in H. apply app_inv_head in H.
  exact (chars_parts a b ps ps' r q F F' H).
Qed.

Lemma option_parts : parts shows_option.
Proof.
  intros a b t u r q [[-> ->] | (s & v & -> & S & ->)] [[-> ->] | (s' & v' & -> & S' & ->)] H R Q.
  - apply app_inv_head in H. auto.
  - discriminate H.
  - discriminate H.
  - rewrite <- !app_assoc in H. apply app_inv_head in H.
    destruct (text_parts s s' v v' (lit ")" ++ r) (lit ")" ++ q) S S' H eq_refl eq_refl) as [-> H2].
    apply app_inv_head in H2. auto.
Qed.

Lemma color_parts : parts shows_color.
Proof.
  intros [a1 a2] [b1 b2] t u r q (x & y & X & Y & ->) (x' & y' & X' & Y' & ->) H R Q. cbn [fst snd] in *.
  rewrite <- !app_assoc in H. apply app_inv_head in H.
  destruct (number_parts a1 b1 x x' _ _ X X' H eq_refl eq_refl) as [-> H2]. apply app_inv_head in H2.
  destruct (number_parts a2 b2 y y' _ _ Y Y' H2 eq_refl eq_refl) as [-> H3]. apply app_inv_head in H3. auto.
Qed.

Lemma id_parts : forall a b t u r q, shows_id a t -> shows_id b u -> t ++ lit "," ++ r = u ++ lit "," ++ q -> a = b /\ r = q.
Proof.
  intros a b t u r q A B H. unfold shows_id in *. cbn [In] in A, B.
  repeat (destruct A as [A | A]; [injection A as <- <- |]); try contradiction;
    repeat (destruct B as [B | B]; [injection B as <- <- |]); try contradiction; try discriminate H;
    (split; [reflexivity | cbn in H; congruence]).
Qed.

Lemma print_parts : forall i j s s' t, shows_print i s t -> shows_print j s' t -> i = j /\ s = s'.
Proof.
  intros i j s s' t (u & v & U & V & ->) (u' & v' & U' & V' & H).
  apply app_inv_head in H.
  destruct (id_parts i j u u' (lit " content: " ++ v ++ lit " }") (lit " content: " ++ v' ++ lit " }") U U' H) as [-> H2].
  apply app_inv_head in H2. destruct (text_parts s s' v v' _ _ V V' H2 eq_refl eq_refl) as [-> _]. auto.
Qed.

Lemma deeds_parts : forall n m t, shows_deeds n t -> shows_deeds m t -> forall k, n k = m k.
Proof.
  intros n m t (a1 & a2 & a3 & a4 & a5 & a6 & a7 & A1 & A2 & A3 & A4 & A5 & A6 & A7 & ->)
    (b1 & b2 & b3 & b4 & b5 & b6 & b7 & B1 & B2 & B3 & B4 & B5 & B6 & B7 & H).
  apply app_inv_head in H.
  destruct (number_parts _ _ _ _ _ _ A1 B1 H eq_refl eq_refl) as [Q1 H1]. apply app_inv_head in H1.
  destruct (number_parts _ _ _ _ _ _ A2 B2 H1 eq_refl eq_refl) as [Q2 H2]. apply app_inv_head in H2.
  destruct (number_parts _ _ _ _ _ _ A3 B3 H2 eq_refl eq_refl) as [Q3 H3]. apply app_inv_head in H3.
  destruct (number_parts _ _ _ _ _ _ A4 B4 H3 eq_refl eq_refl) as [Q4 H4]. apply app_inv_head in H4.
  destruct (number_parts _ _ _ _ _ _ A5 B5 H4 eq_refl eq_refl) as [Q5 H5]. apply app_inv_head in H5.
  destruct (number_parts _ _ _ _ _ _ A6 B6 H5 eq_refl eq_refl) as [Q6 H6]. apply app_inv_head in H6.
  destruct (number_parts _ _ _ _ _ _ A7 B7 H6 eq_refl eq_refl) as [Q7 H7].
  intros []; assumption.
Qed.

Lemma client_parts : parts shows_client.
Proof.
  intros c d t u r q (a1 & a2 & a3 & a4 & a5 & a6 & a7 & a8 & A1 & A2 & A3 & A4 & A5 & A6 & A7 & A8 & ->)
    (b1 & b2 & b3 & b4 & b5 & b6 & b7 & b8 & B1 & B2 & B3 & B4 & B5 & B6 & B7 & B8 & ->) H _ _.
  rewrite <- !app_assoc in H. apply app_inv_head in H.
  destruct (number_parts _ _ _ _ _ _ A1 B1 H eq_refl eq_refl) as [Q1 H1]. apply app_inv_head in H1.
  destruct (text_parts _ _ _ _ _ _ A2 B2 H1 eq_refl eq_refl) as [Q2 H2]. apply app_inv_head in H2.
  destruct (text_parts _ _ _ _ _ _ A3 B3 H2 eq_refl eq_refl) as [Q3 H3]. apply app_inv_head in H3.
  destruct (color_parts _ _ _ _ _ _ A4 B4 H3 eq_refl eq_refl) as [Q4 H4]. apply app_inv_head in H4.
  destruct (bool_parts _ _ _ _ _ _ A5 B5 H4 eq_refl eq_refl) as [Q5 H5]. apply app_inv_head in H5.
  destruct (bool_parts _ _ _ _ _ _ A6 B6 H5 eq_refl eq_refl) as [Q6 H6]. apply app_inv_head in H6.
  destruct (option_parts _ _ _ _ _ _ A7 B7 H6 eq_refl eq_refl) as [Q7 H7]. apply app_inv_head in H7.
  destruct (option_parts _ _ _ _ _ _ A8 B8 H7 eq_refl eq_refl) as [Q8 H8]. apply app_inv_head in H8.
  destruct c, d; cbn in *; subst. auto.
Qed.

Lemma player_parts : parts shows_player.
Proof.
  intros c d t u r q (a1 & a2 & a3 & a4 & a5 & a6 & a7 & a8 & A1 & A2 & A3 & A4 & A5 & A6 & A7 & A8 & ->)
    (b1 & b2 & b3 & b4 & b5 & b6 & b7 & b8 & B1 & B2 & B3 & B4 & B5 & B6 & B7 & B8 & ->) H _ _.
  rewrite <- !app_assoc in H. apply app_inv_head in H.
  destruct (text_parts _ _ _ _ _ _ A1 B1 H eq_refl eq_refl) as [Q1 H1]. apply app_inv_head in H1.
  destruct (text_parts _ _ _ _ _ _ A2 B2 H1 eq_refl eq_refl) as [Q2 H2]. apply app_inv_head in H2.
  destruct (color_parts _ _ _ _ _ _ A3 B3 H2 eq_refl eq_refl) as [Q3 H3]. apply app_inv_head in H3.
  destruct (integer_parts _ _ _ _ _ _ A4 B4 H3 eq_refl eq_refl) as [Q4 H4]. apply app_inv_head in H4.
  destruct (number_parts _ _ _ _ _ _ A5 B5 H4 eq_refl eq_refl) as [Q5 H5]. apply app_inv_head in H5.
  destruct (bool_parts _ _ _ _ _ _ A6 B6 H5 eq_refl eq_refl) as [Q6 H6]. apply app_inv_head in H6.
  destruct (option_parts _ _ _ _ _ _ A7 B7 H6 eq_refl eq_refl) as [Q7 H7]. apply app_inv_head in H7.
  destruct (option_parts _ _ _ _ _ _ A8 B8 H7 eq_refl eq_refl) as [Q8 H8]. apply app_inv_head in H8.
  destruct c, d; cbn in *; subst. auto.
Qed.

Lemma rest_no_digit : forall A (f : A -> bytes -> Prop) l v r, shows_rest f l v -> no_digit (v ++ r).
Proof. intros A f [| x l] v r H; cbn in H; [subst; reflexivity |]. destruct H as (u & w & _ & _ & ->). reflexivity. Qed.

Lemma rest_parts : forall A (f : A -> bytes -> Prop), parts f -> parts (shows_rest f).
Proof.
  intros A f P l. induction l as [| x l IH]; intros [| y m] t u r q T U H R Q; cbn [shows_rest] in T, U.
  - subst. apply app_inv_head in H. auto.
  - destruct U as (v & w & _ & _ & ->). subst t. discriminate H.
  - destruct T as (v & w & _ & _ & ->). subst u. discriminate H.
  - destruct T as (v & w & V & W & ->). destruct U as (v' & w' & V' & W' & ->).
    rewrite <- !app_assoc in H. apply app_inv_head in H.
    destruct (P _ _ _ _ _ _ V V' H (rest_no_digit _ _ _ _ _ W) (rest_no_digit _ _ _ _ _ W')) as [-> H2].
    destruct (IH m w w' r q W W' H2 R Q) as [-> ->]. auto.
Qed.

Lemma player_head : forall p u, shows_player p u -> exists v, u = lit "P" ++ v.
Proof. intros p u (a1 & a2 & a3 & a4 & a5 & a6 & a7 & a8 & _ & _ & _ & _ & _ & _ & _ & _ & ->). eexists. reflexivity. Qed.

Lemma players_parts : parts (shows_list shows_player).
Proof.
  intros [| x l] [| y m] t u r q T U H R Q; cbn [shows_list] in T, U.
  - subst. apply app_inv_head in H. auto.
  - destruct U as (v & w & V & _ & ->). subst t. apply player_head in V. destruct V as [v' ->]. discriminate H.
  - destruct T as (v & w & V & _ & ->). subst u. apply player_head in V. destruct V as [v' ->]. discriminate H.
  - destruct T as (v & w & V & W & ->). destruct U as (v' & w' & V' & W' & ->).
    rewrite <- !app_assoc in H. apply app_inv_head in H.
    destruct (player_parts _ _ _ _ _ _ V V' H (rest_no_digit _ _ _ _ _ W) (rest_no_digit _ _ _ _ _ W')) as [-> H2].
    destruct (rest_parts _ _ player_parts l m w w' r q W W' H2 R Q) as [-> ->]. auto.
Qed.

Lemma team_parts : parts shows_team.
Proof.
  intros c d t u r q (a1 & a2 & a3 & a4 & a5 & A1 & A2 & A3 & A4 & A5 & ->)
    (b1 & b2 & b3 & b4 & b5 & B1 & B2 & B3 & B4 & B5 & ->) H _ _.
  rewrite <- !app_assoc in H. apply app_inv_head in H.
  destruct (text_parts _ _ _ _ _ _ A1 B1 H eq_refl eq_refl) as [Q1 H1]. apply app_inv_head in H1.
  destruct (color_parts _ _ _ _ _ _ A2 B2 H1 eq_refl eq_refl) as [Q2 H2]. apply app_inv_head in H2.
  destruct (integer_parts _ _ _ _ _ _ A3 B3 H2 eq_refl eq_refl) as [Q3 H3]. apply app_inv_head in H3.
  destruct (number_parts _ _ _ _ _ _ A4 B4 H3 eq_refl eq_refl) as [Q4 H4]. apply app_inv_head in H4.
  destruct (players_parts _ _ _ _ _ _ A5 B5 H4 eq_refl eq_refl) as [Q5 H5]. apply app_inv_head in H5.
  destruct c, d; cbn in *; subst. auto.
Qed.

Lemma server_parts : parts shows_server.
Proof.
  intros c d t u r q (a1 & a2 & a3 & a4 & A1 & A2 & A3 & A4 & ->) (b1 & b2 & b3 & b4 & B1 & B2 & B3 & B4 & ->) H _ _.
  rewrite <- !app_assoc in H. apply app_inv_head in H.
  destruct (text_parts _ _ _ _ _ _ A1 B1 H eq_refl eq_refl) as [Q1 H1]. apply app_inv_head in H1.
  destruct (text_parts _ _ _ _ _ _ A2 B2 H1 eq_refl eq_refl) as [Q2 H2]. apply app_inv_head in H2.
  destruct (text_parts _ _ _ _ _ _ A3 B3 H2 eq_refl eq_refl) as [Q3 H3]. apply app_inv_head in H3.
  destruct (number_parts _ _ _ _ _ _ A4 B4 H3 eq_refl eq_refl) as [Q4 H4]. apply app_inv_head in H4.
  destruct c, d; cbn in *; subst. auto.
Qed.

Lemma shown_once : forall A (f : A -> bytes -> Prop), parts f -> forall a b t, f a t -> f b t -> a = b.
Proof. intros A f P a b t X Y. destruct (P a b t t [] [] X Y eq_refl I I) as [E _]. exact E. Qed.

(** The text of a string is one printable line. *)
Lemma text_printable : forall s t, shows_text s t -> Forall (fun b => 32 <= n_of b < 127) t.
Proof.
  intros s t [ps [F ->]]. apply Forall_app. split; [repeat constructor; vm_compute; discriminate |].
  apply Forall_app. split; [| repeat constructor; vm_compute; discriminate].
  induction F as [| b p s ps H F IH]; [constructor |]. cbn [concat]. apply Forall_app. split; [| exact IH]. clear IH F.
  destruct H as [(H & _ & _ & ->) | [(H & ->) | [(_ & ->) | [(_ & ->) | [(_ & ->) | [(_ & ->) |
    (_ & _ & _ & _ & _ & h & l & ch & cl & _ & Ch & Cl & ->)]]]]]].
  - repeat constructor; lia.
  - constructor; [vm_compute; split; [discriminate | reflexivity] |]. constructor; [destruct H; lia | constructor].
  - repeat constructor; vm_compute; discriminate.
  - repeat constructor; vm_compute; discriminate.
  - repeat constructor; vm_compute; discriminate.
  - repeat constructor; vm_compute; discriminate.
  - assert (Forall (fun b => 32 <= n_of b < 127) [ch]) by (constructor; [destruct Ch; lia | constructor]).
    assert (Forall (fun b => 32 <= n_of b < 127) [cl]) by (constructor; [destruct Cl; lia | constructor]).
    apply Forall_app. split; [repeat constructor; vm_compute; discriminate |].
    apply Forall_app. split; [| repeat constructor; vm_compute; discriminate].
    destruct (h =? 0); [assumption |]. change [ch; cl] with ([ch] ++ [cl]). apply Forall_app. auto.
Qed.

(** What is seen of the deeds *)
Lemma deeds_ext : forall n m t, (forall k, n k = m k) -> shows_deeds n t -> shows_deeds m t.
Proof. intros n m t E H. unfold shows_deeds in *. rewrite !E in H. exact H. Qed.
