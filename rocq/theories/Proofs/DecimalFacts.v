(** Decimal numbers in the stats text (C09). *)
From Coq Require Import Lia ZifyN ZifyNat ZifyBool.
From Coq Require Import Reals.
From Verif.Model Require Import Base Env Frame Bytesextra Serverinfo Ktxstats Matchdate Float Duration.
From Verif.Spec Require Import Occ Mvd Times.
From Verif.Proofs Require Import BaseFacts FrameFacts RoundFacts TimeFacts.
Open Scope N_scope.

Lemma n_of_digit_char : forall d, d < 10 -> n_of (digit_char d) = 48 + d.
Proof. intros d H. unfold digit_char. rewrite n_of_byte_of. apply N.mod_small. lia. Qed.

Lemma digit_of_char : forall d, d < 10 -> digit (digit_char d) = Some d.
Proof.
  intros d H. unfold digit, in_range. rewrite n_of_digit_char by exact H.
  replace ((48 <=? 48 + d) && (48 + d <=? 57)) with true by lia. f_equal. lia.
Qed.

Definition no_digit (s : str) : Prop := match s with b :: _ => digit b = None | [] => True end.

Lemma digits_numeral : forall ds s v n, wf_digits ds -> no_digit s ->
  digits (numeral ds ++ s) v n = (fold_left (fun v d => 10 * v + d) ds v, n + len ds, s).
Proof.
  induction ds as [| d ds IH]; intros s v n W NS.
  - rewrite len_nil, N.add_0_r. simpl. destruct s as [| b s]; [reflexivity |]. simpl in *. rewrite NS. reflexivity.
  - inv W. cbn [numeral map app digits]. rewrite digit_of_char by assumption. fold (numeral ds).
    rewrite IH by assumption. cbn [fold_left]. rewrite len_cons. f_equal. f_equal. lia.
Qed.

(** a text that starts like a number: its first byte is a digit or a point *)
Definition number_head (s : str) : Prop :=
  exists b r, s = b :: r /\ (b = x2e \/ exists d, d < 10 /\ b = digit_char d).

Lemma head_facts : forall b, b = x2e \/ (exists d, d < 10 /\ b = digit_char d) ->
  Byte.eqb b x2d = false /\ Byte.eqb b x2b = false /\ lower b = b /\ b <> x69 /\ b <> x6e.
Proof.
  intros b [-> | [d [H ->]]]; [repeat split; discriminate |].
  assert (C : In d [0;1;2;3;4;5;6;7;8;9]).
  { simpl. lia. }
  simpl in C. repeat destruct C as [<- | C]; try contradiction; repeat split; try reflexivity; discriminate.
Qed.

Lemma parse_f64_head : forall s, number_head s ->
  parse_f64 s =
    let '(v, n, s) := digits s 0 0 in
    let '(v, n, frac, s) :=
      match s with
      | b :: r =>
          if Byte.eqb b x2e then
            let '(v', n', r') := digits r v 0 in (v', n + n', n', r')
          else (v, n, 0, s)
      | [] => (v, n, 0, s)
      end in
    if n =? 0 then Err "invalid float literal"
    else match parse_exp s with
         | Some e => Ok (f64_of_decimal false v (e - Z.of_N frac))
         | None => Err "invalid float literal"
         end.
Proof.
  intros s [b [r [-> H]]]. destruct (head_facts b H) as [H1 [H2 [H3 [H4 H5]]]].
  unfold parse_f64. rewrite H1, H2. cbn [map]. rewrite H3.
  assert (I1 : beq (b :: map lower r) (lit "inf") = false).
  { cbn [lit list_byte_of_string beq]. simpl. apply byte_eqb_false in H4. rewrite H4. reflexivity. }
  assert (I2 : beq (b :: map lower r) (lit "infinity") = false).
  { simpl. apply byte_eqb_false in H4. rewrite H4. reflexivity. }
  assert (I3 : beq (b :: map lower r) (lit "nan") = false).
  { simpl. apply byte_eqb_false in H5. rewrite H5. reflexivity. }
  rewrite I1, I2, I3. reflexivity.
Qed.

Lemma numeral_head : forall d ds s, d < 10 -> number_head (numeral (d :: ds) ++ s).
Proof. intros d ds s H. exists (digit_char d), (numeral ds ++ s). split; [reflexivity |]. right. eauto. Qed.

Lemma parse_integer : forall ds, wf_digits ds -> ds <> [] ->
  parse_f64 (numeral ds) = Ok (f64_of_decimal false (number ds) 0).
Proof.
  intros ds W NE. rewrite parse_f64_head.
  - rewrite <- (app_nil_r (numeral ds)). rewrite digits_numeral by (auto; exact I). cbv zeta beta iota.
    apply len_pos in NE. replace (0 + len ds =? 0) with false by lia. reflexivity.
  - destruct ds as [| d ds]; [congruence |]. inv W. rewrite <- (app_nil_r (numeral (d :: ds))).
    apply numeral_head. assumption.
Qed.

Lemma number_app : forall a b, number (a ++ b) = fold_left (fun v d => 10 * v + d) b (number a).
Proof. intros. unfold number. apply fold_left_app. Qed.

Lemma parse_decimal : forall ip fp, wf_digits ip -> wf_digits fp -> ip ++ fp <> [] ->
  parse_f64 (numeral ip ++ x2e :: numeral fp) =
  Ok (f64_of_decimal false (number (ip ++ fp)) (- Z.of_N (len fp))).
Proof.
  intros ip fp Wi Wf NE. rewrite parse_f64_head.
  - rewrite digits_numeral by (auto; reflexivity). cbv zeta beta iota.
    change (Byte.eqb x2e x2e) with true. cbv iota.
    rewrite <- (app_nil_r (numeral fp)). rewrite digits_numeral by (auto; exact I). cbv zeta beta iota.
    apply len_pos in NE. rewrite len_app in NE. replace (0 + len ip + (0 + len fp) =? 0) with false by lia.
    cbn [parse_exp]. fold (number ip). rewrite <- number_app. reflexivity.
  - destruct ip as [| d ip].
    + exists x2e, (numeral fp). split; [reflexivity |]. left. reflexivity.
    + inv Wi. apply numeral_head. assumption.
Qed.

Lemma parse_decimal_ns : forall ip fp, wf_digits ip -> wf_digits fp -> ip ++ fp <> [] ->
  len fp <= 9 -> number (ip ++ fp) < 8388608 * 10 ^ len fp ->
  exists f, parse_f64 (numeral ip ++ x2e :: numeral fp) = Ok f /\
    from_secs f = Ret (number (ip ++ fp) * 10 ^ (9 - len fp)).
Proof.
  intros ip fp Wi Wf NE L B. eexists. split; [apply parse_decimal; assumption |].
  rewrite (from_secs_decimal (number (ip ++ fp)) (Z.of_N (len fp))).
  - f_equal. f_equal. f_equal. lia.
  - lia.
  - apply N2Z.inj_lt in B. rewrite N2Z.inj_mul, N2Z.inj_pow in B. exact B.
Qed.

Lemma parse_integer_ns : forall ds, wf_digits ds -> ds <> [] -> number ds < 8388608 ->
  exists f, parse_f64 (numeral ds) = Ok f /\ from_secs f = Ret (number ds * 1000000000).
Proof.
  intros ds W NE B. eexists. split; [apply parse_integer; assumption |].
  change 0%Z with (- 0)%Z. rewrite (from_secs_decimal (number ds) 0).
  - reflexivity.
  - lia.
  - change (10 ^ 0)%Z with 1%Z. lia.
Qed.

(** offsets_between in terms of positions *)
Lemma offsets_between_at : forall d a b x y z, d = x ++ a ++ y ++ b ++ z ->
  first_at d a (len x) -> first_at (y ++ b ++ z) b (len y) -> y <> [] ->
  offsets_between d a b = Ret (Some (len x + len a, len x + len a + len y)).
Proof.
  intros d a b x y z D F1 F2 NE. unfold offsets_between. apply find_some in F1. rewrite F1.
  rewrite <- len_app. rewrite D, app_assoc, slice_from_app. cbn [bind]. apply find_some in F2. rewrite F2.
  apply len_pos in NE. replace (len (x ++ a) <? len (x ++ a) + len y) with true by lia. reflexivity.
Qed.

(** slicing a text between two places where no character is split *)
Lemma boundary_at : forall a b r, is_cont b = false -> is_char_boundary (a ++ b :: r) (len a) = true.
Proof.
  intros a b r H. unfold is_char_boundary. rewrite len_app, len_cons.
  replace (len a =? len a + (1 + len r)) with false by lia.
  rewrite to_nat_len. rewrite nth_error_app2 by lia. rewrite Nat.sub_diag. simpl. rewrite H. reflexivity.
Qed.

Lemma str_slice_mid : forall x y c z, match y with b :: _ => is_cont b = false | [] => True end ->
  is_cont c = false ->
  str_slice (x ++ y ++ c :: z) (len x) (len x + len y) = Ret y.
Proof.
  intros x y c z Hy Hc. unfold str_slice.
  assert (B1 : is_char_boundary (x ++ y ++ c :: z) (len x) = true).
  { destruct y as [| b y]; apply boundary_at; assumption. }
  assert (B2 : is_char_boundary (x ++ y ++ c :: z) (len x + len y) = true).
  { rewrite app_assoc, <- len_app. apply boundary_at. exact Hc. }
  rewrite B1, B2. rewrite !len_app. replace (len x <=? len x + len y) with true by lia.
  replace (len x + len y <=? len x + (len y + len (c :: z))) with true by lia. cbn [andb].
  pose proof (slice_app _ x y (c :: z)) as S. unfold slice in S. rewrite !len_app in S.
  replace (len x <=? len x + len y) with true in S by lia.
  replace (len x + len y <=? len x + (len y + len (c :: z))) with true in S by lia. exact S.
Qed.

Lemma numeral_bytes : forall ds b, wf_digits ds -> In b (numeral ds) -> is_cont b = false /\ b <> x2c.
Proof.
  intros ds b W H. apply in_map_iff in H. destruct H as [d [<- H]].
  unfold wf_digits in W. rewrite Forall_forall in W. apply W in H. split.
  - unfold is_cont, in_range. rewrite n_of_digit_char by exact H. lia.
  - intros C. apply (f_equal n_of) in C. rewrite n_of_digit_char in C by exact H. change (n_of x2c) with 44 in C. lia.
Qed.

Lemma first_comma : forall y z, ~ In x2c y -> first_at (y ++ lit "," ++ z) (lit ",") (len y).
Proof. intros y z H. apply find_some. exact (find_byte_app y x2c z H). Qed.

Lemma ktx_duration_text : forall E data s a text b f,
  ktxstats_string E data = Ret (Ok s) ->
  s = a ++ lit """duration"": " ++ text ++ lit "," ++ b ->
  first_at s (lit """duration"": ") (len a) ->
  text <> [] -> ~ In x2c text -> match text with c :: _ => is_cont c = false | [] => True end ->
  parse_f64 text = Ok f ->
  match_duration_from_ktxstats E data = let! d := from_secs f in Ret (Ok d).
Proof.
  intros E data s a text b f K S F NE NC B P. unfold match_duration_from_ktxstats. rewrite K. cbn [bind].
  rewrite (offsets_between_at s DURATION_KEY COMMA a text b S F (first_comma text b NC) NE). cbn [bind].
  assert (X : str_slice s (len a + len DURATION_KEY) (len a + len DURATION_KEY + len text) = Ret text).
  { rewrite S, app_assoc, <- len_app. exact (str_slice_mid (a ++ DURATION_KEY) text x2c b B eq_refl). }
  rewrite X. cbn [bind]. rewrite P. reflexivity.
Qed.

Lemma head_not_cont : forall (l : str), (forall b, In b l -> is_cont b = false) ->
  match l with c :: _ => is_cont c = false | [] => True end.
Proof. intros [| c l] H; [exact I |]. apply H. left. reflexivity. Qed.

Lemma ktx_duration_decimal_proof : forall E data s a b ip fp,
  ktxstats_string E data = Ret (Ok s) ->
  s = a ++ lit """duration"": " ++ (numeral ip ++ lit "." ++ numeral fp) ++ lit "," ++ b ->
  first_at s (lit """duration"": ") (len a) ->
  wf_digits ip -> wf_digits fp -> ip ++ fp <> [] -> len fp <= 9 ->
  number (ip ++ fp) < 8388608 * 10 ^ len fp ->
  match_duration_from_ktxstats E data = Ret (Ok (number (ip ++ fp) * 10 ^ (9 - len fp))).
Proof.
  intros E data s a b ip fp K S F Wi Wf NE L B.
  destruct (parse_decimal_ns ip fp Wi Wf NE L B) as [f [P D]].
  assert (A : forall c, In c (numeral ip ++ lit "." ++ numeral fp) -> is_cont c = false /\ c <> x2c).
  { intros c H. apply in_app_or in H. destruct H as [H | H]; [apply (numeral_bytes ip); assumption |].
    apply in_app_or in H. destruct H as [[<- | []] | H]; [split; [reflexivity | discriminate] |].
    apply (numeral_bytes fp); assumption. }
  rewrite (ktx_duration_text E data s a (numeral ip ++ lit "." ++ numeral fp) b f); auto.
  - rewrite D. reflexivity.
  - intros C. apply app_eq_nil in C. destruct C as [_ C]. discriminate.
  - intros C. apply A in C. destruct C as [_ C]. congruence.
  - apply head_not_cont. intros c H. apply A. exact H.
Qed.

Lemma ktx_duration_integer_proof : forall E data s a b ds,
  ktxstats_string E data = Ret (Ok s) ->
  s = a ++ lit """duration"": " ++ numeral ds ++ lit "," ++ b ->
  first_at s (lit """duration"": ") (len a) ->
  wf_digits ds -> ds <> [] -> number ds < 8388608 ->
  match_duration_from_ktxstats E data = Ret (Ok (number ds * 1000000000)).
Proof.
  intros E data s a b ds K S F W NE B.
  destruct (parse_integer_ns ds W NE B) as [f [P D]].
  rewrite (ktx_duration_text E data s a (numeral ds) b f); auto.
  - rewrite D. reflexivity.
  - intros C. apply NE. destruct ds; [reflexivity | discriminate].
  - intros C. apply (numeral_bytes ds) in C; [| exact W]. destruct C as [_ C]. congruence.
  - apply head_not_cont. intros c H. apply (numeral_bytes ds c W H).
Qed.

(** match_duration chooses its source *)
Lemma match_duration_ktx_proof : forall E data r d, serverinfo E data = Ret r ->
  (forall s, r = Ok s -> st_mode s <> Some (lit "hoonymode")) ->
  match_duration_from_ktxstats E data = Ret (Ok d) -> match_duration E data = Ret (Ok d).
Proof.
  intros E data r d S H K. unfold match_duration. rewrite S. cbn [bind]. rewrite (hoony_false r H), K. reflexivity.
Qed.

Lemma match_duration_hoony_proof : forall E data s, serverinfo E data = Ret (Ok s) ->
  st_mode s = Some (lit "hoonymode") -> match_duration E data = demo_duration E data.
Proof.
  intros E data s S H. unfold match_duration. rewrite S. cbn [bind is_hoonymode is_ok_and].
  rewrite H. unfold HOONYMODE. rewrite beq_refl. unfold match_duration_from_seeking.
  rewrite (countdown_hoony_proof E data s S H). unfold demo_duration.
  destruct (duration_until_offset E data _) as [d | p |]; cbn [bind]; [| reflexivity | reflexivity].
  unfold duration_sub. replace (0 <=? d) with true by lia. cbn [bind]. rewrite N.sub_0_r. reflexivity.
Qed.

Lemma match_duration_seeking_proof : forall E data r e, serverinfo E data = Ret r ->
  (forall s, r = Ok s -> st_mode s <> Some (lit "hoonymode")) ->
  match_duration_from_ktxstats E data = Ret (Err e) ->
  match_duration E data = match_duration_from_seeking E data.
Proof.
  intros E data r e S H K. unfold match_duration. rewrite S. cbn [bind]. rewrite (hoony_false r H), K. reflexivity.
Qed.

Lemma no_stats_duration : forall E data, ~ occurs data (lit "{""version"": ") ->
  match_duration_from_ktxstats E data = Ret (Err "ktxstats not found").
Proof.
  intros E data H. unfold match_duration_from_ktxstats, ktxstats_string.
  apply rfind_none in H. unfold VERSION. rewrite H. reflexivity.
Qed.
