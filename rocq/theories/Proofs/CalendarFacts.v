(** The calendar: moments, instants and their texts are in the same order *)
From Coq Require Import Lia ZifyN ZifyNat ZifyBool.
From Verif.Model Require Import Base Env Matchdate.
From Verif.Spec Require Import Occ Mvd Texts Utf8 Dates Order Copy.
From Verif.Proofs Require Import BaseFacts Utf8Facts FrameFacts OrderFacts DateFacts CopyFacts.

Lemma zsum_snoc : forall a x, zsum (a ++ [x]) = (zsum a + x)%Z.
Proof. induction a as [| y a IH]; intros x; cbn [zsum app]; [lia | rewrite IH; lia]. Qed.

Lemma day_after : forall y m d, days y m (d + 1) = (days y m d + 1)%Z.
Proof. intros y m d. unfold days. lia. Qed.

Lemma month_after : forall y m, 1 <= m -> days y (m + 1) 1 = (days y m (month_days y m) + 1)%Z.
Proof.
  intros y m H. unfold days. replace (N.to_nat (m + 1) - 1)%nat with (S (N.to_nat m - 1)) by lia.
  rewrite seq_S, map_app. cbn [map]. rewrite zsum_snoc.
  replace (N.of_nat (1 + (N.to_nat m - 1))) with m by lia. lia.
Qed.

Lemma year_after : forall y, days (y + 1) 1 1 = (days y 12 (month_days y 12) + 1)%Z.
Proof.
  intros y. unfold days. replace (N.to_nat (y + 1)) with (S (N.to_nat y)) by lia.
  rewrite seq_S, map_app. cbn [map]. rewrite zsum_snoc. replace (N.of_nat (0 + N.to_nat y)) with y by lia.
  change (N.to_nat 1 - 1)%nat with 0%nat. change (N.to_nat 12 - 1)%nat with 11%nat. cbn [seq map zsum].
  generalize (zsum (map (fun i => year_days (N.of_nat i)) (seq 0 (N.to_nat y)))). intros a.
  unfold year_days, month_days.
  repeat match goal with |- context [?c =? ?d] => let v := eval vm_compute in (c =? d) in change (c =? d) with v end.
  cbn [orb]. destruct (leap y); lia.
Qed.

Lemma month_days_bounds : forall y m, 28 <= month_days y m <= 31.
Proof. intros y m. unfold month_days. destruct (m =? 2), (leap y), ((m =? 4) || (m =? 6) || (m =? 9) || (m =? 11)); lia. Qed.

Lemma days_day : forall y m d, days y m d = (days y m 1 + Z.of_N d - 1)%Z.
Proof. intros y m d. unfold days. lia. Qed.

Lemma months_lt : forall y m n, 1 <= m -> m < n -> (days y m (month_days y m) < days y n 1)%Z.
Proof.
  intros y m n H L. replace n with (m + 1 + (n - m - 1)) by lia. set (k := n - m - 1).
  induction k as [| k IH] using N.peano_ind.
  - rewrite N.add_0_r, month_after by lia. lia.
  - replace (m + 1 + N.succ k) with (m + 1 + k + 1) by lia. rewrite month_after by lia.
    rewrite (days_day y (m + 1 + k) (month_days y (m + 1 + k))). pose proof (month_days_bounds y (m + 1 + k)). lia.
Qed.

Lemma year_start : forall y m d, 1 <= m -> 1 <= d -> (days y 1 1 <= days y m d)%Z.
Proof.
  intros y m d M D. rewrite (days_day y m d). destruct (N.eq_dec m 1) as [-> | ]; [lia |].
  pose proof (months_lt y 1 m). rewrite (days_day y 1 (month_days y 1)) in H. pose proof (month_days_bounds y 1). lia.
Qed.

Lemma year_end : forall y m d, 1 <= m <= 12 -> d <= month_days y m -> (days y m d < days (y + 1) 1 1)%Z.
Proof.
  intros y m d M D. rewrite year_after. destruct (N.eq_dec m 12) as [-> | ].
  - rewrite (days_day y 12 d), (days_day y 12 (month_days y 12)). lia.
  - pose proof (months_lt y m 12). rewrite (days_day y m d). rewrite (days_day y m (month_days y m)) in H.
    rewrite (days_day y 12 (month_days y 12)). pose proof (month_days_bounds y 12). lia.
Qed.

Lemma years_lt : forall y z, y < z -> (days (y + 1) 1 1 <= days z 1 1)%Z.
Proof.
  intros y z L. replace z with (y + 1 + (z - y - 1)) by lia. set (k := z - y - 1).
  induction k as [| k IH] using N.peano_ind; [rewrite N.add_0_r; lia |].
  replace (y + 1 + N.succ k) with (y + 1 + k + 1) by lia.
  pose proof (year_end (y + 1 + k) 1 1). pose proof (month_days_bounds (y + 1 + k) 1). lia.
Qed.

Definition date_ok (y m d : N) : Prop := 1 <= m <= 12 /\ 1 <= d <= month_days y m.
Definition date_lt (y m d y' m' d' : N) : Prop := y < y' \/ (y = y' /\ (m < m' \/ (m = m' /\ d < d'))).

Lemma days_lt : forall y m d y' m' d', date_ok y m d -> date_ok y' m' d' -> date_lt y m d y' m' d' ->
  (days y m d < days y' m' d')%Z.
Proof.
  intros y m d y' m' d' [M D] [M' D'] [L | [<- [L | [<- L]]]].
  - pose proof (year_end y m d). pose proof (years_lt y y' L). pose proof (year_start y' m' d'). lia.
  - pose proof (months_lt y m m'). rewrite (days_day y m (month_days y m)) in H.
    rewrite (days_day y m d), (days_day y m' d'). lia.
  - rewrite (days_day y m d), (days_day y m d'). lia.
Qed.

Definition moment_lt (a b : moment) : Prop :=
  date_lt (mo_year a) (mo_month a) (mo_day a) (mo_year b) (mo_month b) (mo_day b) \/
  (mo_year a = mo_year b /\ mo_month a = mo_month b /\ mo_day a = mo_day b /\
   date_lt (mo_hour a) (mo_minute a) (mo_second a) (mo_hour b) (mo_minute b) (mo_second b)).

Lemma moment_cases : forall a b, moment_lt a b \/ a = b \/ moment_lt b a.
Proof.
  intros [y m d h i s] [y' m' d' h' i' s']. unfold moment_lt, date_lt. cbn [mo_year mo_month mo_day mo_hour mo_minute mo_second].
  destruct (N.lt_trichotomy y y') as [?|[<-|?]]; [lia | | lia].
  destruct (N.lt_trichotomy m m') as [?|[<-|?]]; [lia | | lia].
  destruct (N.lt_trichotomy d d') as [?|[<-|?]]; [lia | | lia].
  destruct (N.lt_trichotomy h h') as [?|[<-|?]]; [lia | | lia].
  destruct (N.lt_trichotomy i i') as [?|[<-|?]]; [lia | | lia].
  destruct (N.lt_trichotomy s s') as [?|[<-|?]]; [lia | | lia].
  right. left. reflexivity.
Qed.

Lemma seconds_lt : forall a b, valid_moment a -> valid_moment b -> moment_lt a b -> (seconds a < seconds b)%Z.
Proof.
  intros [y m d h i s] [y' m' d' h' i' s']. unfold valid_moment, moment_lt, seconds.
  cbn [mo_year mo_month mo_day mo_hour mo_minute mo_second]. intros (V1 & V2 & V3 & V4 & V5 & V6) (W1 & W2 & W3 & W4 & W5 & W6) [L | (<- & <- & <- & L)].
  - apply days_lt in L; [| split; lia | split; lia]. lia.
  - unfold date_lt in L. lia.
Qed.

(** ** Texts *)
Lemma char_of_n : forall d, d < 10 -> n_of (char_of d) = 48 + d.
Proof. intros d H. unfold char_of. rewrite n_of_byte_of. lia. Qed.

Lemma text_lt_same : forall c a b, text_lt a b -> text_lt (c ++ a) (c ++ b).
Proof. induction c as [| x c IH]; intros a b L; [exact L |]. cbn [app]. apply text_lt_cons. right. split; [reflexivity | apply IH, L]. Qed.

Lemma lex10 : forall n m, n < m -> n / 10 < m / 10 \/ (n / 10 = m / 10 /\ n mod 10 < m mod 10).
Proof.
  intros n m L. pose proof (N.div_mod n 10). pose proof (N.div_mod m 10).
  pose proof (N.mod_lt n 10). pose proof (N.mod_lt m 10). lia.
Qed.

Lemma two_lt : forall n m a b, n < m -> m < 100 -> text_lt (two_digits n ++ a) (two_digits m ++ b).
Proof.
  intros n m a b L H. unfold two_digits. cbn [app].
  rewrite !text_lt_cons, !char_of_n by (apply N.mod_lt; lia).
  assert (n / 10 < 10) by (apply N.div_lt_upper_bound; lia). assert (m / 10 < 10) by (apply N.div_lt_upper_bound; lia).
  rewrite (N.mod_small (n / 10)), (N.mod_small (m / 10)) by assumption.
  destruct (lex10 n m L) as [D | [D D']]; [left; lia | right; split; [rewrite D; reflexivity | left; lia]].
Qed.

Lemma four_two : forall n, four_digits n = two_digits (n / 100) ++ two_digits n.
Proof. intros n. unfold four_digits, two_digits. rewrite N.div_div by lia. reflexivity. Qed.

Lemma two_mod : forall n, two_digits n = two_digits (n mod 100).
Proof.
  intros n. unfold two_digits. f_equal; [| f_equal]; f_equal; pose proof (N.div_mod n 100).
  - rewrite H at 1 by lia. replace (100 * (n / 100) + n mod 100) with (n mod 100 + (n / 100 * 10) * 10) by lia.
    rewrite N.div_add, N.mod_add by lia. reflexivity.
  - rewrite H at 1 by lia. replace (100 * (n / 100) + n mod 100) with (n mod 100 + (n / 100 * 10) * 10) by lia.
    rewrite N.mod_add by lia. reflexivity.
Qed.

Lemma four_lt : forall n m a b, n < m -> m < 10000 -> text_lt (four_digits n ++ a) (four_digits m ++ b).
Proof.
  intros n m a b L H. rewrite !four_two, <- !app_assoc.
  assert (m / 100 < 100) by (apply N.div_lt_upper_bound; lia).
  assert (D : n / 100 < m / 100 \/ (n / 100 = m / 100 /\ n mod 100 < m mod 100)).
  { pose proof (N.div_mod n 100). pose proof (N.div_mod m 100). pose proof (N.mod_lt n 100). pose proof (N.mod_lt m 100). lia. }
  destruct D as [D | [D D']]; [apply two_lt; assumption |].
  rewrite D, (two_mod n), (two_mod m). apply text_lt_same, two_lt; [exact D' | apply N.mod_lt; lia].
Qed.

Lemma moment_text_lt : forall a b z, valid_moment a -> valid_moment b -> moment_lt a b ->
  text_lt (moment_text a ++ z) (moment_text b ++ z).
Proof.
  intros [y m d h i s] [y' m' d' h' i' s'] z. unfold valid_moment, moment_lt, date_lt, moment_text.
  cbn [mo_year mo_month mo_day mo_hour mo_minute mo_second]. intros (V1 & V2 & V3 & V4 & V5 & V6) (W1 & W2 & W3 & W4 & W5 & W6) L.
  pose proof (month_days_bounds y m). pose proof (month_days_bounds y' m'). rewrite <- !app_assoc.
  destruct (N.lt_trichotomy y y') as [?|[<-|?]]; [apply four_lt; lia | do 2 apply text_lt_same | lia].
  destruct (N.lt_trichotomy m m') as [?|[<-|?]]; [apply two_lt; lia | do 2 apply text_lt_same | lia].
  destruct (N.lt_trichotomy d d') as [?|[<-|?]]; [apply two_lt; lia | do 2 apply text_lt_same | lia].
  destruct (N.lt_trichotomy h h') as [?|[<-|?]]; [apply two_lt; lia | do 2 apply text_lt_same | lia].
  destruct (N.lt_trichotomy i i') as [?|[<-|?]]; [apply two_lt; lia | do 2 apply text_lt_same | lia].
  apply two_lt; lia.
Qed.

Lemma moments_order : forall a b z, valid_moment a -> valid_moment b ->
  (text_lt (moment_text a ++ z) (moment_text b ++ z) <-> (seconds a < seconds b)%Z) /\
  (seconds a = seconds b <-> a = b) /\ (moment_text a ++ z = moment_text b ++ z <-> a = b).
Proof.
  intros a b z A B. destruct (moment_cases a b) as [L | [<- | L]].
  - pose proof (seconds_lt a b A B L) as S. pose proof (moment_text_lt a b z A B L) as T. repeat split; intros X; try assumption; try lia.
    + subst b. lia.
    + rewrite X in T. destruct (text_lt_irrefl _ T).
    + subst b. reflexivity.
  - repeat split; intros X; try reflexivity; try lia. destruct (text_lt_irrefl _ X).
  - pose proof (seconds_lt b a B A L) as S. pose proof (moment_text_lt b a z B A L) as T. repeat split; intros X; try lia.
    + destruct (text_lt_asym _ _ T X).
    + subst b. lia.
    + rewrite X in T. destruct (text_lt_irrefl _ T).
    + subst b. reflexivity.
Qed.

(** ** Every instant *)
Lemma every_day : forall k : nat, exists y m d, date_ok y m d /\ days y m d = Z.of_nat k.
Proof.
  induction k as [| k (y & m & d & [M D] & K)].
  - exists 0, 1, 1. split; [split; [lia | pose proof (month_days_bounds 0 1); lia] | reflexivity].
  - destruct (N.eq_dec d (month_days y m)) as [-> | ].
    + destruct (N.eq_dec m 12) as [-> | ].
      * exists (y + 1), 1, 1. split; [split; [lia | pose proof (month_days_bounds (y + 1) 1); lia] |]. rewrite year_after. lia.
      * exists y, (m + 1), 1. split; [split; [lia | pose proof (month_days_bounds y (m + 1)); lia] |]. rewrite month_after by lia. lia.
    + exists y, m, (d + 1). split; [split; lia |]. rewrite day_after. lia.
Qed.

Lemma from_year : forall x y m d, date_ok y m d -> x <= y -> (days x 1 1 <= days y m d)%Z.
Proof.
  intros x y m d [M D] L. pose proof (year_start y m d). destruct (N.eq_dec x y) as [<- | ]; [lia |].
  pose proof (years_lt x y). pose proof (year_end x 1 1). pose proof (month_days_bounds x 1). lia.
Qed.

Lemma to_year : forall x y m d, date_ok y m d -> y < x -> (days y m d < days x 1 1)%Z.
Proof. intros x y m d [M D] L. pose proof (year_end y m d). pose proof (years_lt y x L). lia. Qed.

Lemma multiples : forall k y, 0 < k -> (y + 1 + (k - 1)) / k = (y + (k - 1)) / k + (if y mod k =? 0 then 1 else 0).
Proof.
  intros k y K. pose proof (N.div_mod y k ltac:(lia)) as D. pose proof (N.mod_lt y k ltac:(lia)) as L.
  set (q := y / k) in *. set (r := y mod k) in *. symmetry. destruct (r =? 0) eqn:Q.
  - replace (y + (k - 1)) with ((k - 1) + q * k) by lia. replace (y + 1 + (k - 1)) with (0 + (q + 1) * k) by lia.
    rewrite !N.div_add by lia. rewrite !N.div_small by lia. lia.
  - replace (y + (k - 1)) with ((r - 1) + (q + 1) * k) by lia. replace (y + 1 + (k - 1)) with (r + (q + 1) * k) by lia.
    rewrite !N.div_add by lia. rewrite !N.div_small by lia. lia.
Qed.

Lemma multiple_of : forall a b y, a <> 0 -> b <> 0 -> y mod (a * b) = 0 -> y mod a = 0.
Proof.
  intros a b y A B H. apply N.mod_divide in H; [| nia]. destruct H as [q ->]. apply N.mod_divide; [exact A |].
  exists (q * b). ring.
Qed.

Lemma days_year : forall y, days y 1 1 = (365 * Z.of_N y + Z.of_N ((y + 3) / 4) - Z.of_N ((y + 99) / 100) + Z.of_N ((y + 399) / 400))%Z.
Proof.
  induction y as [| y IH] using N.peano_ind; [reflexivity |]. rewrite <- N.add_1_r.
  pose proof (multiples 4 y eq_refl) as A. pose proof (multiples 100 y eq_refl) as B. pose proof (multiples 400 y eq_refl) as C.
  change (4 - 1) with 3 in A. change (100 - 1) with 99 in B. change (400 - 1) with 399 in C. rewrite A, B, C. clear A B C.
  assert (S : days (y + 1) 1 1 = (days y 1 1 + year_days y)%Z).
  { unfold days. replace (N.to_nat (y + 1)) with (S (N.to_nat y)) by lia.
    rewrite seq_S, map_app. cbn [map]. rewrite zsum_snoc. replace (N.of_nat (0 + N.to_nat y)) with y by lia.
    change (N.to_nat 1 - 1)%nat with 0%nat. cbn [seq map zsum]. lia. }
  rewrite S, IH. unfold year_days, leap.
  pose proof (multiple_of 4 25 y ltac:(lia) ltac:(lia)) as P. change (4 * 25) with 100 in P.
  pose proof (multiple_of 100 4 y ltac:(lia) ltac:(lia)) as Q. change (100 * 4) with 400 in Q.
  destruct (y mod 4 =? 0) eqn:X, (y mod 100 =? 0) eqn:Y, (y mod 400 =? 0) eqn:Z; cbn [andb orb negb]; try lia;
    apply N.eqb_eq in Z || apply N.eqb_eq in Y; (apply N.eqb_neq in X || apply N.eqb_neq in Y); tauto || (exfalso; tauto).
Qed.

Lemma days_10000 : days 10000 1 1 = 3652425%Z.
Proof. rewrite days_year. reflexivity. Qed.
Lemma days_1970 : days 1970 1 1 = 719528%Z.
Proof. rewrite days_year. reflexivity. Qed.
Lemma days_0 : days 0 1 1 = 0%Z.
Proof. reflexivity. Qed.

Lemma every_second : forall t, (-62167219200 <= t < 253402300800)%Z -> exists m, valid_moment m /\ seconds m = t.
Proof.
  intros t T. set (u := (t + 62167219200)%Z). set (r := (u mod 86400)%Z).
  assert (R : (0 <= r < 86400)%Z) by (apply Z.mod_pos_bound; lia).
  assert (Q : u = (86400 * (u / 86400) + r)%Z) by (apply Z.div_mod; lia).
  destruct (every_day (Z.to_nat (u / 86400))) as (y & m & d & D & K).
  assert (P : (0 <= u / 86400 < 3652425)%Z) by lia.
  assert (Y : y < 10000).
  { destruct (N.lt_ge_cases y 10000) as [| G]; [assumption | exfalso].
    pose proof (from_year 10000 y m d D G) as C. rewrite days_10000, K in C. clear - C P. lia. }
  set (h := (r / 3600)%Z). set (s := (r mod 3600)%Z).
  assert (HS : r = (3600 * h + s)%Z) by (apply Z.div_mod; lia). assert (S3 : (0 <= s < 3600)%Z) by (apply Z.mod_pos_bound; lia).
  set (i := (s / 60)%Z). set (e := (s mod 60)%Z).
  assert (IE : s = (60 * i + e)%Z) by (apply Z.div_mod; lia). assert (E6 : (0 <= e < 60)%Z) by (apply Z.mod_pos_bound; lia).
  exists (mkMoment y m d (Z.to_N h) (Z.to_N i) (Z.to_N e)). unfold valid_moment, seconds.
  cbn [mo_year mo_month mo_day mo_hour mo_minute mo_second]. destruct D as [D1 D2]. split; [lia |].
  rewrite days_1970, K. lia.
Qed.

Lemma seconds_range : forall m, valid_moment m -> (-62167219200 <= seconds m < 253402300800)%Z.
Proof.
  intros [y m d h i s]. unfold valid_moment, seconds. cbn [mo_year mo_month mo_day mo_hour mo_minute mo_second].
  intros (V1 & V2 & V3 & V4 & V5 & V6). rewrite days_1970.
  assert (O : date_ok y m d) by (split; assumption).
  pose proof (from_year 0 y m d O (N.le_0_l y)) as A. rewrite days_0 in A. pose proof (to_year 10000 y m d O V1) as B. rewrite days_10000 in B.
  lia.
Qed.

(** ** Demos *)
Lemma printed_not_newline : forall t, Forall (fun b => 32 <= n_of b) t -> ~ In x0a t.
Proof. intros t F I. rewrite Forall_forall in F. specialize (F _ I). cbv in F. exact (F eq_refl). Qed.

Lemma printed_two : forall n, Forall (fun b => 32 <= n_of b) (two_digits n).
Proof. intros n. unfold two_digits. repeat constructor; rewrite char_of_n by (apply N.mod_lt; lia); lia. Qed.
Lemma printed_four : forall n, Forall (fun b => 32 <= n_of b) (four_digits n).
Proof. intros n. unfold four_digits. repeat constructor; rewrite char_of_n by (apply N.mod_lt; lia); lia. Qed.
Lemma printed_all : forall t, forallb (fun b => 32 <=? n_of b) t = true -> Forall (fun b => 32 <= n_of b) t.
Proof. intros t F. apply Forall_forall. intros b I. rewrite forallb_forall in F. specialize (F b I). lia. Qed.

Lemma printed_moment : forall m, Forall (fun b => 32 <= n_of b) (moment_text m).
Proof.
  intros m. unfold moment_text. repeat (apply Forall_app; split);
    first [apply printed_four | apply printed_two | apply printed_all; reflexivity].
Qed.

Lemma printed_zone : forall z min, named_zone z min \/ numeric_zone z min -> Forall (fun b => 32 <= n_of b) z.
Proof.
  intros z min [[a [I ->]] | [neg [h [m [_ [_ [_ H]]]]]]].
  - assert (forallb (fun '(a, _) => forallb (fun b => 32 <=? n_of b) (lit a)) zones = true) as C by (vm_compute; reflexivity).
    rewrite forallb_forall in C. specialize (C _ I). cbn beta iota in C. apply printed_all, C.
  - cbv zeta in H. assert (Forall (fun b => 32 <= n_of b) (if neg then lit "-" else lit "+")) as S
      by (destruct neg; apply printed_all; reflexivity).
    destruct H as [-> | [-> | [_ ->]]]; repeat (apply Forall_app; split);
      first [exact S | apply printed_two | apply printed_all; reflexivity].
Qed.

Lemma date_written : forall m z min, named_zone z min \/ numeric_zone z min ->
  stands_between (date_copy (moment_text m ++ lit " " ++ z)) matchdate_mark [x0a] (moment_text m ++ lit " " ++ z) (len matchdate_mark).
Proof.
  intros m z min Z. exists [], []. split; [unfold date_copy; rewrite app_nil_r; reflexivity |]. split; [reflexivity |].
  split; [apply first_here |]. apply first_byte, printed_not_newline.
  apply Forall_app. split; [apply printed_moment |]. apply Forall_app. split; [apply printed_all; reflexivity | exact (printed_zone z min Z)].
Qed.

Lemma date_text : forall m z min, named_zone z min \/ numeric_zone z min -> len z <= 5 ->
  22 <= len (moment_text m ++ lit " " ++ z) <= 25 /\ utf8_text (moment_text m ++ lit " " ++ z).
Proof.
  intros m z min Z L. destruct (zone_ascii z min Z) as [AZ L2]. rewrite !len_app, len_moment. change (len (lit " ")) with 1.
  split; [lia |]. apply ascii_utf8, ascii_app; [apply ascii_moment | apply ascii_app; [repeat constructor | exact AZ]].
Qed.
