(** C86: match dates in order *)
From Coq Require Import Lia ZifyN ZifyNat ZifyBool.
From Verif.Model Require Import Base Env Matchdate.
From Verif.Spec Require Import Occ Texts Utf8 Dates Order Copy.
From Verif.Proofs Require Import DateFacts CalendarFacts.
From Verif.Properties Require Import Sample Texts Dates.
Open Scope N_scope.

(** the days before a year: a leap day every four years, not every hundred, but every four
    hundred *)
Theorem days_before_year : forall y,
  days y 1 1 = (365 * Z.of_N y + Z.of_N ((y + 3) / 4) - Z.of_N ((y + 99) / 100) + Z.of_N ((y + 399) / 400))%Z.
Proof. exact days_year. Qed.

(** an earlier moment has the smaller number of seconds and the text that is first in the
    dictionary; different moments have different numbers and texts *)
Theorem moments_in_order : forall a b, valid_moment a -> valid_moment b ->
  (text_lt (moment_text a) (moment_text b) <-> (seconds a < seconds b)%Z) /\
  (seconds a = seconds b <-> a = b) /\ (moment_text a = moment_text b <-> a = b).
Proof. intros a b A B. pose proof (moments_order a b [] A B) as H. rewrite !app_nil_r in H. exact H. Qed.

(** demos dated in the same zone: the texts are ordered as the times *)
Theorem dates_in_order : forall E d d' m m' z min, reads_dates E ->
  valid_moment m -> valid_moment m' -> named_zone z min \/ numeric_zone z min ->
  matchdate_string d = Ret (Ok (moment_text m ++ lit " " ++ z)) ->
  matchdate_string d' = Ret (Ok (moment_text m' ++ lit " " ++ z)) ->
  exists t t', matchdate E d = Ret (Ok t) /\ matchdate E d' = Ret (Ok t') /\
    (text_lt (moment_text m ++ lit " " ++ z) (moment_text m' ++ lit " " ++ z) <-> (t < t')%Z) /\
    (moment_text m ++ lit " " ++ z = moment_text m' ++ lit " " ++ z <-> t = t').
Proof.
  intros E d d' m m' z min R V V' Z S S'. apply matchdate_string_ok in S, S'. destruct S as [S [L _]], S' as [S' _].
  assert (len z <= 5) as LZ by (rewrite !BaseFacts.len_app, len_moment in L; change (len (lit " ")) with 1 in L; lia).
  exists (seconds m - 60 * min)%Z, (seconds m' - 60 * min)%Z.
  split; [exact (matchdate_instant E d m z min R V Z LZ S) |]. split; [exact (matchdate_instant E d' m' z min R V' Z LZ S') |].
  destruct (moments_order m m' (lit " " ++ z) V V') as (A & B & C). rewrite A, C, <- B. lia.
Qed.

(** in different zones: the same time if the clocks differ by the distance of the zones *)
Theorem dates_across_zones : forall E d d' m m' z z' min min', reads_dates E ->
  valid_moment m -> valid_moment m' -> named_zone z min \/ numeric_zone z min -> named_zone z' min' \/ numeric_zone z' min' ->
  matchdate_string d = Ret (Ok (moment_text m ++ lit " " ++ z)) ->
  matchdate_string d' = Ret (Ok (moment_text m' ++ lit " " ++ z')) ->
  (matchdate E d = matchdate E d' <-> (seconds m - seconds m' = 60 * (min - min'))%Z).
Proof.
  intros E d d' m m' z z' min min' R V V' Z Z' S S'. apply matchdate_string_ok in S, S'. destruct S as [S [L _]], S' as [S' [L' _]].
  assert (len z <= 5) as LZ by (rewrite !BaseFacts.len_app, len_moment in L; change (len (lit " ")) with 1 in L; lia).
  assert (len z' <= 5) as LZ' by (rewrite !BaseFacts.len_app, len_moment in L'; change (len (lit " ")) with 1 in L'; lia).
  rewrite (matchdate_instant E d m z min R V Z LZ S), (matchdate_instant E d' m' z' min' R V' Z' LZ' S').
  split; [intros H; assert (seconds m - 60 * min = seconds m' - 60 * min')%Z by congruence; lia | intros H; do 2 f_equal; lia].
Qed.

(** in every zone there is exactly one date for each time of the years 0000 to 9999 of that
    zone, and a demo with it; other times do not occur *)
Theorem every_instant : forall E z min t, reads_dates E -> named_zone z min \/ numeric_zone z min -> len z <= 5 ->
  ((-62167219200 <= t + 60 * min < 253402300800)%Z ->
    exists m, valid_moment m /\
      matchdate_string (date_copy (moment_text m ++ lit " " ++ z)) = Ret (Ok (moment_text m ++ lit " " ++ z)) /\
      matchdate E (date_copy (moment_text m ++ lit " " ++ z)) = Ret (Ok t) /\
      forall n, valid_moment n -> matchdate E (date_copy (moment_text n ++ lit " " ++ z)) = Ret (Ok t) -> n = m) /\
  (~ (-62167219200 <= t + 60 * min < 253402300800)%Z ->
    forall d m, valid_moment m -> matchdate_string d = Ret (Ok (moment_text m ++ lit " " ++ z)) -> matchdate E d <> Ret (Ok t)).
Proof.
  intros E z min t R Z LZ. split.
  - intros T. destruct (every_second _ T) as [m [V Q]]. exists m. split; [exact V |].
    assert (forall n, valid_moment n -> matchdate E (date_copy (moment_text n ++ lit " " ++ z)) = Ret (Ok (seconds n - 60 * min)%Z)) as I.
    { intros n W. apply (matchdate_instant E _ n z min R W Z LZ). eexists. exact (date_written n z min Z). }
    split; [apply matchdate_string_ok; split; [eexists; exact (date_written m z min Z) | exact (date_text m z min Z LZ)] |].
    split; [rewrite (I m V); do 2 f_equal; lia |].
    intros n W H. rewrite (I n W) in H. assert (seconds n - 60 * min = t)%Z by congruence. apply (proj1 (proj1 (proj2 (moments_in_order n m W V)))). lia.
  - intros N d m V S H. apply matchdate_string_ok in S. destruct S as [S _].
    rewrite (matchdate_instant E d m z min R V Z LZ S) in H. assert (seconds m - 60 * min = t)%Z by congruence. pose proof (seconds_range m V). lia.
Qed.

(** the end of February and of a year; two zones *)
Example calendar_example :
  valid_moment (mkMoment 2024 2 29 23 59 59) /\ valid_moment (mkMoment 2024 3 1 0 0 0) /\
  ~ valid_moment (mkMoment 2023 2 29 23 59 59) /\
  seconds (mkMoment 2024 3 1 0 0 0) = (seconds (mkMoment 2024 2 29 23 59 59) + 1)%Z /\
  text_lt (moment_text (mkMoment 2024 2 29 23 59 59)) (moment_text (mkMoment 2024 3 1 0 0 0)) /\
  text_lt (moment_text (mkMoment 1999 12 31 23 59 59)) (moment_text (mkMoment 2000 1 1 0 0 0)) /\
  matchdate chrono (dated "2024-03-01 01:30:00 CET") = Ret (Ok 1709253000%Z) /\
  matchdate chrono (dated "2024-02-29 19:30:00 EST") = Ret (Ok 1709253000%Z).
Proof.
  assert (V1 : valid_moment (mkMoment 2024 2 29 23 59 59)) by (repeat split; vm_compute; discriminate || reflexivity).
  assert (V2 : valid_moment (mkMoment 2024 3 1 0 0 0)) by (repeat split; vm_compute; discriminate || reflexivity).
  split; [exact V1 |]. split; [exact V2 |].
  split; [intros (_ & _ & [_ H] & _); vm_compute in H; exact (H eq_refl) |].
  split; [vm_compute; reflexivity |].
  split; [right; exists (lit "2024-0"), x32, x33, (lit "-29 23:59:59"), (lit "-01 00:00:00"); vm_compute; auto |].
  split; [right; exists [], x31, x32, (lit "999-12-31 23:59:59"), (lit "000-01-01 00:00:00"); vm_compute; auto |].
  split; vm_compute; reflexivity.
Qed.

(** not across zones: the later text is the earlier time *)
Theorem dates_in_order_refuted : exists d d' s s' t t', matchdate_string d = Ret (Ok s) /\ matchdate_string d' = Ret (Ok s') /\
  matchdate chrono d = Ret (Ok t) /\ matchdate chrono d' = Ret (Ok t') /\ text_lt s s' /\ (t' < t)%Z.
Proof.
  exists (dated "2024-02-29 20:30:00 EST"), (dated "2024-03-01 01:30:00 CET"), (lit "2024-02-29 20:30:00 EST"), (lit "2024-03-01 01:30:00 CET").
  exists 1709256600%Z, 1709253000%Z. do 4 (split; [vm_compute; reflexivity |]). split; [| reflexivity].
  right. exists (lit "2024-0"), x32, x33, (lit "-29 20:30:00 EST"), (lit "-01 01:30:00 CET"). vm_compute. auto.
Qed.

Print Assumptions days_before_year.
Print Assumptions moments_in_order.
Print Assumptions dates_in_order.
Print Assumptions dates_across_zones.
Print Assumptions every_instant.
Print Assumptions dates_in_order_refuted.
