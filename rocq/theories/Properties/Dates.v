(** C35, C36, C37, C38, C39: time stamps, match dates, time zones, file names and servers. *)
From Coq Require Import Lia ZifyN ZifyNat ZifyBool.
From Verif.Model Require Import Base Env Serverinfo Timezone Matchdate Ktxstats.
From Verif.Spec Require Import Occ Mvd Texts Utf8 Dates Times.
From Verif.Proofs Require Import BaseFacts TextFacts Utf8Facts DateFacts DateRef ServerFacts.
From Verif.Properties Require Import Sample Texts Stats.
Open Scope N_scope.

(** C36 *)
Theorem matchdate_string_ok : forall data text,
  matchdate_string data = Ret (Ok text) <-> has_matchdate data text.
Proof. exact matchdate_string_ok_proof. Qed.

Theorem matchdate_string_err : forall data,
  (exists m, matchdate_string data = Ret (Err m)) <-> forall text, ~ has_matchdate data text.
Proof. exact matchdate_string_err_proof. Qed.

(** one of the two: it never panics *)
Theorem matchdate_string_returns : forall data, exists r, matchdate_string data = Ret r.
Proof. intros data. destruct (matchdate_string_cases data) as [[t [_ ->]] | [_ [m ->]]]; eauto. Qed.

(** the bytes that a String may consist of *)
Theorem utf8_decided : forall d, utf8_valid d = true <-> utf8_text d.
Proof. exact utf8_valid_iff. Qed.

Definition dated (s : string) : bytes := lit "xx" ++ [x08; x02] ++ lit "matchdate: " ++ lit s ++ [x0a; x00].

Example matchdate_string_example :
  has_matchdate (dated "2024-04-02 21:02:17 CEST") (lit "2024-04-02 21:02:17 CEST") /\
  (forall text, ~ has_matchdate (dated "2024-04-02 21:02:17") text) /\
  (forall text, ~ has_matchdate (dated "2024-04-02 21:02:17 +02:00") text).
Proof.
  split; [apply matchdate_string_ok; vm_compute; reflexivity |].
  split; apply matchdate_string_err; eexists; vm_compute; reflexivity.
Qed.

(** C37 *)
Theorem named_offset : forall z min minus, named_zone z min -> minus_of z minus ->
  utc_offset z = Ret (Some (offset_text minus min)).
Proof. exact named_offset_proof. Qed.

Theorem numeric_offset : forall z min, numeric_zone z min ->
  exists sign, (sign = lit "+" \/ sign = lit "-") /\ (min < 0 -> sign = lit "-")%Z /\ (0 < min -> sign = lit "+")%Z /\
  (exists r, z = sign ++ r) /\
  utc_offset z = Ret (Some (sign ++ two_digits (Z.abs_N min / 60) ++ lit ":" ++ two_digits (Z.abs_N min mod 60))).
Proof. exact numeric_offset_signed. Qed.

Theorem utc_offset_exact : forall z o, utc_offset z = Ret (Some o) <->
  (exists min minus, named_zone z min /\ minus_of z minus /\ o = offset_text minus min) \/ offset_reads z o.
Proof. exact utc_offset_exact_proof. Qed.

Theorem utc_offset_returns : forall z, exists o, utc_offset z = Ret o.
Proof. exact utc_offset_total_proof. Qed.

(** an abbreviation stands for one distance from UTC *)
Theorem zones_distinct : forall z a b, named_zone z a -> named_zone z b -> a = b.
Proof.
  intros z a b [s [S ->]] [t [T E]].
  assert (forallb (fun '(x, n) => forallb (fun '(y, m) => negb (beq (lit x) (lit y)) || (n =? m)%Z) zones) zones = true) as C
    by (vm_compute; reflexivity).
  rewrite forallb_forall in C. specialize (C _ S). cbn beta iota in C.
  rewrite forallb_forall in C. specialize (C _ T). cbn beta iota in C. rewrite E, beq_refl in C. cbn [negb orb] in C. lia.
Qed.

(** not every offset is sign, two digits, colon, two digits; and digits may be missing or
    minutes be too many *)
Theorem offset_form_refuted :
  utc_offset (lit "++100") = Ret (Some (lit "++1:00")) /\
  utc_offset (lit "+1") = Ret (Some (lit "+10:00")) /\
  utc_offset (lit "+") = Ret (Some (lit "+00:00")) /\
  utc_offset (lit "+0175") = Ret (Some (lit "+01:75")) /\
  utc_offset (lit "+1300") = Ret None /\
  utc_offset (lit "MIT") = Ret (Some (encode_char 0x2212 ++ lit "09:30")).
Proof. repeat split; vm_compute; reflexivity. Qed.

Example offset_examples :
  named_zone (lit "CEST") 120 /\ utc_offset (lit "CEST") = Ret (Some (lit "+02:00")) /\
  numeric_zone (lit "-0330") (-210) /\ utc_offset (lit "-0330") = Ret (Some (lit "-03:30")) /\
  numeric_zone (lit "+05:30") 330 /\ utc_offset (lit "+05:30") = Ret (Some (lit "+05:30")) /\
  utc_offset (lit "cest") = Ret None.
Proof.
  split; [exists "CEST"%string; split; [vm_compute; tauto | reflexivity] |]. split; [reflexivity |].
  split; [exists true, 3, 30; repeat split; try lia; left; reflexivity |]. split; [reflexivity |].
  split; [exists false, 5, 30; repeat split; try lia; right; left; reflexivity |]. split; reflexivity.
Qed.

(** C38 *)
(** what is asked of chrono: it reads yyyy-mm-dd hh:mm:ss followed by an offset with any of
    the three signs *)
Definition reads_dates (E : env) : Prop := forall m sign off, valid_moment m -> off < 1440 ->
  (sign = lit "+" -> parse_datetime E (moment_text m ++ sign ++ two_digits (off / 60) ++ lit ":" ++ two_digits (off mod 60))
     = Ok (seconds m - 60 * Z.of_N off)%Z) /\
  (In sign minus_signs -> parse_datetime E (moment_text m ++ sign ++ two_digits (off / 60) ++ lit ":" ++ two_digits (off mod 60))
     = Ok (seconds m + 60 * Z.of_N off)%Z).

Theorem matchdate_instant : forall E data m z min, reads_dates E ->
  valid_moment m -> named_zone z min \/ numeric_zone z min -> len z <= 5 ->
  (exists from, stands_between data matchdate_mark [x0a] (moment_text m ++ lit " " ++ z) from) ->
  matchdate E data = Ret (Ok (seconds m - 60 * min)%Z).
Proof. exact matchdate_proof. Qed.

(** the text handed to the date parser, for every input *)
Theorem matchdate_cases : forall E data,
  ((forall text, ~ has_matchdate data text) -> exists m, matchdate E data = Ret (Err m)) /\
  (forall text, has_matchdate data text ->
     (inside_char text 20 -> matchdate E data = Panic PCharBoundary) /\
     (~ inside_char text 20 -> forall z, z = skipn 20 text ->
        (utc_offset z = Ret None -> exists m, matchdate E data = Ret (Err m)) /\
        (forall o, utc_offset z = Ret (Some o) ->
           (inside_char text 19 -> matchdate E data = Panic PCharBoundary) /\
           (~ inside_char text 19 -> matchdate E data = Ret (parse_datetime E (firstn 19 text ++ o)))))).
Proof. exact matchdate_cases_proof. Qed.

(** the panics, exactly *)
Theorem matchdate_panics : forall E data,
  (exists p, matchdate E data = Panic p) <->
  exists text, has_matchdate data text /\
    (inside_char text 20 \/ (inside_char text 19 /\ exists o, utc_offset (skipn 20 text) = Ret (Some o))).
Proof. exact matchdate_panics_proof. Qed.

Theorem matchdate_returns_refuted : forall E, exists data, matchdate E data = Panic PCharBoundary.
Proof.
  intros E. exists (x08 :: x02 :: lit "matchdate: 2024-04-02 21:02:17" ++ encode_char 0xE9 ++ lit "CEST" ++ [x0a]).
  vm_compute. reflexivity.
Qed.

(** the calendar: days follow each other *)
Theorem next_day : forall y m d, days y m (d + 1) = (days y m d + 1)%Z.
Proof. intros y m d. unfold days. rewrite N2Z.inj_add. change (Z.of_N 1) with 1%Z. ring. Qed.

Lemma zsum_app : forall a b, zsum (a ++ b) = (zsum a + zsum b)%Z.
Proof. induction a as [| x a IH]; intros b; cbn [zsum app]; [lia | rewrite IH; lia]. Qed.

Theorem next_month : forall y m, 1 <= m -> days y (m + 1) 1 = (days y m (month_days y m) + 1)%Z.
Proof.
  intros y m H. unfold days. replace (N.to_nat (m + 1) - 1)%nat with (S (N.to_nat m - 1)) by lia.
  rewrite seq_S, map_app, zsum_app. cbn [map zsum].
  replace (N.of_nat (1 + (N.to_nat m - 1))) with m by lia. lia.
Qed.

Theorem next_year : forall y, days (y + 1) 1 1 = (days y 12 (month_days y 12) + 1)%Z.
Proof.
  intros y. unfold days. replace (N.to_nat (y + 1)) with (S (N.to_nat y)) by lia.
  rewrite seq_S, map_app, zsum_app. cbn [map zsum]. replace (N.of_nat (0 + N.to_nat y)) with y by lia.
  change (N.to_nat 1 - 1)%nat with 0%nat. change (N.to_nat 12 - 1)%nat with 11%nat. cbn [seq map zsum]. generalize (zsum (map (fun i => year_days (N.of_nat i)) (seq 0 (N.to_nat y)))). intros a.
  unfold year_days, month_days.
  repeat match goal with |- context [?c =? ?d] => let v := eval vm_compute in (c =? d) in change (c =? d) with v end.
  cbn [orb]. destruct (leap y); ring.
Qed.

Definition chrono : env :=
  let E := sample true in
  mkEnv (checked E) (eof_on_short_read E) (to_unicode E) (to_utf8 E) (unicode_sort E) (clientinfo_from E)
    (settings_from E) (ktxstats_from E) read_date (to_lowercase E) (players_order E) (teams_order E) (colors_order E).

(** the hypothesis can be met *)
Example reads_dates_met : reads_dates chrono.
Proof. exact read_date_proof. Qed.

Example matchdate_example :
  valid_moment (mkMoment 2024 4 26 16 59 29) /\
  moment_text (mkMoment 2024 4 26 16 59 29) ++ lit " " ++ lit "CEST" = lit "2024-04-26 16:59:29 CEST" /\
  matchdate chrono (dated "2024-04-26 16:59:29 CEST") = Ret (Ok 1714143569%Z) /\
  matchdate chrono (dated "2024-05-20 19:25:42 UTC") = Ret (Ok 1716233142%Z) /\
  matchdate chrono (dated "1970-01-01 00:00:00 -0930") = Ret (Ok 34200%Z) /\
  exists m, matchdate chrono (dated "2024-05-20 19:25:42 XYZ") = Ret (Err m).
Proof.
  split; [repeat split; vm_compute; discriminate || reflexivity |].
  repeat (split; [vm_compute; reflexivity |]). eexists. vm_compute. reflexivity.
Qed.

(** C35 *)
Theorem timestamp_epoch : forall E data info t, 1280 <= len data -> has_serverinfo data info ->
  st_epoch (settings_from E (to_utf8 E info)) = Some t ->
  timestamp_from_epoch E data = Ret (Ok t) /\ timestamp E data = Ret (Ok t).
Proof. exact timestamp_epoch_proof. Qed.

Theorem timestamp_no_epoch : forall E data, 1280 <= len data ->
  (forall info, has_serverinfo data info -> st_epoch (settings_from E (to_utf8 E info)) = None) ->
  (exists m, timestamp_from_epoch E data = Ret (Err m)) /\ timestamp E data = matchdate E data.
Proof. exact timestamp_no_epoch_proof. Qed.

Theorem timestamp_short : forall E data, len data < 1280 ->
  timestamp_from_epoch E data = Panic PSlice /\ timestamp E data = Panic PSlice /\ filename E data = Panic PSlice.
Proof. exact timestamp_short_proof. Qed.

Example timestamp_example :
  let with_epoch := Mvd.encode [info_frame "\mode\1on1\epoch\1713782300"] ++ dated "2024-05-20 19:25:42 UTC" in
  let without := info_data ++ dated "2024-05-20 19:25:42 UTC" in
  timestamp chrono with_epoch = Ret (Ok 1713782300%Z) /\
  timestamp chrono without = Ret (Ok 1716233142%Z) /\
  exists m, timestamp chrono info_data = Ret (Err m).
Proof. cbv zeta. repeat (split; [vm_compute; reflexivity |]). eexists. vm_compute. reflexivity. Qed.

(** C39 *)
Theorem filename_ok : forall E data name, 1280 <= len data ->
  (filename E data = Ret (Ok name) <->
   exists info, has_serverinfo data info /\ st_serverdemo (settings_from E (to_utf8 E info)) = Some name).
Proof. exact filename_proof. Qed.

Theorem filename_err : forall E data, 1280 <= len data ->
  ((exists m, filename E data = Ret (Err m)) <->
   forall info, has_serverinfo data info -> st_serverdemo (settings_from E (to_utf8 E info)) = None).
Proof. exact filename_err_proof. Qed.

(** [numeral ds] is the port in decimal, without leading zeros *)
Theorem server_ok : forall E data text k, ktxstats_string E data = Ret (Ok text) -> ktxstats_from E text = Ok k ->
  exists ds, server E data = Ret (Ok (mkServer (ks_hostname k) (ks_ip k ++ lit ":" ++ numeral ds) (ks_ip k) (ks_port k))) /\
    wf_digits ds /\ number ds = ks_port k /\ (ds = [0] \/ exists d r, ds = d :: r /\ d <> 0).
Proof. intros E data text k T K. apply server_proof. unfold ktxstats_v3. rewrite T. cbn [bind]. rewrite K. reflexivity. Qed.

Theorem server_err : forall E data,
  (forall m, ktxstats_string E data = Ret (Err m) -> server E data = Ret (Err m)) /\
  (forall text m, ktxstats_string E data = Ret (Ok text) -> ktxstats_from E text = Err m -> server E data = Ret (Err m)) /\
  (forall p, ktxstats_string E data = Panic p -> server E data = Panic p).
Proof.
  intros E data. unfold server, ktxstats_v3. repeat split.
  - intros m ->. reflexivity.
  - intros text m -> K. cbn [bind]. rewrite K. reflexivity.
  - intros p ->. reflexivity.
Qed.

Example filename_example :
  filename chrono (Mvd.encode [info_frame "\mode\1on1\serverdemo\duel.mvd"]) = Ret (Ok (lit "duel.mvd")) /\
  (exists m, filename chrono info_data = Ret (Err m)) /\
  server chrono stats_data = Ret (Ok (mkServer (lit "host") (lit "10.0.0.1:27500") (lit "10.0.0.1") 27500)) /\
  numeral [2; 7; 5; 0; 0] = lit "27500" /\ number [2; 7; 5; 0; 0] = 27500.
Proof. split; [vm_compute; reflexivity |]. split; [eexists; vm_compute; reflexivity |]. repeat split; vm_compute; reflexivity. Qed.

Print Assumptions matchdate_string_ok.
Print Assumptions matchdate_string_err.
Print Assumptions matchdate_string_returns.
Print Assumptions utf8_decided.
Print Assumptions named_offset.
Print Assumptions numeric_offset.
Print Assumptions utc_offset_exact.
Print Assumptions utc_offset_returns.
Print Assumptions zones_distinct.
Print Assumptions offset_form_refuted.
Print Assumptions matchdate_instant.
Print Assumptions matchdate_cases.
Print Assumptions matchdate_panics.
Print Assumptions matchdate_returns_refuted.
Print Assumptions next_day.
Print Assumptions next_month.
Print Assumptions next_year.
Print Assumptions timestamp_epoch.
Print Assumptions timestamp_no_epoch.
Print Assumptions timestamp_short.
Print Assumptions filename_ok.
Print Assumptions filename_err.
Print Assumptions server_ok.
Print Assumptions server_err.
