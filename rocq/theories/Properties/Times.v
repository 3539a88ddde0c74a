(** Durations: C06, C07, C08, C09. *)
From Verif.Model Require Import Base Env Frame Serverinfo Ktxstats Float Duration.
From Verif.Spec Require Import Occ Mvd Messages Times.
From Verif.Proofs Require Import BaseFacts TimeFacts DecimalFacts.
From Verif.Properties Require Import Sample.
Open Scope N_scope.

(** C06 *)
Theorem end_marker_exists : forall data, exists t, end_marker data t /\ forall t', end_marker data t' -> t' = t.
Proof.
  intros data. eexists. split; [apply end_marker_offset |]. intros t' H.
  apply (end_marker_unique data); [exact H | apply end_marker_offset].
Qed.

Theorem demo_duration_sum : forall E fs rest t, wf fs -> stops (len (encode fs ++ rest)) rest ->
  end_marker (encode fs ++ rest) t -> elapsed t fs < 4294967296 ->
  exists d, demo_duration E (encode fs ++ rest) = Ret (Ok d) /\ Z.of_N d = ms_to_ns (elapsed t fs).
Proof. exact demo_duration_proof. Qed.

(** without the bound on the sum *)
Theorem demo_duration_overflow : forall E fs rest t, wf fs -> stops (len (encode fs ++ rest)) rest ->
  end_marker (encode fs ++ rest) t -> 4294967296 <= elapsed t fs ->
  if checked E then demo_duration E (encode fs ++ rest) = Panic POverflow
  else exists d, demo_duration E (encode fs ++ rest) = Ret (Ok d) /\
       Z.of_N d = ms_to_ns (elapsed t fs mod 4294967296).
Proof. exact demo_duration_overflow_proof. Qed.

(** a truncated last frame matters only if it starts before the end marker *)
Theorem demo_duration_truncated : forall E fs rest t, wf fs -> overruns (len (encode fs ++ rest)) rest ->
  end_marker (encode fs ++ rest) t -> elapsed t fs < 4294967296 ->
  (t <= len (encode fs) ->
   exists d, demo_duration E (encode fs ++ rest) = Ret (Ok d) /\ Z.of_N d = ms_to_ns (elapsed t fs)) /\
  (len (encode fs) < t -> exists p, demo_duration E (encode fs ++ rest) = Panic p).
Proof. exact demo_duration_truncated_proof. Qed.

(** C07 *)
Theorem ms_conversion : forall ms, ms < 4294967296 ->
  duration_of_ms ms = Ret (Z.to_N (ms_to_ns ms)) /\ (0 <= ms_to_ns ms)%Z.
Proof. exact ms_to_ns_value. Qed.

Theorem ms_to_ns_mono : forall a b, a <= b -> (ms_to_ns a <= ms_to_ns b)%Z.
Proof. exact ms_to_ns_mono_proof. Qed.

Theorem ms_to_ns_close : forall ms, ms < 16384000 ->
  (2 * Z.abs (ms_to_ns ms - 1000000 * Z.of_N ms) < 1000000)%Z.
Proof. exact ms_to_ns_close_proof. Qed.

Theorem ms_to_ns_seconds : forall ms, ms < 16777216 ->
  (ms_to_ns ms / 1000000000 = Z.of_N (ms / 1000))%Z.
Proof. exact ms_to_ns_seconds_proof. Qed.

Theorem ms_to_ns_whole : forall s, s <= 16777 -> ms_to_ns (1000 * s) = (Z.of_N s * 1000000000)%Z.
Proof. exact ms_to_ns_whole_proof. Qed.

(** The bound of [ms_to_ns_seconds] is needed: at 16 777 999 ms the result is a full second
    ahead. *)
Theorem ms_to_ns_seconds_refuted : exists ms d, ms < 4294967296 /\ duration_of_ms ms = Ret d /\
  d / 1000000000 <> ms / 1000.
Proof. exists 16777999, 16778000000000. vm_compute. repeat split; discriminate. Qed.

(** C08 *)
Theorem match_duration_seeking : forall E fs rest r t, wf fs -> stops (len (encode fs ++ rest)) rest ->
  serverinfo E (encode fs ++ rest) = Ret r ->
  end_marker (encode fs ++ rest) t -> elapsed t fs < 4294967296 ->
  (forall c, first_at (encode fs ++ rest) matchdate_marker c -> c <= t) ->
  exists total countdown,
    demo_duration E (encode fs ++ rest) = Ret (Ok total) /\
    (countdown_duration E (encode fs ++ rest) = Ret (Ok countdown) \/
     exists e, countdown_duration E (encode fs ++ rest) = Ret (Err e) /\ countdown = 0) /\
    countdown <= total /\
    match_duration_from_seeking E (encode fs ++ rest) = Ret (Ok (total - countdown)).
Proof. exact seeking_proof. Qed.

Theorem countdown_sum : forall E fs rest r c, wf fs -> stops (len (encode fs ++ rest)) rest ->
  serverinfo E (encode fs ++ rest) = Ret r ->
  (forall s, r = Ok s -> st_mode s <> Some (lit "hoonymode")) ->
  first_at (encode fs ++ rest) matchdate_marker c -> elapsed c fs < 4294967296 ->
  exists d, countdown_duration E (encode fs ++ rest) = Ret (Ok d) /\ Z.of_N d = ms_to_ns (elapsed c fs).
Proof. exact countdown_proof. Qed.

(** C09 *)
Theorem countdown_hoonymode : forall E data s, serverinfo E data = Ret (Ok s) ->
  st_mode s = Some (lit "hoonymode") -> countdown_duration E data = Ret (Ok 0).
Proof. exact countdown_hoony_proof. Qed.

Theorem match_duration_hoonymode : forall E data s, serverinfo E data = Ret (Ok s) ->
  st_mode s = Some (lit "hoonymode") -> match_duration E data = demo_duration E data.
Proof. exact match_duration_hoony_proof. Qed.

Theorem match_duration_decimal : forall E data r s a b ip fp,
  serverinfo E data = Ret r -> (forall s, r = Ok s -> st_mode s <> Some (lit "hoonymode")) ->
  ktxstats_string E data = Ret (Ok s) ->
  s = a ++ lit """duration"": " ++ (numeral ip ++ lit "." ++ numeral fp) ++ lit "," ++ b ->
  first_at s (lit """duration"": ") (len a) ->
  wf_digits ip -> wf_digits fp -> ip ++ fp <> [] -> len fp <= 9 ->
  number (ip ++ fp) < 8388608 * 10 ^ len fp ->
  match_duration E data = Ret (Ok (number (ip ++ fp) * 10 ^ (9 - len fp))).
Proof.
  intros. eapply match_duration_ktx_proof; eauto. eapply ktx_duration_decimal_proof; eauto.
Qed.

Theorem match_duration_integer : forall E data r s a b ds,
  serverinfo E data = Ret r -> (forall s, r = Ok s -> st_mode s <> Some (lit "hoonymode")) ->
  ktxstats_string E data = Ret (Ok s) ->
  s = a ++ lit """duration"": " ++ numeral ds ++ lit "," ++ b ->
  first_at s (lit """duration"": ") (len a) ->
  wf_digits ds -> ds <> [] -> number ds < 8388608 ->
  match_duration E data = Ret (Ok (number ds * 1000000000)).
Proof.
  intros. eapply match_duration_ktx_proof; eauto. eapply ktx_duration_integer_proof; eauto.
Qed.

Theorem match_duration_without_stats : forall E data r, serverinfo E data = Ret r ->
  ~ occurs data (lit "{""version"": ") ->
  match_duration E data = match_duration_from_seeking E data.
Proof.
  intros E data r S H. destruct (is_hoonymode r) eqn:M.
  - unfold match_duration. rewrite S. cbn [bind]. rewrite M. reflexivity.
  - apply (match_duration_seeking_proof E data r "ktxstats not found"); [exact S | | apply no_stats_duration; exact H].
    intros s -> C. unfold is_hoonymode in M. cbn [is_ok_and] in M. rewrite C in M.
    unfold HOONYMODE in M. rewrite beq_refl in M. discriminate.
Qed.

(** A demo with a countdown of 250 ms, a match of 405 ms and 200 ms after its end.  (0.655
    in single precision is 0.654999971.) *)
Definition time_demo (mode : string) : list frame :=
  [ info_frame mode; frame_all xfa (say x02 "ready"); frame_all x00 (say x02 "matchdate: 2024-01-01 10:00:00 UTC");
    frame_all xc8 []; frame_all xcd (say x02 "fight"); frame_all x00 (say x02 "The match is over"); frame_all xc8 [] ].

Example time_demo_wf : wf (time_demo "\mode\1on1").
Proof. repeat constructor. Qed.

Example time_demo_marker : exists t c, end_marker (encode (time_demo "\mode\1on1")) t /\
  first_at (encode (time_demo "\mode\1on1")) matchdate_marker c /\ c <= t /\
  elapsed t (time_demo "\mode\1on1") = 655 /\ elapsed c (time_demo "\mode\1on1") = 250.
Proof.
  exists 1421, 1356. split; [left; apply rfind_some; vm_compute; reflexivity |].
  split; [apply find_some; vm_compute; reflexivity |]. vm_compute. repeat split; discriminate.
Qed.

Example time_demo_result :
  demo_duration (sample true) (encode (time_demo "\mode\1on1")) = Ret (Ok 654999971) /\
  countdown_duration (sample true) (encode (time_demo "\mode\1on1")) = Ret (Ok 250000000) /\
  match_duration (sample true) (encode (time_demo "\mode\1on1")) = Ret (Ok 404999971).
Proof. vm_compute. auto. Qed.

Example time_demo_hoony :
  serverinfo (sample true) (encode (time_demo "\mode\hoonymode")) =
    Ret (Ok (mkSettings (Some (lit "hoonymode")) None None [])) /\
  match_duration (sample true) (encode (time_demo "\mode\hoonymode")) = Ret (Ok 654999971).
Proof. vm_compute. auto. Qed.

(** The claims with the conditions removed are false. *)
Theorem match_duration_seeking_refuted : exists fs, wf fs /\
  match_duration_from_seeking (sample false) (encode fs) = Panic PDurationSub.
Proof.
  exists [ info_frame "\mode\1on1"; frame_all x00 (say x02 "The match is over"); frame_all xfa [];
           frame_all x00 (say x02 "matchdate: 2024-01-01 10:00:00 UTC") ].
  split; [repeat constructor |]. vm_compute. reflexivity.
Qed.

Definition stats_demo (duration : string) : list frame :=
  [ info_frame "\mode\1on1";
    stats_frame 0 (lit "{""version"": 3, ""duration"": " ++ lit duration ++ lit ", ""x"": 0}") ].

Example stats_demo_result :
  match_duration (sample true) (encode (stats_demo "600")) = Ret (Ok 600000000000) /\
  match_duration (sample true) (encode (stats_demo "1210.25")) = Ret (Ok 1210250000000).
Proof. vm_compute. auto. Qed.

Example stats_demo_text :
  ktxstats_string (sample true) (encode (stats_demo "1210.25")) =
    Ret (Ok (lit "{""version"": 3" ++ lit ", " ++ lit """duration"": "
             ++ (numeral [1; 2; 1; 0] ++ lit "." ++ numeral [2; 5]) ++ lit "," ++ lit " ""x"": 0}")).
Proof. vm_compute. reflexivity. Qed.

(** A negative number of seconds in the stats is not an error but a panic. *)
Theorem match_duration_negative_refuted : exists fs, wf fs /\
  match_duration (sample false) (encode fs) = Panic PDurationFrom.
Proof. exists (stats_demo "-1"). split; [repeat constructor |]. vm_compute. reflexivity. Qed.

Print Assumptions end_marker_exists.
Print Assumptions demo_duration_sum.
Print Assumptions demo_duration_overflow.
Print Assumptions demo_duration_truncated.
Print Assumptions ms_conversion.
Print Assumptions ms_to_ns_mono.
Print Assumptions ms_to_ns_close.
Print Assumptions ms_to_ns_seconds.
Print Assumptions ms_to_ns_whole.
Print Assumptions ms_to_ns_seconds_refuted.
Print Assumptions match_duration_seeking.
Print Assumptions countdown_sum.
Print Assumptions countdown_hoonymode.
Print Assumptions match_duration_hoonymode.
Print Assumptions match_duration_decimal.
Print Assumptions match_duration_integer.
Print Assumptions match_duration_without_stats.
Print Assumptions match_duration_seeking_refuted.
Print Assumptions match_duration_negative_refuted.
