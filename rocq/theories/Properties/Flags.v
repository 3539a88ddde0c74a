(** Flag messages and flag_events_per_player_name(): C16, C17. *)
From Verif.Model Require Import Base Env Frame FlagEvent Flags.
From Verif.Spec Require Import Occ Mvd Messages Flags.
From Verif.Proofs Require Import BaseFacts FlagFacts.
From Verif.Properties Require Import Sample.

(** C16 *)
Theorem flag_event_named : forall k s name, In (k, s) flag_phrases -> quotes_no_flag name ->
  flag_event_from (name ++ s) = Ok (flag_event k name).
Proof. exact flag_named_proof. Qed.

(** The names for which a message is read right: those in which neither its phrase nor one of the
    phrases that go before it stands. *)
Theorem flag_event_named_exact : forall l1 k s l2 name, flag_phrases = l1 ++ (k, s) :: l2 ->
  (flag_event_from (name ++ s) = Ok (flag_event k name) <-> Forall (fun q => ~ occurs name (snd q)) (l1 ++ [(k, s)])).
Proof. exact flag_named_exact_proof. Qed.

(** The names for which every message is read right *)
Theorem flag_names_exact : forall name,
  (forall k s, In (k, s) flag_phrases -> flag_event_from (name ++ s) = Ok (flag_event k name)) <-> quotes_no_flag name.
Proof. exact flag_names_exact_proof. Qed.

(** No line end, no phrase *)
Theorem flag_names_in_a_line : forall name, ~ In x0a name -> quotes_no_flag name.
Proof. exact quotes_none_line. Qed.

(** Exactly what is read from any text *)
Theorem flag_event_exact : forall msg e, flag_event_from msg = Ok e <->
  exists k name, tells msg k name /\ e = flag_event k name.
Proof. exact tells_iff. Qed.

Theorem flag_event_unknown : forall msg, (exists m, flag_event_from msg = Err m) <->
  forall q, In q flag_phrases -> ~ occurs msg (snd q).
Proof. exact tells_not. Qed.

(** A name with a flag message in it can be misread; with another line end in it it cannot. *)
Example flag_name_of_two_lines :
  flag_event_from (line "anna" ++ lit "bert" ++ line " çïô the ÒÅÄ flag!") = Ok (GotFlag (line "anna" ++ lit "bert")).
Proof. vm_compute. reflexivity. Qed.
(** A later phrase of the table in the name does no harm to a message with an earlier one. *)
Example flag_name_later_phrase :
  flag_event_from (line "anna çïô the ÒÅÄ flag!" ++ line " defends the ÒÅÄ flag") = Ok (DefendsFlag (line "anna çïô the ÒÅÄ flag!")).
Proof. vm_compute. reflexivity. Qed.
Theorem flag_event_named_refuted : exists k s name, In (k, s) flag_phrases /\
  flag_event_from (name ++ s) <> Ok (flag_event k name).
Proof.
  exists Takes, (line " çïô the ÒÅÄ flag!"), (line "anna defends the ÒÅÄ flag").
  split; [vm_compute; tauto | intros H; vm_compute in H; discriminate H].
Qed.

Example flag_event_examples :
  flag_event_from (line "anna ãáðôõòåä the ÂÌÕÅ flag!") = Ok (CapturedFlag (lit "anna")) /\
  flag_event_from (line "a b defends ÂÌÕÅ's flag carrier against an aggressive enemy")
    = Ok (DefendsFlagCarrierVsAggressive (lit "a b")) /\
  flag_event_from (line " gets an assist for returning his flag!") = Ok (ReturnedFlagAssist []) /\
  (exists m, flag_event_from (lit "anna çïô the ÒÅÄ flag!") = Err m).
Proof.
  split; [apply (flag_event_named Captures (line " ãáðôõòåä the ÂÌÕÅ flag!") (lit "anna")) |].
  - vm_compute. tauto.
  - apply flag_names_in_a_line. vm_compute. intros I. repeat (destruct I as [I | I]; [discriminate I |]). exact I.
  - repeat split; try (vm_compute; reflexivity). vm_compute. eauto.
Qed.

(** C17 *)
Theorem flags_counted : forall E fs rest texts deeds,
  wf fs -> stops (len (encode fs ++ rest)) rest ->
  Forall2 (announces E) fs texts ->
  Forall2 (fun t l => tells_all (to_unicode E t) l) (concat texts) deeds ->
  (checked E = false \/ forall k name, times k name (concat deeds) < 256) ->
  exists tbl, flag_events_per_player_name E (encode fs ++ rest) = Ret tbl /\ counts tbl (concat deeds).
Proof. exact flags_counted_proof. Qed.

(** With overflow checks the 256th equal deed of one player is fatal. *)
Theorem flags_overflow : forall E fs rest texts deeds,
  wf fs -> stops (len (encode fs ++ rest)) rest ->
  Forall2 (announces E) fs texts ->
  Forall2 (fun t l => tells_all (to_unicode E t) l) (concat texts) deeds ->
  checked E = true -> (exists k name, 256 <= times k name (concat deeds)) ->
  flag_events_per_player_name E (encode fs ++ rest) = Panic POverflow.
Proof. exact flags_overflow_proof. Qed.

(** Every frame announces something and every text tells something, so the two theorems cover
    all demos that end quietly. *)
Theorem announces_exists : forall E f, exists texts, announces E f texts.
Proof. exact announces_exists_proof. Qed.
Theorem tells_all_exists : forall msg, exists l, tells_all msg l.
Proof. exact tells_all_exists_proof. Qed.

(** If each frame carries at most one flag message, every message is counted. *)
Theorem flags_one_each : forall E fs rest deeds,
  wf fs -> stops (len (encode fs ++ rest)) rest ->
  Forall2 (fun f l => (silent f /\ l = []) \/ (exists k name, carries E f k name /\ l = [(k, name)])) fs deeds ->
  (checked E = false \/ forall k name, times k name (concat deeds) < 256) ->
  exists tbl, flag_events_per_player_name E (encode fs ++ rest) = Ret tbl /\ counts tbl (concat deeds).
Proof. exact flags_one_each_proof. Qed.

Definition say_line (level : byte) (s : string) : bytes := x08 :: level :: line s ++ [x00].

Definition flag_demo : list frame :=
  [ frame_all x01 (say x02 "anna" ++ say_line x02 " çïô the ÒÅÄ flag!");
    frame_all x01 (say_line x02 "anna defends the ÂÌÕÅ flag");
    frame_all x01 (say_line x01 "anna defends the ÂÌÕÅ flag");
    frame_all x01 (x0e :: say_line x02 "bert gets an assist for returning his flag!" ++ [x0b]);
    frame_all x01 [];
    frame_all x01 (say x02 "anna" ++ say_line x02 " çïô the ÒÅÄ flag!") ].

Example flag_demo_wf : wf flag_demo.
Proof. repeat constructor. Qed.

Example flag_demo_result : flag_events_per_player_name (sample true) (encode flag_demo) =
  Ret [ (lit "anna", mkPfe 0 2 0 0 1 0 0); (lit "bert", mkPfe 0 0 0 1 0 0 0) ].
Proof. vm_compute. reflexivity. Qed.

(** Two complete messages in one frame: the second is not counted. *)
Theorem flags_two_in_a_frame_refuted : exists m1 m2 f,
  f_body f = encode_message m1 ++ encode_message m2 /\ wf_message m1 /\ wf_message m2 /\
  high m1 = true /\ high m2 = true /\
  flag_event_from (m_text m1) = Ok (DefendsFlag (lit "anna")) /\
  flag_event_from (m_text m2) = Ok (DefendsFlag (lit "bert")) /\
  flag_events_per_player_name (sample true) (encode [f]) = Ret [(lit "anna", mkPfe 0 0 0 0 1 0 0)].
Proof.
  exists (mkMessage x02 (line "anna defends the ÂÌÕÅ flag")), (mkMessage x02 (line "bert defends the ÂÌÕÅ flag")).
  exists (frame_all x01 (say_line x02 "anna defends the ÂÌÕÅ flag" ++ say_line x02 "bert defends the ÂÌÕÅ flag")).
  assert (forall s, existsb (Byte.eqb x00) s = false -> ~ In x00 s) as N.
  { intros s H I. assert (existsb (Byte.eqb x00) s = true); [| congruence]. apply existsb_exists. exists x00. auto. }
  repeat split; try (vm_compute; reflexivity); apply N; vm_compute; reflexivity.
Qed.

(** 256 pickups of one player: a panic with overflow checks, the count 0 without. *)
Definition many_pickups : list frame := repeat (frame_all x01 (say_line x02 "anna çïô the ÒÅÄ flag!")) 256.

Theorem flags_counted_refuted :
  flag_events_per_player_name (sample true) (encode many_pickups) = Panic POverflow /\
  flag_events_per_player_name (sample false) (encode many_pickups) = Ret [(lit "anna", pfe_default)].
Proof. split; vm_compute; reflexivity. Qed.

Print Assumptions flag_event_named.
Print Assumptions flag_event_named_exact.
Print Assumptions flag_names_exact.
Print Assumptions flag_names_in_a_line.
Print Assumptions flag_event_exact.
Print Assumptions flag_event_unknown.
Print Assumptions flag_event_named_refuted.
Print Assumptions flags_counted.
Print Assumptions flags_overflow.
Print Assumptions announces_exists.
Print Assumptions tells_all_exists.
Print Assumptions flags_one_each.
Print Assumptions flags_two_in_a_frame_refuted.
Print Assumptions flags_counted_refuted.
