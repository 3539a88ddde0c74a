(** C73: texts are UTF-8 and are never cut inside a character *)
From Coq Require Import Lia ZifyN ZifyNat ZifyBool.
From Verif.Model Require Import Base Env Bytesextra Serverinfo Clientinfo Clients FragEvent FlagEvent Frags Flags Ping
  Ktxstats Matchdate Duration Players.
From Verif.Spec Require Import Occ Utf8 Mvd Teams Strings.
From Verif.Proofs Require Import BaseFacts Utf8Facts StringFacts OrderFacts.
From Verif.Properties Require Import Sample.

(** A text can be cut where another text was found in it, before it and behind it. *)
Theorem found_cut : forall v p i, utf8_text v -> utf8_text p -> p <> [] -> find v p = Some i \/ rfind v p = Some i ->
  exists a b, v = a ++ p ++ b /\ str_to v i = Ret a /\ str_from v (i + len p) = Ret b /\ utf8_text a /\ utf8_text b.
Proof. exact cut_proof. Qed.

(** That holds for texts, not for bytes. *)
Theorem found_cut_refuted : exists v p i, utf8_text v /\ p <> [] /\ find v p = Some i /\ str_to v i = Panic PCharBoundary.
Proof.
  exists (lit "så"), [xa5], 2. split; [apply utf8_valid_iff; reflexivity |]. split; [discriminate |]. split; reflexivity.
Qed.

(** The names in an event, and the message when there is no event, are texts. *)
Theorem events_are_texts : forall v, utf8_text v ->
  match frag_event_from v with Ok e => frag_texts e | Err m => utf8_text (lit m) end /\
  match flag_event_from v with Ok e => flag_texts e | Err m => utf8_text (lit m) end /\
  utf8_text (trim_end v).
Proof.
  intros v V. split; [| split; [| exact (trim_end_text v V)]].
  - destruct (frag_event_from v) eqn:H; [exact (frag_event_texts v _ V H) | exact (frag_event_error v _ V H)].
  - destruct (flag_event_from v) eqn:H; [exact (flag_event_texts v _ V H) | exact (flag_event_error v _ V H)].
Qed.

(** Everything the functions return, and every error *)
Theorem results_are_texts : forall E data, returns_strings E -> iterates (players_order E) -> iterates (teams_order E) ->
  gives_texts utf8_text (serverinfo_string E data) /\
  gives_texts settings_texts (serverinfo E data) /\
  gives_texts utf8_text (filename E data) /\
  gives_texts (Forall utf8_text) (clientinfo_strings E data) /\
  gives_texts (Forall clientinfo_texts) (clientinfo E data) /\
  gives_texts (Forall client_texts) (clients E data) /\
  gives_texts (Forall client_texts) (player_clients E data) /\
  gives_texts (Forall client_texts) (spectator_clients E data) /\
  gives_texts (Forall utf8_text) (player_names E data) /\
  gives_texts (Forall utf8_text) (spectator_names E data) /\
  gives_texts (Forall utf8_text) (team_names E data) /\
  gives_texts utf8_text (ktxstats_string E data) /\
  gives_texts stats_texts (ktxstats_v3 E data) /\
  gives_texts server_texts (server E data) /\
  gives_texts utf8_text (matchdate_string data) /\
  gives_texts (Forall player_texts) (players_from_parsing E data) /\
  gives_texts (Forall player_texts) (players E data) /\
  gives_texts (Forall team_texts) (teams E data) /\
  (forall t, frags_per_player_name E data = Ret t -> Forall (fun e => utf8_text (fst e)) t) /\
  (forall t, flag_events_per_player_name E data = Ret t -> Forall (fun e => utf8_text (fst e)) t).
Proof.
  intros E data R IP IT.
  exact (conj (serverinfo_string_gt E R data) (conj (serverinfo_gt E R data) (conj (filename_gt E R data)
    (conj (clientinfo_strings_gt E R data) (conj (clientinfo_gt E R data) (conj (clients_gt E R data)
    (conj (player_clients_gt E R data) (conj (spectator_clients_gt E R data) (conj (player_names_gt E R data)
    (conj (spectator_names_gt E R data) (conj (team_names_gt E R data) (conj (ktxstats_string_gt E data)
    (conj (ktxstats_v3_gt E R data) (conj (server_gt E R data) (conj (matchdate_string_gt data)
    (conj (parsed_players_gt E R IP data) (conj (players_gt E R IP data) (conj (teams_gt E R IP IT data)
    (conj (frags_texts E R data) (flags_texts E R data)))))))))))))))))))).
Qed.

(** The errors of the functions whose values are no texts *)
Theorem errors_are_texts : forall E data, returns_strings E ->
  gives_texts (fun _ => True) (has_bot_players E data) /\
  gives_texts (fun _ => True) (has_human_players E data) /\
  gives_texts (fun _ => True) (ping_per_player_number E data) /\
  gives_texts (fun _ => True) (demo_duration E data) /\
  gives_texts (fun _ => True) (countdown_duration E data) /\
  gives_texts (fun _ => True) (match_duration_from_seeking E data) /\
  gives_texts (fun _ => True) (match_duration_from_ktxstats E data) /\
  gives_texts (fun _ => True) (match_duration E data) /\
  gives_texts (fun _ => True) (matchdate E data) /\
  gives_texts (fun _ => True) (timestamp_from_epoch E data) /\
  gives_texts (fun _ => True) (timestamp E data).
Proof.
  intros E data R.
  exact (conj (has_bot_gt E R data) (conj (has_human_gt E R data) (conj (pings_gt E data) (conj (demo_duration_gt E data)
    (conj (countdown_gt E data) (conj (seeking_gt E data) (conj (from_stats_gt E data) (conj (match_duration_gt E data)
    (conj (matchdate_gt E R data) (conj (epoch_gt E R data) (timestamp_gt E R data))))))))))).
Qed.

(** Given the statistics: the players and the teams *)
Theorem stats_are_texts : forall E s, iterates (teams_order E) -> stats_texts s ->
  gives_texts (Forall player_texts) (Ret (players_from_ktxstats s)) /\
  gives_texts (Forall team_texts) (teams_from_ktxstats E s).
Proof.
  intros E s IT S. split; [| exact (stats_teams_gt E IT s S)].
  split; intros x X; [apply (stats_players_texts s x S); congruence | discriminate X].
Qed.

(** Without a conversion to strings the names are whatever bytes the demo has. *)
Theorem results_are_texts_refuted : exists E data t, frags_per_player_name E data = Ret t /\
  ~ Forall (fun e => utf8_text (fst e)) t.
Proof.
  exists (sample true), (encode_frame (frame_all x00 ([x08; x01; xe1] ++ lit " died" ++ [x00]))), [([xe1], (-1)%Z)].
  split; [vm_compute; reflexivity |]. intros F. inv F. apply utf8_valid_iff in H1. discriminate H1.
Qed.

(** ** a library that returns strings, and a demo *)
Definition clean (d : bytes) : str := if utf8_valid d then d else lit "?".
Definition clean_env : env := {|
  checked := true; eof_on_short_read := true; to_unicode := clean; to_utf8 := clean; unicode_sort := sort_by str_cmp;
  clientinfo_from := sample_clientinfo; settings_from := sample_settings;
  ktxstats_from := fun s => Ok (mkKtxstatsV3 (lit "värd") (lit "10.0.0.1") 27500 []);
  parse_datetime := fun s => Err "input is too short"; to_lowercase := map ascii_lower;
  players_order := fun l => l; teams_order := fun l => l; colors_order := fun _ l => l |}.

Lemma clean_text : forall d, utf8_text (clean d).
Proof. intros d. unfold clean. destruct (utf8_valid d) eqn:U; apply utf8_valid_iff; [exact U | reflexivity]. Qed.
Lemma field_text : forall k s, utf8_text s -> utf8_text (lit "\" ++ lit k ++ lit "\") -> text_if_any (field k s).
Proof.
  intros k s S K t T. unfold field in T. destruct (split_once s _) as [[a r] |] eqn:Q; [| discriminate]. inv T.
  apply split_once_some in Q. destruct Q as [-> _]. destruct (text_around a _ r S K ltac:(discriminate)) as [_ R].
  assert (exists q, r = until_backslash r ++ q /\ starts_char q) as [q [E C]].
  { clear. induction r as [| b r [q [E C]]]; [exists []; split; [reflexivity | exact I] |]. cbn [until_backslash].
    destruct (Byte.eqb b x5c) eqn:B.
    - apply byte_eqb_true in B. subst b. exists (x5c :: r). split; reflexivity.
    - exists q. cbn [app]. rewrite <- E. auto. }
  rewrite E in R. exact (proj1 (text_cut _ _ R C)).
Qed.

Example clean_env_returns_strings : returns_strings clean_env.
Proof.
  split; cbn [clean_env to_unicode to_utf8 unicode_sort clientinfo_from settings_from ktxstats_from parse_datetime].
  - exact clean_text.
  - exact clean_text.
  - intros l. apply sort_forall.
  - intros s S. unfold clientinfo_texts, sample_clientinfo. cbn.
    repeat split; apply field_text; try exact S; apply utf8_valid_iff; reflexivity.
  - intros s S. unfold settings_texts, sample_settings. cbn.
    repeat split; try constructor; apply field_text; try exact S; apply utf8_valid_iff; reflexivity.
  - intros s k _ H. injection H as <-. repeat split; try constructor; apply utf8_valid_iff; reflexivity.
  - discriminate.
  - intros s e _ H. injection H as <-. apply utf8_valid_iff. reflexivity.
Qed.

Definition cut_demo : bytes :=
  encode_frame (frame_all x00 (x08 :: x01 :: lit "Åsa was nailed by Göran" ++ [x00])) ++
  encode_frame (frame_all x00 ([x08; x01; xe1] ++ lit " died" ++ [x00])).
Example cut_demo_names : frags_per_player_name clean_env cut_demo = Ret [(lit "Göran", 1%Z)] /\
  frags_per_player_name (sample true) cut_demo = Ret [(lit "Göran", 1%Z); ([xe1], (-1)%Z)].
Proof. vm_compute. split; reflexivity. Qed.
Example accented_event : frag_event_from (lit "Åsa rides Göran's rocket") = Ok (Frag (lit "Göran") (lit "Åsa")) /\
  str_to (lit "Åsa rides") 4 = Ret (lit "Åsa") /\ str_to (lit "Åsa rides") 1 = Panic PCharBoundary.
Proof. vm_compute. repeat split. Qed.

Print Assumptions found_cut.
Print Assumptions found_cut_refuted.
Print Assumptions events_are_texts.
Print Assumptions results_are_texts.
Print Assumptions errors_are_texts.
Print Assumptions stats_are_texts.
Print Assumptions results_are_texts_refuted.
