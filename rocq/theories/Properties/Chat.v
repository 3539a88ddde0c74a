(** C89: what a chat message can change *)
From Coq Require Import Lia ZifyN ZifyNat ZifyBool.
From Verif.Model Require Import Base Env Prot Message Serverinfo Clientinfo Clients Frags Flags Ping Ktxstats Matchdate
  Duration Validate Players.
From Verif.Spec Require Import Occ Mvd Messages Texts Times Stats Obituary Score Join Thin Chat.
From Verif.Proofs Require Import BaseFacts TextFacts ClientFacts FrameFacts SpliceFacts ObituaryFacts JoinFacts ChatFacts.
From Verif.Properties Require Import Sample Scores Joins.

(** An innocent chat message leaves alone what is searched for in the whole demo, *)
Theorem chat_marks : forall E fs gs t, place fs gs -> innocent t ->
  let data := encode (fs ++ gs) in
  let data' := encode (fs ++ chat t :: gs) in
  has_end_of_demo_print data' = has_end_of_demo_print data /\ is_paused data' = is_paused data /\
  is_aborted data' = is_aborted data /\ demo_duration E data' = demo_duration E data.
Proof. exact marks_proof. Qed.

(** what is counted frame by frame, *)
Theorem chat_counts : forall E fs gs t, place fs gs -> innocent t ->
  let data := encode (fs ++ gs) in
  let data' := encode (fs ++ chat t :: gs) in
  flag_events_per_player_name E data' = flag_events_per_player_name E data /\
  ping_per_player_number E data' = ping_per_player_number E data /\
  (all_named E (fs ++ gs) -> frags_per_player_name E data' = frags_per_player_name E data).
Proof. exact counts_proof. Qed.

(** what is read from the head, and the times, *)
Theorem chat_head : forall E fs gs t, place fs gs -> innocent t -> 1280 <= len (encode fs) ->
  let data := encode (fs ++ gs) in
  let data' := encode (fs ++ chat t :: gs) in
  serverinfo_string E data' = serverinfo_string E data /\ serverinfo E data' = serverinfo E data /\
  filename E data' = filename E data /\ timestamp_from_epoch E data' = timestamp_from_epoch E data /\
  countdown_duration E data' = countdown_duration E data /\
  match_duration_from_seeking E data' = match_duration_from_seeking E data.
Proof. exact head_proof. Qed.

(** the clients and the validity, *)
Theorem chat_clients_same : forall E fs gs t, place fs gs -> innocent t -> clients_before_place fs ->
  let data := encode (fs ++ gs) in
  let data' := encode (fs ++ chat t :: gs) in
  clientinfo_strings E data' = clientinfo_strings E data /\ clientinfo E data' = clientinfo E data /\
  clients E data' = clients E data /\ player_clients E data' = player_clients E data /\
  spectator_clients E data' = spectator_clients E data /\ player_names E data' = player_names E data /\
  spectator_names E data' = spectator_names E data /\ team_names E data' = team_names E data /\
  has_human_players E data' = has_human_players E data /\ has_bot_players E data' = has_bot_players E data /\
  is_valid E data' = is_valid E data.
Proof. exact clients_proof. Qed.

(** the date, *)
Theorem chat_date_same : forall E fs gs t, place fs gs -> innocent t -> 1280 <= len (encode fs) -> date_beside_place fs gs ->
  let data := encode (fs ++ gs) in
  let data' := encode (fs ++ chat t :: gs) in
  matchdate_string data' = matchdate_string data /\ matchdate E data' = matchdate E data /\ timestamp E data' = timestamp E data.
Proof. exact date_proof. Qed.

(** the statistics, *)
Theorem chat_stats_same : forall E fs gs t, place fs gs -> innocent t -> stats_after_place fs gs ->
  len (encode (fs ++ chat t :: gs)) < 9223372036854775808 ->
  let data := encode (fs ++ gs) in
  let data' := encode (fs ++ chat t :: gs) in
  ktxstats_string E data' = ktxstats_string E data /\ ktxstats_v3 E data' = ktxstats_v3 E data /\ server E data' = server E data /\
  match_duration_from_ktxstats E data' = match_duration_from_ktxstats E data /\
  (1280 <= len (encode fs) -> match_duration E data' = match_duration E data).
Proof. exact stats_proof. Qed.

(** and the players and teams. *)
Theorem chat_players_same : forall E fs gs t, place fs gs -> innocent t -> clients_before_place fs -> stats_after_place fs gs ->
  len (encode (fs ++ chat t :: gs)) < 9223372036854775808 -> all_named E (fs ++ gs) ->
  let data := encode (fs ++ gs) in
  let data' := encode (fs ++ chat t :: gs) in
  players_from_parsing E data' = players_from_parsing E data /\ players E data' = players E data /\ teams E data' = teams E data.
Proof. exact players_proof. Qed.

(** A demo to which all of them apply *)
Definition start : list frame :=
  [ info_frame "\mode\1on1\epoch\1690000000\serverdemo\duel.mvd"; clients_frame;
    frame_all x05 (x08 :: x02 :: lit "matchdate: 2024-04-02 21:02:17 CEST" ++ [x0a; x00]) ].
Definition filler (n : N) : frame := frame_all x00 (x01 :: repeat x01 (N.to_nat n) ++ [x00]).
Definition fore (n : N) : list frame := start ++ [filler n].
Definition aft : list frame :=
  [ frame_all x07 (say x01 "bert was gibbed by carl's rocket");
    stats_frame 0 (lit "{""version"": 3, ""duration"": 600, ""bot"": {}");
    frame_all x02 ([x02; x00; x02] ++ lit "EndOfDemo" ++ [x00]) ].
Definition remark : bytes := lit "anna: the match is over, bert paused  the game in 4 status of ""bot"":{".

Lemma fore_bytes : forall n, encode (fore n) =
  encode start ++ ([x00; x06] ++ enc32 (len (f_body (filler n))) ++ x01 :: repeat x01 (N.to_nat n)) ++ [x00].
Proof.
  intros n. unfold fore. rewrite encode_both. f_equal.
  unfold encode at 1. cbn [map concat]. unfold encode_frame, filler, frame_all. cbn [f_time f_type f_mask f_body]. rewrite app_nil_r.
  cbn [app]. rewrite <- !app_assoc. reflexivity.
Qed.
Lemma filler_len : forall n, len (f_body (filler n)) = n + 2.
Proof. intros n. unfold filler, frame_all. cbn [f_body]. rewrite len_cons, len_app. unfold len at 1. rewrite repeat_length. change (len [x00]) with 1. lia. Qed.
Lemma fore_len : forall n, len (encode (fore n)) = len (encode start) + n + 8.
Proof.
  intros n. unfold fore. rewrite encode_both, len_app. unfold encode at 2. cbn [map concat]. rewrite app_nil_r.
  unfold encode_frame. cbn [filler frame_all f_time f_type f_mask]. change (has_length x06) with true. cbn [app]. rewrite !len_cons, !len_app.
  rewrite filler_len. change (len (enc32 _)) with 4. lia.
Qed.
Lemma repeat_last : forall a (b : byte) k, last (a ++ b :: repeat b k) x00 = b.
Proof.
  intros a b k. induction a as [| c a IH]; [induction k as [| k IH]; [reflexivity | exact IH] |].
  cbn [app]. destruct (a ++ b :: repeat b k) eqn:X; [destruct a; discriminate X | exact IH].
Qed.
Example chat_example : forall n, 13050 <= n < 100000 ->
  place (fore n) aft /\ innocent remark /\ clients_before_place (fore n) /\ date_beside_place (fore n) aft /\
  stats_after_place (fore n) aft /\ all_named (sample true) (fore n ++ aft) /\
  1280 <= len (encode (fore n)) /\ len (encode (fore n ++ chat remark :: aft)) < 9223372036854775808.
Proof.
  intros n B. pose proof (fore_len n) as L.
  split; [| split; [| split; [| split; [| split; [| split; [| split]]]]]].
  - split; [| split; [repeat constructor | split; [discriminate |]]].
    + apply wf_both; [repeat constructor |]. constructor; [| constructor]. split; [reflexivity |].
      change (has_length (f_type (filler n))) with true. cbn iota. rewrite filler_len. lia.
    + rewrite fore_bytes, app_assoc. eexists. split; [reflexivity |]. intros b X. apply (f_equal (fun l => last l x00)) in X.
      rewrite status_last in X. rewrite !app_assoc in X. rewrite repeat_last in X. discriminate X.
  - apply innocent_test; vm_compute; reflexivity.
  - exists 1379. rewrite L. replace (len (encode start)) with 2221 by (vm_compute; reflexivity). split; [| lia].
    rewrite fore_bytes. apply first_at_extend. apply find_some. vm_compute. reflexivity.
  - left. rewrite fore_bytes. exists (firstn (N.to_nat 2182) (encode start)), (lit "2024-04-02 21:02:17 CEST"). eexists. split; [| split].
    + rewrite <- (firstn_skipn (N.to_nat 2182) (encode start)) at 1. rewrite <- app_assoc. f_equal.
      replace (skipn (N.to_nat 2182) (encode start)) with (matchdate_marker ++ lit "2024-04-02 21:02:17 CEST" ++ [x0a; x00]) by (vm_compute; reflexivity).
      rewrite <- !app_assoc. cbn [app]. reflexivity.
    + vm_compute. intuition discriminate.
    + apply first_at_extend. apply find_some. vm_compute. reflexivity.
  - right. exists (encode (firstn 1 aft)), (encode (skipn 1 aft)). split; [vm_compute; reflexivity |].
    apply rfind_some. vm_compute. reflexivity.
  - apply (named_thin _ _ (start ++ aft)); [| named]. unfold fore, start, aft. cbn [app]. do 3 apply thin_keep.
    apply thin_drop; [intros text tail _ X; discriminate X |]. repeat constructor.
  - lia.
  - rewrite encode_both, encode_cons, !len_app, L. replace (len (encode start)) with 2221 by (vm_compute; reflexivity).
    assert (len (encode_frame (chat remark)) < 100) by (vm_compute; reflexivity).
    assert (len (encode aft) < 1000) by (vm_compute; reflexivity). lia.
Qed.

(** A chat message that is not innocent *)
Definition brief : list frame := [frame_all x05 (say x02 "Welcome"); clients_frame; frame_all x09 (say x02 "FIGHT")].
Definition rest : list frame := [frame_all x07 (say x01 "bert was gibbed by carl's rocket"); frame_all x01 (say x02 "The end")].
Theorem chat_forges_refuted :
  place brief rest /\
  (is_paused (encode (brief ++ rest)) = false /\ is_paused (encode (brief ++ chat (lit "anna: Server is paused") :: rest)) = true) /\
  (demo_duration (sample true) (encode (brief ++ rest)) = Ret (Ok 22000000) /\
   demo_duration (sample true) (encode (brief ++ chat (lit "anna: The match is over!") :: rest)) = Ret (Ok 14000000)) /\
  (has_bot_players (sample true) (encode (brief ++ rest)) = Ret (Ok false) /\
   has_bot_players (sample true) (encode (brief ++ chat (lit "anna: ""bot"": {") :: rest)) = Ret (Ok true)) /\
  (ktxstats_string (sample true) (encode (brief ++ rest)) = Ret (Err "ktxstats not found") /\
   ktxstats_string (sample true) (encode (brief ++ chat (lit "anna: {""version"": ") :: rest)) <> Ret (Err "ktxstats not found")).
Proof.
  split; [eapply place_test; [repeat constructor | repeat constructor | discriminate | vm_compute; reflexivity | discriminate] |].
  repeat split; try (vm_compute; reflexivity). vm_compute. discriminate.
Qed.

(** An innocent one can hide the killer of a team mate who is not named *)
Theorem chat_hides_killer_refuted : exists fs gs t, place fs gs /\ innocent t /\
  frags_per_player_name (sample true) (encode (fs ++ gs)) = Ret [(lit "carl", (-1)%Z)] /\
  frags_per_player_name (sample true) (encode (fs ++ chat t :: gs)) = Ret [].
Proof.
  exists [clients_frame; frame_all x01 (say x01 "dora was telefragged by her teammate"); frame_all x00 (say x03 "bert: lol")],
         [frame_all x01 (update x02)], (lit "anna: lol").
  split; [eapply place_test; [repeat constructor | repeat constructor | discriminate | vm_compute; reflexivity | discriminate] |].
  split; [apply innocent_test; vm_compute; reflexivity |]. split; vm_compute; reflexivity.
Qed.

Print Assumptions chat_marks.
Print Assumptions chat_counts.
Print Assumptions chat_head.
Print Assumptions chat_clients_same.
Print Assumptions chat_date_same.
Print Assumptions chat_stats_same.
Print Assumptions chat_players_same.
Print Assumptions chat_forges_refuted.
Print Assumptions chat_hides_killer_refuted.
