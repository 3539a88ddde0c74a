(** C70: which bytes of a demo matter; C71: what a valid demo guarantees. *)
From Coq Require Import Permutation.
From Verif.Model Require Import Base Env Serverinfo Clientinfo Clients Matchdate Ktxstats Prints Ping Frags Flags Duration Players Validate.
From Verif.Spec Require Import Occ Mvd Texts Stats Dates Panics.
From Verif.Proofs Require Import BaseFacts TailFacts LocalFacts.
From Verif.Properties Require Import Sample Texts Panics.

(** C70.  The serverinfo: the first 1280 bytes *)
Theorem head_matters : forall E h x y, len h = 1280 ->
  serverinfo_string E (h ++ x) = serverinfo_string E (h ++ y) /\ serverinfo E (h ++ x) = serverinfo E (h ++ y) /\
  filename E (h ++ x) = filename E (h ++ y) /\ timestamp_from_epoch E (h ++ x) = timestamp_from_epoch E (h ++ y).
Proof.
  intros E h x y L. rewrite !serverinfo_string_head, !serverinfo_head, !filename_head, !epoch_head by (rewrite L; discriminate). auto.
Qed.

(** The end: the last 13 bytes *)
Theorem end_matters : forall x y t, len t = 13 -> has_end_of_demo_print (x ++ t) = has_end_of_demo_print (y ++ t).
Proof. intros x y t L. rewrite !end_tail by (rewrite L; reflexivity). reflexivity. Qed.

(** The clients: from the last NUL before the spawn command to 13050 bytes after it *)
Theorem clients_matter : forall E a a' d x x' s, ~ occurs a spawn_mark -> ~ occurs a' spawn_mark ->
  first_at (x00 :: d) spawn_mark s -> s + 13050 <= len (x00 :: d) ->
  let data := a ++ x00 :: d ++ x in
  let data' := a' ++ x00 :: d ++ x' in
  clientinfo_strings E data = clientinfo_strings E data' /\ clients E data = clients E data' /\
  player_names E data = player_names E data' /\ spectator_names E data = spectator_names E data' /\
  team_names E data = team_names E data' /\ has_human_players E data = has_human_players E data'.
Proof.
  intros E a a' d x x' s N N' F L data data'.
  assert (C : clients E data = clients E data').
  { unfold data, data'. rewrite !clients_before by assumption. change (x00 :: d ++ ?z) with ((x00 :: d) ++ z).
    rewrite !(clients_extend E (x00 :: d) _ s F L). reflexivity. }
  split; [| split; [exact C |]].
  - unfold data, data'. rewrite !clientinfo_before by assumption. change (x00 :: d ++ ?z) with ((x00 :: d) ++ z).
    rewrite !(clientinfo_strings_extend E (x00 :: d) _ s F L). reflexivity.
  - unfold player_names, spectator_names, team_names, has_human_players, player_clients, spectator_clients.
    rewrite C. auto.
Qed.

(** The date: from the first mark to the end of the line *)
Theorem date_matters : forall E a a' t x x', ~ In x0a t ->
  let data := a ++ matchdate_mark ++ t ++ x0a :: x in
  let data' := a' ++ matchdate_mark ++ t ++ x0a :: x' in
  first_at data matchdate_mark (len a) -> first_at data' matchdate_mark (len a') ->
  matchdate_string data = matchdate_string data' /\ matchdate E data = matchdate E data'.
Proof.
  intros E a a' t x x' N data data' F F'.
  assert (S : matchdate_string data = matchdate_string data').
  { unfold data, data'. change matchdate_mark with MATCHDATE_NEEDLE. rewrite !matchdate_between by assumption. reflexivity. }
  split; [exact S | exact (matchdate_alike E _ _ S)].
Qed.

(** The statistics: from 18 bytes before the last mark on *)
Theorem stats_matter : forall E a a' d, last_at d version_mark 18 ->
  len (a ++ d) < 9223372036854775808 -> len (a' ++ d) < 9223372036854775808 ->
  ktxstats_string E (a ++ d) = ktxstats_string E (a' ++ d) /\ ktxstats_v3 E (a ++ d) = ktxstats_v3 E (a' ++ d) /\
  server E (a ++ d) = server E (a' ++ d) /\
  match_duration_from_ktxstats E (a ++ d) = match_duration_from_ktxstats E (a' ++ d).
Proof.
  intros E a a' d L B B'. unfold server, ktxstats_v3, match_duration_from_ktxstats.
  rewrite !(ktxstats_before E _ d 18 L) by (assumption || discriminate). auto.
Qed.

(** Validity: what stands between the client records and the end does not matter. *)
Theorem middle_does_not_matter : forall E h x y t s, first_at h spawn_mark s -> s + 13050 <= len h -> len t = 13 ->
  is_valid E (h ++ x ++ t) = is_valid E (h ++ y ++ t).
Proof. intros E h x y t s F L T. rewrite !(is_valid_local_proof E h _ t s F L) by (rewrite T; reflexivity). reflexivity. Qed.

(** 17 bytes before the mark are not enough. *)
Definition stats_bytes : bytes := encode [stats_frame 0 (lit "{""version"": 3}")].
Theorem stats_matter_less_refuted : exists a a' d k, last_at d version_mark k /\ k = 17 /\ len a <= 1 /\ len a' <= 1 /\
  ktxstats_string (sample true) (a ++ d) <> ktxstats_string (sample true) (a' ++ d).
Proof.
  exists [], [x00], (skipn 1 stats_bytes), 17. split; [apply rfind_some; vm_compute; reflexivity |].
  split; [reflexivity |]. split; [discriminate |]. split; [discriminate |]. vm_compute. discriminate.
Qed.

Definition spawn_bytes : bytes := spawn_mark ++ [x00] ++ lit "\name\anna" ++ [x00] ++ repeat x01 13100.
Example clients_matter_example : exists cs,
  clients (sample true) (lit "one" ++ x00 :: spawn_bytes ++ lit "two") = Ret (Ok cs) /\
  clients (sample true) (lit "three" ++ x00 :: spawn_bytes ++ repeat x00 30) = Ret (Ok cs) /\ map c_name cs = [lit "anna"] /\
  is_valid (sample true) (lit "fullserverinfo ""x""" ++ spawn_bytes ++ lit "anything" ++ x01 :: end_of_demo) = Ret true.
Proof. eexists. split; [vm_compute; reflexivity |]. split; [vm_compute; reflexivity |]. split; vm_compute; reflexivity. Qed.

Example stats_matter_example : last_at stats_bytes version_mark 18 /\
  ktxstats_string (sample true) (lit "before" ++ stats_bytes) = Ret (Ok (lit "{""version"": 3}")) /\
  ktxstats_string (sample true) (repeat x00 50 ++ stats_bytes) = Ret (Ok (lit "{""version"": 3}")).
Proof. split; [apply rfind_some; vm_compute; reflexivity |]. split; vm_compute; reflexivity. Qed.

(** C71 *)
Theorem valid_guarantees : forall E data, is_valid E data = Ret true ->
  has_end_of_demo_print data = true /\ is_paused data = false /\
  (exists s, serverinfo E data = Ret (Ok s)) /\ has_clients E data = Ret true /\
  exists c cs, clients E data = Ret (Ok (c :: cs)).
Proof. exact valid_guarantees_proof. Qed.

Theorem valid_lists : forall E data, (forall l, Permutation (unicode_sort E l) l) -> is_valid E data = Ret true ->
  exists ns ms ts h b, player_names E data = Ret (Ok ns) /\ spectator_names E data = Ret (Ok ms) /\
    team_names E data = Ret (Ok ts) /\ has_human_players E data = Ret (Ok h) /\ has_bot_players E data = Ret (Ok b) /\
    0 < len ns + len ms /\ (ns = [] <-> ts = []) /\ (ns = [] -> h = false) /\ (ns <> [] -> h = true \/ b = true).
Proof. exact valid_lists_proof. Qed.

(** Without overflow checks, the frame walkers panic on a valid demo only if its last frame lacks bytes. *)
Theorem valid_no_panic : forall E data p, checked E = false -> is_valid E data = Ret true -> ~ cut_off data ->
  Forall (fun panics => ~ panics)
    [ filename E data = Panic p; timestamp_from_epoch E data = Panic p; prints E data = Panic p;
      frags_per_player_name E data = Panic p; flag_events_per_player_name E data = Panic p;
      ping_per_player_number E data = Panic p; players_from_parsing E data = Panic p;
      demo_duration E data = Panic p; countdown_duration E data = Panic p ].
Proof.
  intros E data p C V N. destruct (valid_no_cut E data V) as [L K]. pose proof (sound_demo E data C L N K p) as S.
  rewrite Forall_forall in *. intros q I. apply S. cbn [In] in *. tauto.
Qed.

(** Validity does not promise a date, a file name, statistics, players, or that the frames can be read. *)
Definition valid_cut : bytes :=
  encode [info_frame "\mode\1on1"; frame_all x00 client_body] ++ [x00; x06] ++ enc32 200 ++ end_of_demo.
Theorem valid_promises_refuted :
  (exists e, is_valid (sample true) valid_data = Ret true /\ filename (sample true) valid_data = Ret (Err e)) /\
  (exists e, is_valid (sample true) valid_data = Ret true /\ timestamp (sample true) valid_data = Ret (Err e)) /\
  (exists e, is_valid (sample true) valid_data = Ret true /\ ktxstats_string (sample true) valid_data = Ret (Err e)) /\
  (exists e, is_valid (sample true) valid_data = Ret true /\ players (sample true) valid_data = Ret (Err e)) /\
  (forall b, is_valid (sample b) valid_cut = Ret true /\ prints (sample b) valid_cut = Panic PSlice).
Proof.
  split; [eexists; split; vm_compute; reflexivity |]. split; [eexists; split; vm_compute; reflexivity |].
  split; [eexists; split; vm_compute; reflexivity |]. split; [eexists; split; vm_compute; reflexivity |].
  intros [|]; split; vm_compute; reflexivity.
Qed.

Example valid_example : exists c, clients (sample true) valid_data = Ret (Ok [c]) /\ c_name c = lit "alice" /\
  player_names (sample true) valid_data = Ret (Ok [lit "alice"]) /\ spectator_names (sample true) valid_data = Ret (Ok []) /\
  team_names (sample true) valid_data = Ret (Ok [lit "red"]) /\ has_human_players (sample true) valid_data = Ret (Ok true).
Proof. eexists. split; [vm_compute; reflexivity |]. repeat split; vm_compute; reflexivity. Qed.

Print Assumptions head_matters.
Print Assumptions end_matters.
Print Assumptions clients_matter.
Print Assumptions date_matters.
Print Assumptions stats_matter.
Print Assumptions middle_does_not_matter.
Print Assumptions stats_matter_less_refuted.
Print Assumptions valid_guarantees.
Print Assumptions valid_lists.
Print Assumptions valid_no_panic.
Print Assumptions valid_promises_refuted.
