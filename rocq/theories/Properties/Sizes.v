(** C65, C66: how large results can be, and the ranges of their numbers *)
From Coq Require Import Lia ZifyN ZifyNat ZifyBool.
From Verif.Model Require Import Base Env Prot Message Prints Serverinfo Clientinfo Clients Ktxstats Flags Frags Ping Duration Players.
From Verif.Spec Require Import Occ Mvd Pings Times Teams Ranges.
From Verif.Proofs Require Import SizeFacts RangeFacts.
From Verif.Properties Require Import Sample Pings Flags Scores Players.

(** C65.  Results are no longer than what they are read from. *)
Theorem prints_size : forall E data ps, prints E data = Ret ps -> ps <> [] ->
  len (concat (map pr_content ps)) + 3 * len ps + 2 <= len data.
Proof. exact prints_size_proof. Qed.

Theorem ktxstats_size : forall E data text, len data < 2 ^ 63 ->
  ktxstats_string E data = Ret (Ok text) -> len text + 8 <= len data.
Proof. exact ktxstats_size_proof. Qed.

Theorem serverinfo_size : forall E data s, serverinfo_string E data = Ret (Ok s) ->
  exists raw, s = to_utf8 E raw /\ 1 <= len raw <= 1263 /\ occurs data raw.
Proof. exact serverinfo_size_proof. Qed.

Theorem clientinfo_size : forall E data l, clientinfo_strings E data = Ret (Ok l) ->
  exists raw, l = map (to_unicode E) raw /\ Forall (fun s => 7 <= len s <= 256) raw /\
    len (concat raw) + len raw < len data /\ len (concat raw) + len raw <= 13306 /\ len raw <= 1663.
Proof. exact clientinfo_size_proof. Qed.

Theorem clients_size : forall E data cs, clients E data = Ret (Ok cs) -> len cs <= 1663.
Proof. exact clients_size_proof. Qed.

Theorem pings_size : forall E data t, ping_per_player_number E data = Ret (Ok t) -> len t <= 256.
Proof. exact pings_few_proof. Qed.

Theorem parsed_players_size : forall E data ps, iterates (players_order E) ->
  players_from_parsing E data = Ret (Ok ps) -> len ps <= 256.
Proof. exact parsed_few_proof. Qed.

(** A quarter of a second for every two bytes, and less than fifty days *)
Theorem durations_size : forall E data d,
  demo_duration E data = Ret (Ok d) \/ countdown_duration E data = Ret (Ok d) \/
  match_duration_from_seeking E data = Ret (Ok d) ->
  (Z.of_N d <= ms_to_ns (255 * (len data / 2)) /\ Z.of_N d <= 4294967500000000)%Z.
Proof. rewrite <- longest. exact durations_size_proof. Qed.

(** The bounds on prints and statistics are reached. *)
Definition tight_prints : bytes := [x05; x02] ++ say x02 "hello".
Definition tight_stats : bytes := enc32 16 ++ enc16 3 ++ enc16 0 ++ lit "{""version"": 3}".
Example sizes_reached :
  prints (sample true) tight_prints = Ret [mkPrint PiHigh (lit "hello")] /\ len tight_prints = 5 + 3 * 1 + 2 /\
  exists text, ktxstats_string (sample false) tight_stats = Ret (Ok text) /\ len text + 8 = len tight_stats.
Proof. split; [vm_compute; reflexivity |]. split; [vm_compute; reflexivity |]. eexists. split; vm_compute; reflexivity. Qed.

Example duration_reached : demo_duration (sample true) (encode (repeat (mkFrame xff x00 [] []) 4)) = Ret (Ok 1019999981).
Proof. vm_compute. reflexivity. Qed.

(** C66.  Numbers fit the fields they are stored in. *)
Theorem clients_fit : forall E data cs, clients E data = Ret (Ok cs) -> Forall fit_client cs.
Proof. exact clients_fit_proof. Qed.

Theorem frags_fit : forall E data t, frags_per_player_name E data = Ret t -> Forall in_i32 (map snd t).
Proof. exact frags_fit_proof. Qed.

Theorem flags_fit : forall E data t, flag_events_per_player_name E data = Ret t -> Forall fit_flags (map snd t).
Proof. exact flags_fit_proof. Qed.

Theorem pings_fit : forall E data t, ping_per_player_number E data = Ret (Ok t) ->
  NoDup (map fst t) /\ Forall (fun x => fst x < 256 /\ snd x < 65536) t.
Proof. exact pings_fit_proof. Qed.

Theorem players_fit : forall E data ps, iterates (players_order E) -> fit_stats E ->
  players E data = Ret (Ok ps) -> Forall fit_player ps.
Proof. exact players_fit_proof. Qed.

Theorem teams_fit : forall E data ts, iterates (players_order E) -> iterates (teams_order E) -> each_iterates (colors_order E) ->
  fit_stats E -> teams E data = Ret (Ok ts) -> Forall fit_team ts.
Proof. exact teams_fit_proof. Qed.

Example ranges_sharp : in_u8 255 /\ ~ in_u8 256 /\ in_u32 4294967295 /\ ~ in_u32 4294967296 /\
  in_i32 (-2147483648) /\ in_i32 2147483647 /\ ~ in_i32 (-2147483649) /\ ~ in_i32 2147483648.
Proof. unfold in_u8, in_u32, in_i32. repeat split; lia. Qed.

(** Two sums that leave the range: 256 pickups, and two pings of 65535 (their mean is not) *)
Example fit_wrapped :
  (exists t p, flag_events_per_player_name (sample false) (encode many_pickups) = Ret t /\ In (lit "anna", p) t /\ pickups p = 0) /\
  ping_per_player_number (sample false) (encode (repeat (ping_frame [mkPingUpdate x00 65535 x00]) 2)) = Ret (Ok [(0, 32767)]).
Proof.
  split; [| vm_compute; reflexivity]. do 2 eexists. split; [vm_compute; reflexivity |]. split; [left; reflexivity | reflexivity].
Qed.

Example fit_hypotheses : iterates (players_order (sample true)) /\ iterates (teams_order (sample true)) /\
  each_iterates (colors_order (sample true)) /\ fit_stats (sample true) /\
  exists ps ts, players (sample true) players_demo = Ret (Ok ps) /\ len ps = 4 /\
    teams (sample true) players_demo = Ret (Ok ts) /\ map (fun t => (t_color t, t_frags t, t_ping t)) ts = [((13, 13), 0%Z, 25); ((4, 4), (-3)%Z, 13)].
Proof.
  do 3 (split; [repeat intro; reflexivity |]). split; [intros s k H; inversion H; constructor |].
  do 2 eexists. split; [vm_compute; reflexivity |]. split; [vm_compute; reflexivity |]. split; vm_compute; reflexivity.
Qed.

Print Assumptions prints_size.
Print Assumptions ktxstats_size.
Print Assumptions serverinfo_size.
Print Assumptions clientinfo_size.
Print Assumptions clients_size.
Print Assumptions pings_size.
Print Assumptions parsed_players_size.
Print Assumptions durations_size.
Print Assumptions clients_fit.
Print Assumptions frags_fit.
Print Assumptions flags_fit.
Print Assumptions pings_fit.
Print Assumptions players_fit.
Print Assumptions teams_fit.
