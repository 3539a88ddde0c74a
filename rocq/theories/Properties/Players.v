(** C26 to C30: lists of players. *)
From Coq Require Import Lia Permutation Sorted.
From Verif.Model Require Import Base Env Clientinfo Clients Frags Ping Ktxstats Players.
From Verif.Spec Require Import Mvd Order Clientlist Teams Pings.
From Verif.Proofs Require Import BaseFacts OrderFacts TeamFacts.
From Verif.Properties Require Import Sample Pings Scores.

(** C26.  [ps] are the clients that are not spectators (C23), [pings] and [scores] the tables
    of C12 and C14. *)
Theorem players_parsed : forall E data l ps pings scores,
  iterates (players_order E) -> clientinfo_strings E data = Ret (Ok l) -> len l <= 256 ->
  player_clients E data = Ret (Ok ps) -> ping_per_player_number E data = Ret (Ok pings) ->
  frags_per_player_name E data = Ret scores ->
  exists es l, players_from_parsing E data = Ret (Ok l) /\ Forall2 (entry scores pings) ps es /\
    Permutation es l /\ in_order_of better l.
Proof. exact players_parsed_all. Qed.

(** With more than 256 clients numbers repeat; the last client with a number is listed. *)
Theorem players_parsed_many : forall E data ps pings scores ls,
  iterates (players_order E) ->
  player_clients E data = Ret (Ok ps) -> ping_per_player_number E data = Ret (Ok pings) ->
  frags_per_player_name E data = Ret scores -> latest ps ls ->
  exists es l, players_from_parsing E data = Ret (Ok l) /\ Forall2 (entry scores pings) ls es /\
    Permutation es l /\ in_order_of better l.
Proof. exact players_parsed_proof. Qed.

Theorem players_parsing_fails : forall E data,
  (forall m, clients E data = Ret (Err m) -> players_from_parsing E data = Ret (Err m)) /\
  (forall p, clients E data = Panic p -> players_from_parsing E data = Panic p) /\
  (forall cs, clients E data = Ret (Ok cs) ->
     (forall m, ping_per_player_number E data = Ret (Err m) -> players_from_parsing E data = Ret (Err m)) /\
     (forall p, ping_per_player_number E data = Panic p -> players_from_parsing E data = Panic p) /\
     (forall pings, ping_per_player_number E data = Ret (Ok pings) ->
        forall p, frags_per_player_name E data = Panic p -> players_from_parsing E data = Panic p)).
Proof. exact players_parsing_fails_proof. Qed.

(** The demo of C14 with pings of three of its four players. *)
Definition players_demo : bytes :=
  encode (score_demo ++ [ping_frame [mkPingUpdate x00 26 x00; mkPingUpdate x02 38 x00; mkPingUpdate x03 12 x00]]).

Example players_demo_result : exists l, players_from_parsing (sample true) players_demo = Ret (Ok l) /\
  map (fun p => (p_name p, p_team p, p_color p, p_frags p, p_ping p)) l =
  [ (lit "carl", lit "blue", (13, 13), 0%Z, 38); (lit "dora", lit "blue", (13, 13), 0%Z, 12);
    (lit "anna", lit "red", (4, 4), (-1)%Z, 26); (lit "bert", lit "red", (4, 4), (-2)%Z, 0) ].
Proof. eexists. split; vm_compute; reflexivity. Qed.
Example players_demo_hypotheses : exists l ps pings scores,
  clientinfo_strings (sample true) players_demo = Ret (Ok l) /\ len l <= 256 /\
  player_clients (sample true) players_demo = Ret (Ok ps) /\
  ping_per_player_number (sample true) players_demo = Ret (Ok pings) /\
  frags_per_player_name (sample true) players_demo = Ret scores /\ iterates (players_order (sample true)).
Proof.
  do 4 eexists. split; [vm_compute; reflexivity |]. split; [vm_compute; discriminate |].
  split; [vm_compute; reflexivity |]. split; [vm_compute; reflexivity |]. split; [vm_compute; reflexivity |].
  intros l. reflexivity.
Qed.

(** C27 *)
Theorem players_deterministic : forall E po to co data, iterates (players_order E) -> iterates po ->
  same_up_to_ties (players E data) (players (reordered E po to co) data).
Proof. exact players_unordered. Qed.

Theorem players_parsed_deterministic : forall E po to co data, iterates (players_order E) -> iterates po ->
  same_up_to_ties (players_from_parsing E data) (players_from_parsing (reordered E po to co) data).
Proof. exact parsed_unordered. Qed.

(** Two players with the same name and score in different teams are in either order. *)
Definition namesakes : bytes :=
  encode [ frame_all x00 (x09 :: lit "cmd spawn" ++ [x00] ++ userinfo "\name\anna\team\red"
             ++ userinfo "\name\anna\team\blue" ++ repeat x00 600);
           ping_frame [mkPingUpdate x00 26 x00] ].
Theorem players_deterministic_refuted : exists po l l', iterates po /\
  players (sample true) namesakes = Ret (Ok l) /\
  players (reordered (sample true) po (fun l => l) (fun _ l => l)) namesakes = Ret (Ok l') /\
  map p_team l = [lit "red"; lit "blue"] /\ map p_team l' = [lit "blue"; lit "red"].
Proof.
  exists (@rev _). do 2 eexists. split; [intros l; apply Permutation_sym, Permutation_rev |].
  split; [vm_compute; reflexivity |]. split; [vm_compute; reflexivity |]. split; vm_compute; reflexivity.
Qed.

Example players_demo_deterministic :
  players (reordered (sample true) (@rev _) (fun l => l) (fun _ l => l)) players_demo = players (sample true) players_demo.
Proof. vm_compute. reflexivity. Qed.

(** C28 *)
Theorem player_order_exact : forall p q,
  (player_cmp p q = Lt <-> better p q) /\
  (player_cmp p q = Eq <-> p_frags p = p_frags q /\ p_name p = p_name q) /\
  (player_cmp p q = Gt <-> better q p).
Proof. exact player_cmp_exact. Qed.

Theorem player_order_total : key_order better /\
  forall p q, better p q \/ (p_frags p = p_frags q /\ p_name p = p_name q) \/ better q p.
Proof. split; [exact better_key_order | exact better_total]. Qed.

(** Every stable sort gives the same list. *)
Theorem player_sort_unique : forall l, stable_order better l (sort_by player_cmp l) /\
  forall r, stable_order better l r -> r = sort_by player_cmp l.
Proof.
  intros l. split; [apply sort_players |]. intros r R.
  eapply stable_order_unique; [apply better_key_order | exact R | apply sort_players].
Qed.

Definition person (name team : string) (color : N * N) (frags : Z) (ping : N) : Player :=
  mkPlayer (lit name) (lit team) color frags ping false None None.
Example player_order_example :
  player_cmp (person "b" "" (0, 0) 3 0) (person "a" "" (0, 0) 2 0) = Lt /\
  player_cmp (person "b" "" (0, 0) 3 0) (person "ba" "" (0, 0) 3 0) = Lt /\
  player_cmp (person "b" "x" (0, 0) (-3) 0) (person "b" "y" (1, 2) (-3) 9) = Eq /\
  player_cmp (person "b" "" (0, 0) (-3) 0) (person "B" "" (0, 0) (-3) 0) = Gt.
Proof. repeat split. Qed.

(** C29 *)
Theorem stats_players : forall s, exists es l, players_from_ktxstats s = Ok l /\
  Forall2 converted (ks_players s) es /\ stable_order better es l.
Proof. exact players_of_stats_proof. Qed.

Definition stats_person (name login : string) (top frags ping : Z) : KtxPlayer :=
  mkKtxPlayer (lit name) (lit "red") (lit login) top 300 ping frags false.
Definition stats_value : KtxstatsV3 :=
  mkKtxstatsV3 [] [] 0 [stats_person "a" "" 4 (-1) 10; stats_person "b" "bb" (-1) 7 12; stats_person "c" "" 4 7 0].
Example stats_players_example : players_from_ktxstats stats_value = Ok
  [ mkPlayer (lit "b") (lit "red") (255, 44) 7 12 false (Some (lit "bb")) None;
    mkPlayer (lit "c") (lit "red") (4, 44) 7 0 false None None;
    mkPlayer (lit "a") (lit "red") (4, 44) (-1) 10 true None None ].
Proof. vm_compute. reflexivity. Qed.

(** A negative ping of the stats is not kept. *)
Theorem stats_ping_refuted : exists k p, players_from_ktxstats (mkKtxstatsV3 [] [] 0 [k]) = Ok [p] /\
  kp_ping k = (-1)%Z /\ p_ping p = 4294967295.
Proof. exists (stats_person "a" "" 4 0 (-1)). eexists. split; [vm_compute; reflexivity |]. split; reflexivity. Qed.

(** C30 *)
Theorem players_source : forall E data,
  (forall s, ktxstats_v3 E data = Ret (Ok s) -> players E data = Ret (players_from_ktxstats s)) /\
  (forall m, ktxstats_v3 E data = Ret (Err m) -> players E data = players_from_parsing E data) /\
  (forall p, ktxstats_v3 E data = Panic p -> players E data = Panic p).
Proof. exact source_proof. Qed.

Theorem teams_source : forall E data,
  (forall l, players E data = Ret (Ok l) ->
     (forall ts, teams E data = Ret (Ok ts) <-> teams_from_players E l = Ret ts) /\
     (forall p, teams E data = Panic p <-> teams_from_players E l = Panic p) /\
     (forall m, teams E data <> Ret (Err m))) /\
  (forall m, players E data = Ret (Err m) -> teams E data = Ret (Err m)) /\
  (forall p, players E data = Panic p -> teams E data = Panic p).
Proof. exact teams_source_proof. Qed.

Theorem teams_stats_source : forall E s l, players_from_ktxstats s = Ok l ->
  forall ts, teams_from_ktxstats E s = Ret (Ok ts) <-> teams_from_players E l = Ret ts.
Proof. exact teams_of_stats_proof. Qed.

(** the same demo without and with embedded stats *)
Definition with_stats : env := {|
  checked := true; eof_on_short_read := true; to_unicode := fun s => s; to_utf8 := fun s => s;
  unicode_sort := sort_by str_cmp; clientinfo_from := sample_clientinfo; settings_from := sample_settings;
  ktxstats_from := fun s => if beq s (lit "{""version"": 3}") then Ok stats_value else Err "expected value";
  parse_datetime := parse_datetime (sample true);
  to_lowercase := map ascii_lower; players_order := fun l => l; teams_order := fun l => l;
  colors_order := fun _ l => l |}.
Example players_source_example : exists a b c,
  players with_stats players_demo = Ret (Ok a) /\ map p_name a = [lit "carl"; lit "dora"; lit "anna"; lit "bert"] /\
  players with_stats (players_demo ++ encode [stats_frame 0 (lit "{""version"": 3}")]) = Ret (Ok b) /\
  map p_name b = [lit "b"; lit "c"; lit "a"] /\
  players with_stats (players_demo ++ encode [stats_frame 0 (lit "{""version"": 3")]) = Ret (Ok c) /\ map p_name c = map p_name a /\
  exists t, teams with_stats (players_demo ++ encode [stats_frame 0 (lit "{""version"": 3}")]) = Ret (Ok [t]) /\
    t_name t = lit "red" /\ t_frags t = 13%Z /\ t_ping t = 7.
Proof.
  do 3 eexists. split; [vm_compute; reflexivity |]. split; [vm_compute; reflexivity |].
  split; [vm_compute; reflexivity |]. split; [vm_compute; reflexivity |].
  split; [vm_compute; reflexivity |]. split; [vm_compute; reflexivity |].
  eexists. split; [vm_compute; reflexivity |]. repeat split.
Qed.

Print Assumptions players_parsed.
Print Assumptions players_parsed_many.
Print Assumptions players_parsing_fails.
Print Assumptions players_deterministic.
Print Assumptions players_parsed_deterministic.
Print Assumptions players_deterministic_refuted.
Print Assumptions player_order_exact.
Print Assumptions player_order_total.
Print Assumptions player_sort_unique.
Print Assumptions stats_players.
Print Assumptions stats_ping_refuted.
Print Assumptions players_source.
Print Assumptions teams_source.
Print Assumptions teams_stats_source.
