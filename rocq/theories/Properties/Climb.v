(** C105: scoring moves a player up and nobody else. *)
From Coq Require Import Lia ZifyN ZifyNat ZifyBool.
From Verif.Model Require Import Base Env Clientinfo Clients Frags Ping Ktxstats Players.
From Verif.Spec Require Import Occ Mvd Messages Obituary Score Flags Pings Stats Texts Utf8 Names Join Rename Recording Order Clientlist Teams Shuffles Sources Climb.
From Verif.Proofs Require FlagFacts.
From Verif.Proofs Require Import BaseFacts TextFacts ObituaryFacts Utf8Facts PrintFacts RecordingFacts RecordingTexts TeamFacts ClimbFacts.
From Verif.Properties Require Import Sample Pings Scores Players Teams Recording.
Open Scope N_scope.

(** Stats in which one player has [d] points more *)
Theorem stats_climb : forall E e e' s s' a k k' b d,
  ktxstats_v3 E e = Ret (Ok s) -> ks_players s = a ++ k :: b -> ktxstats_v3 E e' = Ret (Ok s') -> ks_players s' = a ++ k' :: b ->
  stats_points d k k' -> (0 < d)%Z ->
  exists ps qs p, converted k p /\ players E e = Ret (Ok ps) /\ players E e' = Ret (Ok qs) /\ climbs p d ps qs.
Proof. exact stats_climb_proof. Qed.

(** b and c have 7 points each. a is last with 5, and first with 7 or 8. *)
Example stats_value_climb : exists a b c,
  let with_frags n := players_from_ktxstats (mkKtxstatsV3 [] [] 0 (stats_person "a" "" 4 n 10 :: skipn 1 (ks_players stats_value))) in
  players_from_ktxstats stats_value = Ok [b; c; a] /\ p_name a = lit "a" /\
  with_frags 5%Z = Ok [b; c; with_points 6 a] /\ with_frags 7%Z = Ok [with_points 8 a; b; c] /\ with_frags 8%Z = Ok [with_points 9 a; b; c].
Proof.
  do 3 eexists. split; [vm_compute; reflexivity |]. split; [reflexivity |]. split; [vm_compute; reflexivity |].
  split; vm_compute; reflexivity.
Qed.

(** With fewer points a player does not climb. *)
Theorem stats_climb_refuted : exists k k' b d p q ps qs, stats_points d k k' /\ (d < 0)%Z /\
  players_from_ktxstats (mkKtxstatsV3 [] [] 0 (k :: b)) = Ok ps /\ players_from_ktxstats (mkKtxstatsV3 [] [] 0 (k' :: b)) = Ok qs /\
  ps = [p; q] /\ p_name p = kp_name k /\ qs = [q; with_points d p] /\ ~ climbs p d ps qs.
Proof.
  exists (stats_person "a" "" 4 9 10), (stats_person "a" "" 4 5 10), [stats_person "b" "" 4 7 10], (-4)%Z. do 4 eexists.
  split; [repeat split |]. split; [lia |]. split; [vm_compute; reflexivity |]. split; [vm_compute; reflexivity |].
  split; [reflexivity |]. split; [reflexivity |]. split; [reflexivity |].
  intros [x [u [v [Q R]]]]. destruct x as [| x1 [| x2 x]].
  - cbn [app] in R. injection R as R _. discriminate R.
  - cbn [app] in Q, R. injection Q as <- _. discriminate R.
  - cbn [app] in R. destruct x; discriminate R.
Qed.

(** In sorted lists (C26), those who are passed were not behind and are not in front now; nobody else changes sides. *)
Theorem climb_passes : forall p d x u v, in_order_of better (x ++ u ++ p :: v) -> in_order_of better (x ++ with_points d p :: u ++ v) ->
  Forall (fun q => ~ better (with_points d p) q) x /\ Forall (fun q => ~ better p q /\ ~ better q (with_points d p)) u /\
  Forall (fun q => ~ better q p) v.
Proof. exact climb_passes_proof. Qed.

(** Any bytes, at most 256 clients: the tables of scores agree but for one player. *)
Theorem parsed_climb : forall E e e' l l' cs pg t t' c d, iterates (players_order E) ->
  clientinfo_strings E e = Ret (Ok l) -> len l <= 256 -> clientinfo_strings E e' = Ret (Ok l') -> len l' <= 256 ->
  player_clients E e = Ret (Ok cs) -> player_clients E e' = Ret (Ok cs) -> NoDup (map c_name cs) ->
  ping_per_player_number E e = Ret (Ok pg) -> ping_per_player_number E e' = Ret (Ok pg) ->
  frags_per_player_name E e = Ret t -> frags_per_player_name E e' = Ret t' ->
  In c cs -> (forall m v, m <> c_name c -> In m (map c_name cs) -> (looked_up t m 0%Z v <-> looked_up t' m 0%Z v)) ->
  (forall v, looked_up t (c_name c) 0%Z v -> looked_up t' (c_name c) 0%Z (v + d)%Z) -> (0 < d)%Z ->
  exists ps qs p, entry t pg c p /\ players_from_parsing E e = Ret (Ok ps) /\ players_from_parsing E e' = Ret (Ok qs) /\ climbs p d ps qs.
Proof. exact parsed_climb_proof. Qed.

(** bert shoots carl three times. *)
Definition bert_scores : bytes :=
  encode (score_demo ++ repeat (frame_all x01 (say x01 "carl rides bert's rocket")) 3 ++
    [ping_frame [mkPingUpdate x00 26 x00; mkPingUpdate x02 38 x00; mkPingUpdate x03 12 x00]]).

Example bert_climbs : exists a b c d,
  players_from_parsing (sample true) players_demo = Ret (Ok [a; b; c; d]) /\
  players_from_parsing (sample true) bert_scores = Ret (Ok [with_points 3 d; a; b; c]) /\ p_name d = lit "bert" /\
  (exists cs, player_clients (sample true) players_demo = Ret (Ok cs) /\ player_clients (sample true) bert_scores = Ret (Ok cs)) /\
  (exists pg, ping_per_player_number (sample true) players_demo = Ret (Ok pg) /\ ping_per_player_number (sample true) bert_scores = Ret (Ok pg)) /\
  frags_per_player_name (sample true) players_demo = Ret [(lit "carl", 0%Z); (lit "bert", (-2)%Z); (lit "anna", (-1)%Z)] /\
  frags_per_player_name (sample true) bert_scores = Ret [(lit "carl", 0%Z); (lit "bert", 1%Z); (lit "anna", (-1)%Z)].
Proof.
  do 4 eexists. split; [vm_compute; reflexivity |]. split; [vm_compute; reflexivity |]. split; [reflexivity |].
  split; [eexists; split; vm_compute; reflexivity |]. split; [eexists; split; vm_compute; reflexivity |].
  split; vm_compute; reflexivity.
Qed.

(** Players of which one has [d] points more *)
Theorem teams_climb : forall E p d ps qs, iterates (teams_order E) -> each_iterates (colors_order E) ->
  climbs p d ps qs -> sums_fit ps -> sums_fit qs ->
  exists ts us, teams_from_players E ps = Ret ts /\ teams_from_players E qs = Ret us /\ team_climbs p d ts us.
Proof. exact teams_climb_proof. Qed.

(** c of red passes b of Blue and a of red. *)
Definition crew_after : list Player :=
  [ person "c" "red" (4, 4) 11 26; person "a" "red" (4, 4) 10 25; person "b" "Blue" (13, 13) 9 20;
    person "d" "red" (13, 13) 8 30; person "e" "Blue" (1, 13) (-2) 21; person "f" "green" (0, 0) 0 0 ].

Example crew_climbs : climbs (person "c" "red" (4, 4) 8 26) 3 crew crew_after.
Proof. exists [], (firstn 2 crew), (skipn 3 crew). split; reflexivity. Qed.

Example crew_after_fits : sums_fit crew_after.
Proof. apply sums_fit_small; [reflexivity |]. repeat (constructor; [cbn; lia |]); constructor. Qed.

Example crew_teams_climb : exists a b c d,
  teams_from_players (sample true) crew = Ret [a; b; c] /\ teams_from_players (sample true) crew_after = Ret [a; b; d] /\
  (t_frags c, t_ping c, map p_name (t_players c)) = (26%Z, 27, [lit "a"; lit "c"; lit "d"]) /\
  (t_frags d, t_ping d, map p_name (t_players d)) = (29%Z, 27, [lit "c"; lit "a"; lit "d"]).
Proof. do 4 eexists. split; [vm_compute; reflexivity |]. split; [vm_compute; reflexivity |]. split; reflexivity. Qed.

(** The colour of a team of two is the colour of its first player, and so may change. *)
Theorem team_color_climb_refuted : exists p d ps qs t u, climbs p d ps qs /\ sums_fit ps /\ sums_fit qs /\ (0 < d)%Z /\
  teams_from_players (sample true) ps = Ret [t] /\ teams_from_players (sample true) qs = Ret [u] /\ t_color t <> t_color u.
Proof.
  exists (person "b" "red" (13, 13) 4 20), 3%Z, [person "a" "red" (4, 4) 5 20; person "b" "red" (13, 13) 4 20],
    [person "b" "red" (13, 13) 7 20; person "a" "red" (4, 4) 5 20]. do 2 eexists.
  split; [exists [], [person "a" "red" (4, 4) 5 20], []; split; reflexivity |].
  split; [apply sums_fit_small; [reflexivity |]; repeat (constructor; [cbn; lia |]); constructor |].
  split; [apply sums_fit_small; [reflexivity |]; repeat (constructor; [cbn; lia |]); constructor |].
  split; [lia |]. split; [vm_compute; reflexivity |]. split; [vm_compute; reflexivity |]. discriminate.
Qed.

(** Recordings in which one player has [d] points more *)
Theorem recordings_climb : forall E cs r r' c d m, wf_recording E cs r -> wf_recording E cs r' ->
  pings_reported r' = pings_reported r -> r_stats r' = r_stats r ->
  NoDup (map c_name (filter (fun c => negb (c_is_spectator c)) cs)) -> In c cs -> c_is_spectator c = false ->
  (forall m, m <> c_name c -> Score.total m (all_scores r') = Score.total m (all_scores r)) ->
  Score.total (c_name c) (all_scores r') = (Score.total (c_name c) (all_scores r) + d)%Z -> (0 < d)%Z ->
  iterates (players_order E) -> pings_reported r <> [] -> ktxstats_from E (concat (map snd (r_stats r))) = Err m ->
  exists ps qs p, portrait r c p /\ players E (encode (frames r)) = Ret (Ok ps) /\ players E (encode (frames r')) = Ret (Ok qs) /\
    climbs p d ps qs.
Proof. exact recordings_climb_proof. Qed.

(** and its teams *)
Theorem recordings_teams_climb : forall E cs r r' c d m ps qs, wf_recording E cs r -> wf_recording E cs r' ->
  pings_reported r' = pings_reported r -> r_stats r' = r_stats r ->
  NoDup (map c_name (filter (fun c => negb (c_is_spectator c)) cs)) -> In c cs -> c_is_spectator c = false ->
  (forall m, m <> c_name c -> Score.total m (all_scores r') = Score.total m (all_scores r)) ->
  Score.total (c_name c) (all_scores r') = (Score.total (c_name c) (all_scores r) + d)%Z -> (0 < d)%Z ->
  iterates (players_order E) -> iterates (teams_order E) -> each_iterates (colors_order E) ->
  pings_reported r <> [] -> ktxstats_from E (concat (map snd (r_stats r))) = Err m ->
  players E (encode (frames r)) = Ret (Ok ps) -> players E (encode (frames r')) = Ret (Ok qs) -> sums_fit ps -> sums_fit qs ->
  exists ts us p, portrait r c p /\ teams E (encode (frames r)) = Ret (Ok ts) /\ teams E (encode (frames r')) = Ret (Ok us) /\ team_climbs p d ts us.
Proof. exact recordings_teams_climb_proof. Qed.

(** The sample night with carl's rocket twice *)
Definition late_night : recording := mkRecording (r_info night) (r_users night)
  (r_users_rest night) (r_countdown night) (r_date_time night) (r_date night) (firstn 1 (r_match night) ++ r_match night)
  (r_over_time night) (r_stats night).

Example late_night_wf : wf_recording (sample true) night_clients late_night.
Proof.
  assert (forall g s, existsb (Byte.eqb x00) s = false -> 7 <= len s <= 256 -> find s name_key = Some 0 ->
    find (g ++ [x00]) name_key = None -> len (g ++ [x00]) + 0 <= 496 -> wf_record (g ++ [x00], s)) as U.
  { intros g s H1 H2 H3 H4 H5. apply find_some in H3. split.
    - split; [apply not_in; exact H1 |]. split; [exact H2 |]. apply occurs_iff. exists 0. apply H3.
    - split; [right; exists g; reflexivity |]. split; [apply find_none; exact H4 |]. exists 0. split; assumption. }
  constructor.
  - split; [discriminate |]. repeat split; try (apply not_in; reflexivity). vm_compute. discriminate.
  - split; [discriminate |]. split; [vm_compute; discriminate |]. split; [| split; [| vm_compute; discriminate]].
    + constructor; [| constructor; [| constructor]];
        [apply (U [x01]) | apply (U [x02])]; try reflexivity; try (split; vm_compute; discriminate); vm_compute; discriminate.
    + intros g s l Q. injection Q as <- _ _. discriminate.
  - split; [vm_compute; discriminate | apply find_none; vm_compute; reflexivity].
  - split; [apply not_in; vm_compute; reflexivity | vm_compute; reflexivity].
  - split; [reflexivity |]. intros [| [| k]] g s Q; [| | destruct k; discriminate]; injection Q as <- <-.
    + eexists. split; [reflexivity |].
      constructor; try reflexivity; try (left; reflexivity); try (split; [reflexivity | exists 0%Z; split; [right; split |]; reflexivity]);
        (split; [discriminate | intros [v [V _]]; discriminate]).
    + eexists. split; [reflexivity |].
      constructor; try reflexivity; try (left; reflexivity); try (split; [reflexivity | exists 0%Z; split; [right; split |]; reflexivity]).
      * split; [discriminate | intros [v [V _]]; discriminate].
      * split; [intros _; exists 1%Z; split; [reflexivity | discriminate] | reflexivity].
  - split.
    + constructor; [| constructor; [| constructor]]; (split; [split; vm_compute; reflexivity |]).
      * split; [discriminate |]. split; [discriminate |]. apply not_in. reflexivity.
      * split; [discriminate |]. split; [discriminate |]. apply find_none. reflexivity.
    + repeat (constructor; [split; [split; vm_compute; reflexivity |] |]); [| | | | | | | constructor].
      * split; [discriminate |]. split; [apply not_in; reflexivity |]. split; [vm_compute; tauto |]. split; [discriminate |].
        split; [| split; [discriminate | apply trimmed_iff; vm_compute; reflexivity]]. left.
        split; [apply not_in; reflexivity |]. split; [apply not_in; reflexivity |]. repeat split; try discriminate; intros; discriminate.
      * split; [discriminate |]. split; [apply not_in; reflexivity |]. split; [vm_compute; tauto |]. split; [discriminate |].
        split; [| split; [discriminate | apply trimmed_iff; vm_compute; reflexivity]]. left.
        split; [apply not_in; reflexivity |]. split; [apply not_in; reflexivity |]. repeat split; try discriminate; intros; discriminate.
      * split; [discriminate |]. split; [apply not_in; reflexivity |]. split; [vm_compute; tauto |]. split; [reflexivity |].
        split; [left; split; [apply not_in; reflexivity | repeat split; try discriminate; intros []] |].
        split; [apply trimmed_iff; vm_compute; reflexivity |].
        do 2 eexists. split; [exists [], (tl night_clients); split; [reflexivity | split; [reflexivity | constructor]] |].
        split; [exists [hd (mkClient 0 [] [] (0, 0) false false None None) night_clients], [];
          split; [reflexivity | split; [reflexivity | constructor; [discriminate | constructor]]] |].
        split; [reflexivity |]. split; [reflexivity | discriminate].
      * split; [discriminate |]. split; [apply not_in; reflexivity |].
        split; [apply occurs_iff; eexists; apply find_some; vm_compute; reflexivity |].
        split; [vm_compute; tauto |]. split; [apply FlagFacts.quotes_none_line, not_in; reflexivity | reflexivity].
      * split; [apply not_in; reflexivity | apply find_none; reflexivity].
      * repeat constructor.
      * exact I.
  - split; [split; vm_compute; discriminate |]. split; [apply not_in; reflexivity |]. split; [apply not_in; reflexivity |].
    split; [apply utf8_valid_iff; reflexivity | apply find_none; reflexivity].
  - repeat (constructor; [repeat split; try (apply find_none; reflexivity); vm_compute; try reflexivity; discriminate |]). constructor.
  - exists [(2, version_mark ++ lit "3, ")], (lit """x"": 1}"). split; [reflexivity |]. repeat constructor. discriminate.
  - apply utf8_valid_iff. reflexivity.
  - eexists. eexists. eexists. split; [reflexivity |]. apply find_none. reflexivity.
  - apply find_none. vm_compute. reflexivity.
  - apply find_none. vm_compute. reflexivity.
  - split; vm_compute; [discriminate | reflexivity].
  - vm_compute. reflexivity.
  - intros k name. change (all_deeds late_night) with [(Defends, lit "carl")]. unfold Flags.times. cbn [filter].
    destruct (_ && _)%bool; reflexivity.
  - intros p [<- | [<- | []]]; vm_compute; reflexivity.
Qed.

Example late_night_scores : pings_reported late_night = pings_reported night /\ r_stats late_night = r_stats night /\
  (forall m, m <> lit "carl" -> Score.total m (all_scores late_night) = Score.total m (all_scores night)) /\
  Score.total (lit "carl") (all_scores late_night) = (Score.total (lit "carl") (all_scores night) + 1)%Z.
Proof.
  split; [reflexivity |]. split; [reflexivity |]. split; [| vm_compute; reflexivity].
  intros m M. change (all_scores late_night) with ((lit "carl", 1%Z) :: all_scores night).
  unfold Score.total. cbn [filter fst]. rewrite (proj2 (beq_neq (lit "carl") m) (fun Q => M (eq_sym Q))). reflexivity.
Qed.

Example late_night_players : exists a c t u, players unread (encode (frames night)) = Ret (Ok [a; c]) /\
  players unread (encode (frames late_night)) = Ret (Ok [with_points 1 c; a]) /\ p_name c = lit "carl" /\
  teams unread (encode (frames night)) = Ret (Ok [t]) /\ teams unread (encode (frames late_night)) = Ret (Ok [u]) /\
  t_frags u = (t_frags t + 1)%Z /\ t_ping u = t_ping t.
Proof.
  do 4 eexists. split; [vm_compute; reflexivity |]. split; [vm_compute; reflexivity |]. split; [reflexivity |].
  split; [vm_compute; reflexivity |]. split; [vm_compute; reflexivity |]. split; reflexivity.
Qed.

Print Assumptions stats_climb.
Print Assumptions stats_climb_refuted.
Print Assumptions climb_passes.
Print Assumptions parsed_climb.
Print Assumptions teams_climb.
Print Assumptions team_color_climb_refuted.
Print Assumptions recordings_climb.
Print Assumptions recordings_teams_climb.
