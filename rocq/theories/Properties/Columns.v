(** C102: each field of a team comes from that field of its own players. *)
From Coq Require Import Lia Permutation ZifyN ZifyNat ZifyBool.
From Verif.Model Require Import Base Env Clients Ktxstats Players.
From Verif.Spec Require Import Occ Mvd Messages Obituary Score Flags Pings Stats Texts Utf8 Names Join Rename Recording Order Clientlist Teams Shuffles Sources Columns.
From Verif.Proofs Require FlagFacts.
From Verif.Proofs Require Import BaseFacts TextFacts ObituaryFacts Utf8Facts PrintFacts RecordingFacts RecordingTexts TeamFacts ColumnFacts.
From Verif.Properties Require Import Sample Players Teams Recording.
Open Scope N_scope.

(** Any two lists of players that are in the same teams, place by place *)
Theorem team_columns : forall E (R : Player -> Player -> Prop) ps qs, iterates (teams_order E) -> each_iterates (colors_order E) ->
  (forall p q, R p q -> p_team p = p_team q) -> Forall2 R ps qs -> sums_fit ps -> sums_fit qs ->
  exists ts us, teams_from_players E ps = Ret ts /\ teams_from_players E qs = Ret us /\
    matched (columns R) ts us /\ (apart (to_lowercase E) ps -> Forall2 (columns R) ts us).
Proof. exact team_columns_proof. Qed.

(** A team is made from its members alone: two lists with the same members of a team, in any build, have the same
    team; *)
Theorem team_own_members : forall E ps qs n ms o o' ts us, iterates (teams_order E) ->
  splits (fun p => p_team p = n) ps ms o -> splits (fun p => p_team p = n) qs ms o' ->
  teams_from_players E ps = Ret ts -> teams_from_players E qs = Ret us ->
  forall t, t_name t = n -> (In t ts <-> In t us).
Proof. exact team_own_members_proof. Qed.

(** someone who leaves, or joins, changes no other team. *)
Theorem player_leaves : forall E a p b ts us, iterates (teams_order E) ->
  teams_from_players E (a ++ p :: b) = Ret ts -> teams_from_players E (a ++ b) = Ret us ->
  forall t, t_name t <> p_team p -> (In t ts <-> In t us).
Proof. exact player_leaves_proof. Qed.

Example b_leaves : exists ts us, teams_from_players (sample true) crew = Ret ts /\
  teams_from_players (sample true) (firstn 1 crew ++ skipn 2 crew) = Ret us /\
  crew = firstn 1 crew ++ person "b" "Blue" (13, 13) 9 20 :: skipn 2 crew /\
  map (fun t => (t_name t, t_frags t)) ts = [(lit "Blue", 7%Z); (lit "green", 0%Z); (lit "red", 26%Z)] /\
  map (fun t => (t_name t, t_frags t)) us = [(lit "Blue", (-2)%Z); (lit "green", 0%Z); (lit "red", 26%Z)] /\ tl ts = tl us.
Proof. do 2 eexists. split; [vm_compute; reflexivity |]. split; [vm_compute; reflexivity |]. repeat split. Qed.

(** Two recordings of the same events by the same people, whatever they look like *)
Theorem recordings_columns : forall E cs cs' r r' m, wf_recording E cs r -> wf_recording E cs' r' ->
  Forall2 same_person cs cs' -> timeline r' = timeline r -> r_stats r' = r_stats r ->
  NoDup (map c_name (filter (fun c => negb (c_is_spectator c)) cs)) ->
  iterates (players_order E) -> pings_reported r <> [] -> ktxstats_from E (concat (map snd (r_stats r))) = Err m ->
  exists ps ps', players E (encode (frames r)) = Ret (Ok ps) /\ players E (encode (frames r')) = Ret (Ok ps') /\
    Forall2 (same_results cs cs') ps ps'.
Proof. exact recordings_columns_proof. Qed.

(** in the same teams and in other colours *)
Theorem recordings_recolored : forall E g cs cs' r r' m ps, wf_recording E cs r -> wf_recording E cs' r' ->
  Forall2 same_person cs cs' -> Forall2 (fun c d => c_team d = c_team c) cs cs' ->
  (forall a b, g a = g b -> a = b) -> Forall2 (fun c d => c_color d = g (c_color c)) cs cs' ->
  timeline r' = timeline r -> r_stats r' = r_stats r ->
  NoDup (map c_name (filter (fun c => negb (c_is_spectator c)) cs)) ->
  iterates (players_order E) -> iterates (teams_order E) -> each_iterates (colors_order E) ->
  pings_reported r <> [] -> ktxstats_from E (concat (map snd (r_stats r))) = Err m ->
  players E (encode (frames r)) = Ret (Ok ps) -> sums_fit ps ->
  exists ts us, teams E (encode (frames r)) = Ret (Ok ts) /\ teams E (encode (frames r')) = Ret (Ok us) /\
    matched (team_recolored cs cs' g) ts us /\ (apart (to_lowercase E) ps -> Forall2 (team_recolored cs cs' g) ts us).
Proof. exact recordings_recolored_proof. Qed.

(** The players of [crew] in the same teams: c becomes the best, d changes colours, e has another ping. *)
Definition crew2 : list Player :=
  [ person "a" "red" (4, 4) 10 25; person "b" "Blue" (13, 13) 9 20; person "c" "red" (4, 4) 18 26;
    person "d" "red" (2, 2) 8 30; person "e" "Blue" (1, 13) (-2) 61; person "f" "green" (0, 0) 0 0 ].

Example crew2_columns : Forall2 (fun p q => p_team p = p_team q) crew crew2 /\ sums_fit crew2 /\ apart (to_lowercase (sample true)) crew /\
  exists ts us, teams_from_players (sample true) crew = Ret ts /\ teams_from_players (sample true) crew2 = Ret us /\
    map (fun t => (t_name t, t_color t, t_frags t, t_ping t)) ts =
      [(lit "Blue", (13, 13), 7%Z, 21); (lit "green", (0, 0), 0%Z, 0); (lit "red", (4, 4), 26%Z, 27)] /\
    map (fun t => (t_name t, t_color t, t_frags t, t_ping t)) us =
      [(lit "Blue", (13, 13), 7%Z, 41); (lit "green", (0, 0), 0%Z, 0); (lit "red", (4, 4), 36%Z, 27)].
Proof.
  split; [repeat constructor |]. split; [apply sums_fit_small; [reflexivity |]; repeat (constructor; [cbn; lia |]); constructor |].
  split; [| do 2 eexists; split; [vm_compute; reflexivity |]; split; [vm_compute; reflexivity |]; split; reflexivity].
  intros p q P Q. cbn in P, Q.
  repeat (destruct P as [<- | P]; [repeat (destruct Q as [<- | Q]; [vm_compute; (reflexivity || discriminate) |]); destruct Q |]). destruct P.
Qed.

(** The sample night in other colours *)
Definition green_night : recording := mkRecording (r_info night)
  [([x01; x00], lit "\name\anna\team\red\topcolor\4\bottomcolor\3"); ([x02; x00], lit "\name\carl\team\red\topcolor\4\bottomcolor\3\*bot\1")]
  (r_users_rest night) (r_countdown night) (r_date_time night) (r_date night) (r_match night) (r_over_time night) (r_stats night).

Definition green_clients : list Client :=
  [mkClient 0 (lit "anna") (lit "red") (4, 3) false false None None;
   mkClient 1 (lit "carl") (lit "red") (4, 3) false true None None].

Example green_night_wf : wf_recording (sample true) green_clients green_night.
Proof.
  assert (forall g s, existsb (Byte.eqb x00) s = false -> 7 <= len s <= 256 -> find s name_key = Some 0 ->
    find (g ++ [x00]) name_key = None -> len (g ++ [x00]) + 0 <= 496 -> wf_record (g ++ [x00], s)) as U.
  { intros g s H1 H2 H3 H4 H5. apply find_some in H3. split.
    - split; [apply not_in; exact H1 |]. split; [exact H2 |]. apply occurs_iff. exists 0. apply H3.
    - split; [right; exists g; reflexivity |]. split; [apply find_none; exact H4 |]. exists 0. split; assumption. }
  constructor.
  - split; [discriminate |]. repeat split; try (apply not_in; reflexivity). vm_compute. discriminate.
  - split; [discriminate |]. split; [vm_compute; discriminate |]. split; [| split; [| vm_compute; discriminate]].
    + constructor; [| constructor; [| constructor]];
        [apply (U [x01]) | apply (U [x02])]; try reflexivity; try (split; vm_compute; discriminate); vm_compute; discriminate.
    + intros g s l Q. injection Q as <- _ _. discriminate.
  - split; [vm_compute; discriminate | apply find_none; vm_compute; reflexivity].
  - split; [apply not_in; vm_compute; reflexivity | vm_compute; reflexivity].
  - split; [reflexivity |]. intros [| [| k]] g s Q; [| | destruct k; discriminate]; injection Q as <- <-.
    + eexists. split; [reflexivity |].
      constructor; try reflexivity; try (left; reflexivity); try (split; [reflexivity | first [exists 4%Z; split; [left |]; reflexivity | exists 3%Z; split; [left |]; reflexivity]]);
        (split; [discriminate | intros [v [V _]]; discriminate]).
    + eexists. split; [reflexivity |].
      constructor; try reflexivity; try (left; reflexivity); try (split; [reflexivity | first [exists 4%Z; split; [left |]; reflexivity | exists 3%Z; split; [left |]; reflexivity]]).
      * split; [discriminate | intros [v [V _]]; discriminate].
      * split; [intros _; exists 1%Z; split; [reflexivity | discriminate] | reflexivity].
  - split.
    + constructor; [| constructor; [| constructor]]; (split; [split; vm_compute; reflexivity |]).
      * split; [discriminate |]. split; [discriminate |]. apply not_in. reflexivity.
      * split; [discriminate |]. split; [discriminate |]. apply find_none. reflexivity.
    + repeat (constructor; [split; [split; vm_compute; reflexivity |] |]); [| | | | | | constructor].
      * split; [discriminate |]. split; [apply not_in; reflexivity |]. split; [vm_compute; tauto |]. split; [discriminate |].
        split; [| split; [discriminate | apply trimmed_iff; vm_compute; reflexivity]]. left.
        split; [apply not_in; reflexivity |]. split; [apply not_in; reflexivity |]. repeat split; try discriminate; intros; discriminate.
      * split; [discriminate |]. split; [apply not_in; reflexivity |]. split; [vm_compute; tauto |]. split; [reflexivity |].
        split; [left; split; [apply not_in; reflexivity | repeat split; try discriminate; intros []] |].
        split; [apply trimmed_iff; vm_compute; reflexivity |].
        do 2 eexists. split; [exists [], (tl green_clients); split; [reflexivity | split; [reflexivity | constructor]] |].
        split; [exists [hd (mkClient 0 [] [] (0, 0) false false None None) green_clients], [];
          split; [reflexivity | split; [reflexivity | constructor; [discriminate | constructor]]] |].
        split; [reflexivity |]. split; [reflexivity | discriminate].
      * split; [discriminate |]. split; [apply not_in; reflexivity |].
        split; [apply occurs_iff; eexists; apply find_some; vm_compute; reflexivity |].
        split; [vm_compute; tauto |]. split; [apply FlagFacts.quotes_none_line, not_in; reflexivity | reflexivity].
      * split; [apply not_in; reflexivity | apply find_none; reflexivity].
      * repeat constructor.
      * exact I.
  - split; [split; vm_compute; discriminate |]. split; [apply not_in; reflexivity |]. split; [apply not_in; reflexivity |].
    split; [apply utf8_valid_iff; reflexivity | apply find_none; reflexivity].
  - repeat (constructor; [repeat split; try (apply find_none; reflexivity); vm_compute; try reflexivity; discriminate |]). constructor.
  - exists [(2, version_mark ++ lit "3, ")], (lit """x"": 1}"). split; [reflexivity |]. repeat constructor. discriminate.
  - apply utf8_valid_iff. reflexivity.
  - eexists. eexists. eexists. split; [reflexivity |]. apply find_none. reflexivity.
  - apply find_none. vm_compute. reflexivity.
  - apply find_none. vm_compute. reflexivity.
  - split; vm_compute; [discriminate | reflexivity].
  - vm_compute. reflexivity.
  - intros k name. change (all_deeds green_night) with [(Defends, lit "carl")]. unfold Flags.times. cbn [filter].
    destruct (_ && _)%bool; reflexivity.
  - intros p [<- | [<- | []]]; vm_compute; reflexivity.
Qed.


Definition shifted (c : N * N) : N * N := (fst c + 4, snd c + 3).

Example green_night_teams : Forall2 same_person night_clients green_clients /\
  Forall2 (fun c d => c_team d = c_team c) night_clients green_clients /\
  Forall2 (fun c d => c_color d = shifted (c_color c)) night_clients green_clients /\
  (forall a b, shifted a = shifted b -> a = b) /\
  exists ts us, teams unread (encode (frames night)) = Ret (Ok ts) /\ teams unread (encode (frames green_night)) = Ret (Ok us) /\
    map (fun t => (t_name t, t_color t, t_frags t, t_ping t, map p_name (t_players t))) ts = [(lit "red", (0, 0), 0%Z, 28, [lit "anna"; lit "carl"])] /\
    map (fun t => (t_name t, t_color t, t_frags t, t_ping t, map p_name (t_players t))) us = [(lit "red", (4, 3), 0%Z, 28, [lit "anna"; lit "carl"])].
Proof.
  split; [repeat constructor |]. split; [repeat constructor |]. split; [repeat constructor |]. split.
  - intros [a1 a2] [b1 b2] Q. unfold shifted in Q. cbn [fst snd] in Q. injection Q as Q1 Q2. f_equal; lia.
  - do 2 eexists. split; [vm_compute; reflexivity |]. split; [vm_compute; reflexivity |]. split; reflexivity.
Qed.

(** If two colours become one, the most worn colour need not become the most worn colour. *)
Theorem recolored_refuted : exists g ps t u, clear_color ps /\
  teams_from_players (sample true) ps = Ret [t] /\
  teams_from_players (sample true) (map (fun p => mkPlayer (p_name p) (p_team p) (g (p_color p)) (p_frags p) (p_ping p) (p_is_bot p)
    (p_auth_username p) (p_auth_cc p)) ps) = Ret [u] /\ t_color u <> g (t_color t).
Proof.
  exists (fun c => if color_eqb c (4, 4) then (4, 4) else (13, 13)),
    [person "a" "red" (4, 4) 0 0; person "b" "red" (4, 4) 0 0; person "c" "red" (1, 1) 0 0; person "d" "red" (2, 2) 0 0; person "e" "red" (3, 3) 0 0].
  do 2 eexists. split; [| split; [vm_compute; reflexivity |]; split; [vm_compute; reflexivity | discriminate]].
  assert (ONE : forall c, most_worn c [person "a" "red" (4, 4) 0 0; person "b" "red" (4, 4) 0 0; person "c" "red" (1, 1) 0 0; person "d" "red" (2, 2) 0 0; person "e" "red" (3, 3) 0 0] ->
    c = (4, 4)).
  { intros c [n (P & W & M)]. specialize (M (4, 4) 2 ltac:(refine (eq_ind _ (wear (4, 4) _) (wear_worn (4, 4) _) 2 _); vm_compute; reflexivity)).
    apply wear_fun in W. cbn [worn person p_color] in W.
    repeat match type of W with context [color_eqb ?a ?b] => let Q := fresh in destruct (color_eqb a b) eqn:Q; [apply color_eqb_eq in Q |] end;
      try lia; congruence. }
  intros _ c d C D. rewrite (ONE c C), (ONE d D). reflexivity.
Qed.

Print Assumptions team_columns.
Print Assumptions team_own_members.
Print Assumptions player_leaves.
Print Assumptions recordings_columns.
Print Assumptions recordings_recolored.
Print Assumptions recolored_refuted.
