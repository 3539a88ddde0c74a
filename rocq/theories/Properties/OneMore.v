(** C103: one more player is one more row. *)
From Coq Require Import Lia Permutation ZifyN ZifyNat ZifyBool.
From Verif.Model Require Import Base Env Clientinfo Clients Frags Ping Ktxstats Players.
From Verif.Spec Require Import Occ Mvd Messages Obituary Score Flags Pings Stats Texts Utf8 Names Join Rename Recording Order Clientlist Teams Shuffles Sources.
From Verif.Proofs Require FlagFacts.
From Verif.Proofs Require Import BaseFacts TextFacts ObituaryFacts Utf8Facts PrintFacts RecordingFacts RecordingTexts TeamFacts OneMoreFacts StandingFacts.
From Verif.Properties Require Import Sample Pings Scores Players Teams Recording.
Open Scope N_scope.

(** Stats with one player more, at any place *)
Theorem stats_one_more : forall E d d' s s' a k b,
  ktxstats_v3 E d = Ret (Ok s) -> ks_players s = a ++ k :: b -> ktxstats_v3 E d' = Ret (Ok s') -> ks_players s' = a ++ b ->
  exists x p y, converted k p /\ players E d = Ret (Ok (x ++ p :: y)) /\ players E d' = Ret (Ok (x ++ y)).
Proof. exact stats_one_more_proof. Qed.

(** Without a, b or c the two others stay in their order. *)
Example stats_value_less : exists a b c, players_from_ktxstats stats_value = Ok [b; c; a] /\
  players_from_ktxstats (mkKtxstatsV3 [] [] 0 (skipn 1 (ks_players stats_value))) = Ok [b; c] /\
  players_from_ktxstats (mkKtxstatsV3 [] [] 0 (firstn 1 (ks_players stats_value) ++ skipn 2 (ks_players stats_value))) = Ok [c; a] /\
  players_from_ktxstats (mkKtxstatsV3 [] [] 0 (firstn 2 (ks_players stats_value))) = Ok [b; a].
Proof. do 3 eexists. split; [vm_compute; reflexivity |]. split; [vm_compute; reflexivity |]. split; vm_compute; reflexivity. Qed.

(** Any bytes, at most 256 clients: the same tables, one client more *)
Theorem parsed_one_more : forall E d d' l l' u c v pg t, iterates (players_order E) ->
  clientinfo_strings E d = Ret (Ok l) -> len l <= 256 -> clientinfo_strings E d' = Ret (Ok l') -> len l' <= 256 ->
  player_clients E d = Ret (Ok (u ++ v)) -> player_clients E d' = Ret (Ok (u ++ c :: v)) -> NoDup (map c_name (u ++ v)) ->
  ping_per_player_number E d = Ret (Ok pg) -> ping_per_player_number E d' = Ret (Ok pg) ->
  frags_per_player_name E d = Ret t -> frags_per_player_name E d' = Ret t ->
  exists x p y, entry t pg c p /\ players_from_parsing E d = Ret (Ok (x ++ y)) /\ players_from_parsing E d' = Ret (Ok (x ++ p :: y)).
Proof. exact parsed_one_more_proof. Qed.

(** [players_demo] with eve *)
Definition eve_joins : bytes :=
  encode (frame_all x00 (x09 :: lit "cmd spawn" ++ [x00]
    ++ userinfo "\name\anna\team\red\topcolor\4\bottomcolor\4"
    ++ userinfo "\name\bert\team\red\topcolor\4\bottomcolor\4"
    ++ userinfo "\name\carl\team\blue\topcolor\13\bottomcolor\13"
    ++ userinfo "\name\dora\team\blue\topcolor\13\bottomcolor\13"
    ++ userinfo "\name\eve\team\green\topcolor\2\bottomcolor\2" ++ repeat x00 600) :: tl score_demo ++
    [ping_frame [mkPingUpdate x00 26 x00; mkPingUpdate x02 38 x00; mkPingUpdate x03 12 x00]]).

Example eve_joins_players : exists a b c d e,
  players_from_parsing (sample true) players_demo = Ret (Ok ([a; b] ++ [c; d])) /\
  players_from_parsing (sample true) eve_joins = Ret (Ok ([a; b] ++ e :: [c; d])) /\ p_name e = lit "eve" /\
  (exists cs c, player_clients (sample true) players_demo = Ret (Ok (cs ++ [])) /\ player_clients (sample true) eve_joins = Ret (Ok (cs ++ [c]))) /\
  (exists pg, ping_per_player_number (sample true) players_demo = Ret (Ok pg) /\ ping_per_player_number (sample true) eve_joins = Ret (Ok pg)) /\
  (exists t, frags_per_player_name (sample true) players_demo = Ret t /\ frags_per_player_name (sample true) eve_joins = Ret t).
Proof.
  do 5 eexists. split; [vm_compute; reflexivity |]. split; [vm_compute; reflexivity |]. split; [reflexivity |].
  split; [eexists [_; _; _; _], _; split; vm_compute; reflexivity |]. split; eexists; split; vm_compute; reflexivity.
Qed.

(** Recordings of the same events, one with one client more *)
Theorem recordings_one_more : forall E cs c r r' m, wf_recording E cs r -> wf_recording E (cs ++ [c]) r' ->
  timeline r' = timeline r -> r_stats r' = r_stats r ->
  NoDup (map c_name (filter (fun c => negb (c_is_spectator c)) cs)) ->
  iterates (players_order E) -> pings_reported r <> [] -> ktxstats_from E (concat (map snd (r_stats r))) = Err m ->
  exists x y, players E (encode (frames r)) = Ret (Ok (x ++ y)) /\
    (c_is_spectator c = true -> players E (encode (frames r')) = Ret (Ok (x ++ y))) /\
    (c_is_spectator c = false -> exists p, portrait r c p /\ players E (encode (frames r')) = Ret (Ok (x ++ p :: y))).
Proof. exact recordings_one_more_proof. Qed.

(** and its teams *)
Theorem recordings_teams_one_more : forall E cs c r r' m ts us, wf_recording E cs r -> wf_recording E (cs ++ [c]) r' ->
  timeline r' = timeline r -> r_stats r' = r_stats r ->
  NoDup (map c_name (filter (fun c => negb (c_is_spectator c)) cs)) ->
  iterates (players_order E) -> iterates (teams_order E) -> pings_reported r <> [] -> ktxstats_from E (concat (map snd (r_stats r))) = Err m ->
  teams E (encode (frames r)) = Ret (Ok ts) -> teams E (encode (frames r')) = Ret (Ok us) ->
  (c_is_spectator c = true -> us = ts) /\ (c_is_spectator c = false -> forall t, t_name t <> c_team c -> (In t ts <-> In t us)).
Proof. exact recordings_teams_one_more_proof. Qed.

(** The sample night with a third player *)
Definition full_night : recording := mkRecording (r_info night)
  [([x01; x00], lit "\name\anna\team\red"); ([x02; x00], lit "\name\carl\team\red\*bot\1"); ([x04; x00], lit "\name\bert\team\blue")]
  (r_users_rest night) (r_countdown night) (r_date_time night) (r_date night) (r_match night) (r_over_time night) (r_stats night).

Definition full_clients : list Client :=
  [mkClient 0 (lit "anna") (lit "red") (0, 0) false false None None;
   mkClient 1 (lit "carl") (lit "red") (0, 0) false true None None;
   mkClient 2 (lit "bert") (lit "blue") (0, 0) false false None None].

Example full_night_wf : wf_recording (sample true) full_clients full_night.
Proof.
  assert (forall g s, existsb (Byte.eqb x00) s = false -> 7 <= len s <= 256 -> find s name_key = Some 0 ->
    find (g ++ [x00]) name_key = None -> len (g ++ [x00]) + 0 <= 496 -> wf_record (g ++ [x00], s)) as U.
  { intros g s H1 H2 H3 H4 H5. apply find_some in H3. split.
    - split; [apply not_in; exact H1 |]. split; [exact H2 |]. apply occurs_iff. exists 0. apply H3.
    - split; [right; exists g; reflexivity |]. split; [apply find_none; exact H4 |]. exists 0. split; assumption. }
  constructor.
  - split; [discriminate |]. repeat split; try (apply not_in; reflexivity). vm_compute. discriminate.
  - split; [discriminate |]. split; [vm_compute; discriminate |]. split; [| split; [| vm_compute; discriminate]].
    + constructor; [| constructor; [| constructor; [| constructor]]];
        [apply (U [x01]) | apply (U [x02]) | apply (U [x04])]; try reflexivity; try (split; vm_compute; discriminate); vm_compute; discriminate.
    + intros g s l Q. injection Q as <- _ _. discriminate.
  - split; [vm_compute; discriminate | apply find_none; vm_compute; reflexivity].
  - split; [apply not_in; vm_compute; reflexivity | vm_compute; reflexivity].
  - split; [reflexivity |]. intros [| [| [| k]]] g s Q; [| | | destruct k; discriminate]; injection Q as <- <-.
    + eexists. split; [reflexivity |].
      constructor; try reflexivity; try (left; reflexivity); try (split; [reflexivity | exists 0%Z; split; [right; split |]; reflexivity]);
        (split; [discriminate | intros [v [V _]]; discriminate]).
    + eexists. split; [reflexivity |].
      constructor; try reflexivity; try (left; reflexivity); try (split; [reflexivity | exists 0%Z; split; [right; split |]; reflexivity]).
      * split; [discriminate | intros [v [V _]]; discriminate].
      * split; [intros _; exists 1%Z; split; [reflexivity | discriminate] | reflexivity].
    + eexists. split; [reflexivity |].
      constructor; try reflexivity; try (left; reflexivity); try (split; [reflexivity | exists 0%Z; split; [right; split |]; reflexivity]);
        (split; [discriminate | intros [v [V _]]; discriminate]).
  - split.
    + constructor; [| constructor; [| constructor]]; (split; [split; vm_compute; reflexivity |]).
      * split; [discriminate |]. split; [discriminate |]. apply not_in. reflexivity.
      * split; [discriminate |]. split; [discriminate |]. apply find_none. reflexivity.
    + repeat (constructor; [split; [split; vm_compute; reflexivity |] |]); [| | | | | | constructor].
      * split; [discriminate |]. split; [apply not_in; reflexivity |]. split; [vm_compute; tauto |]. split; [discriminate |].
        split; [| split; [discriminate | apply trimmed_iff; vm_compute; reflexivity]]. left.
        split; [apply not_in; reflexivity |]. split; [apply not_in; reflexivity |]. repeat split; try discriminate; intros; discriminate.
      * split; [discriminate |]. split; [apply not_in; reflexivity |]. split; [vm_compute; tauto |]. split; [reflexivity |].
        split; [left; split; [apply not_in; reflexivity | repeat split; try discriminate; intros []] |].
        split; [apply trimmed_iff; vm_compute; reflexivity |].
        do 2 eexists. split; [exists [], (tl full_clients); split; [reflexivity | split; [reflexivity | constructor]] |].
        split; [exists [hd (mkClient 0 [] [] (0, 0) false false None None) full_clients], (skipn 2 full_clients);
          split; [reflexivity | split; [reflexivity | constructor; [discriminate | constructor]]] |].
        split; [reflexivity |]. split; [reflexivity | discriminate].
      * split; [discriminate |]. split; [apply not_in; reflexivity |].
        split; [apply occurs_iff; eexists; apply find_some; vm_compute; reflexivity |].
        split; [vm_compute; tauto |]. split; [apply FlagFacts.quotes_none_line, not_in; reflexivity | reflexivity].
      * split; [apply not_in; reflexivity | apply find_none; reflexivity].
      * repeat constructor.
      * exact I.
  - split; [split; vm_compute; discriminate |]. split; [apply not_in; reflexivity |]. split; [apply not_in; reflexivity |].
    split; [apply utf8_valid_iff; reflexivity | apply find_none; reflexivity].
  - repeat (constructor; [repeat split; try (apply find_none; reflexivity); vm_compute; try reflexivity; discriminate |]). constructor.
  - exists [(2, version_mark ++ lit "3, ")], (lit """x"": 1}"). split; [reflexivity |]. repeat constructor. discriminate.
  - apply utf8_valid_iff. reflexivity.
  - eexists. eexists. eexists. split; [reflexivity |]. apply find_none. reflexivity.
  - apply find_none. vm_compute. reflexivity.
  - apply find_none. vm_compute. reflexivity.
  - split; vm_compute; [discriminate | reflexivity].
  - vm_compute. reflexivity.
  - intros k name. change (all_deeds full_night) with [(Defends, lit "carl")]. unfold Flags.times. cbn [filter].
    destruct (_ && _)%bool; reflexivity.
  - intros p [<- | [<- | []]]; vm_compute; reflexivity.
Qed.

Example full_night_players : full_clients = night_clients ++ skipn 2 full_clients /\ timeline full_night = timeline night /\
  exists x y p ts t, players unread (encode (frames night)) = Ret (Ok (x ++ y)) /\
    players unread (encode (frames full_night)) = Ret (Ok (x ++ p :: y)) /\ p_name p = lit "bert" /\
    map p_name x = [lit "anna"] /\ map p_name y = [lit "carl"] /\
    teams unread (encode (frames night)) = Ret (Ok ts) /\ teams unread (encode (frames full_night)) = Ret (Ok (t :: ts)) /\
    t_name t = lit "blue" /\ map t_name ts = [lit "red"].
Proof.
  split; [reflexivity |]. split; [reflexivity |]. eexists [_], [_], _, [_], _. split; [vm_compute; reflexivity |]. split; [vm_compute; reflexivity |].
  split; [reflexivity |]. split; [reflexivity |]. split; [reflexivity |]. split; [vm_compute; reflexivity |]. split; [vm_compute; reflexivity |].
  split; reflexivity.
Qed.

Print Assumptions stats_one_more.
Print Assumptions parsed_one_more.
Print Assumptions recordings_one_more.
Print Assumptions recordings_teams_one_more.
