(** C101: what a change of the team names of the players does to the teams. *)
From Coq Require Import Lia Permutation.
From Verif.Model Require Import Base Env Clients Frags Ktxstats Players.
From Verif.Spec Require Import Occ Mvd Messages Obituary Score Flags Pings Stats Texts Utf8 Names Join Rename Recording Order Clientlist Teams TeamMerge.
From Verif.Proofs Require FlagFacts.
From Verif.Proofs Require Import BaseFacts TextFacts ObituaryFacts Utf8Facts PrintFacts RecordingFacts RecordingTexts TeamFacts TeamMergeFacts.
From Verif.Properties Require Import Sample Scores Players Teams Recording.
Open Scope N_scope.

Theorem teams_merged : forall E g ps, iterates (teams_order E) -> each_iterates (colors_order E) ->
  sums_fit ps -> sums_fit (map (reteam g) ps) ->
  exists ts ts', teams_from_players E ps = Ret ts /\ teams_from_players E (map (reteam g) ps) = Ret ts' /\ merged_teams g ts ts'.
Proof. exact teams_merged_proof. Qed.

Theorem teams_relabelled : forall E g ps, iterates (teams_order E) -> each_iterates (colors_order E) -> injective g -> sums_fit ps ->
  exists ts ts', teams_from_players E ps = Ret ts /\ teams_from_players E (map (reteam g) ps) = Ret ts' /\
    length ts = length ts' /\ forall t, In t ts -> exists t', In t' ts' /\ same_team g t t'.
Proof. exact teams_relabelled_proof. Qed.

(** In two recordings that differ in the team names of the userinfo strings only *)
Theorem recordings_reteamed : forall E g cs cs' r r' m, wf_recording E cs r -> wf_recording E cs' r' -> reteamed g cs cs' r r' ->
  iterates (players_order E) -> pings_reported r <> [] -> ktxstats_from E (concat (map snd (r_stats r))) = Err m ->
  exists ps, players E (encode (frames r)) = Ret (Ok ps) /\ players E (encode (frames r')) = Ret (Ok (map (reteam g) ps)).
Proof. exact recordings_reteamed_proof. Qed.

Theorem recordings_teams : forall E g cs cs' r r' m ps, wf_recording E cs r -> wf_recording E cs' r' -> reteamed g cs cs' r r' ->
  iterates (players_order E) -> iterates (teams_order E) -> each_iterates (colors_order E) ->
  pings_reported r <> [] -> ktxstats_from E (concat (map snd (r_stats r))) = Err m ->
  players E (encode (frames r)) = Ret (Ok ps) -> sums_fit ps -> sums_fit (map (reteam g) ps) ->
  exists ts ts', teams E (encode (frames r)) = Ret (Ok ts) /\ teams E (encode (frames r')) = Ret (Ok ts') /\ merged_teams g ts ts' /\
    (injective g -> length ts = length ts' /\ forall t, In t ts -> exists t', In t' ts' /\ same_team g t t').
Proof. exact recordings_teams_proof. Qed.

(** Team names are labels to the scores: who is charged with an anonymous team kill is the same. *)
Theorem frags_reteamed : forall g, injective g -> forall E fs fs' rest rest' cs, wf fs -> wf fs' ->
  stops (len (encode fs ++ rest)) rest -> stops (len (encode fs' ++ rest')) rest' ->
  clients E (encode fs ++ rest) = Ret (Ok cs) -> clients E (encode fs' ++ rest') = Ret (Ok (map (reteam_client g) cs)) ->
  Forall2 same_obituary (obituaries fs) (obituaries fs') ->
  renamed (fun n => n) (frags_per_player_name E (encode fs ++ rest)) (frags_per_player_name E (encode fs' ++ rest')).
Proof. exact frags_reteamed_proof. Qed.

Definition in_teams (a b : string) : frame :=
  frame_all x00 (x09 :: lit "cmd spawn" ++ [x00]
    ++ (lit "\name\anna\team\" ++ lit a ++ [x00]) ++ (lit "\name\bert\team\" ++ lit a ++ [x00])
    ++ (lit "\name\carl\team\" ++ lit b ++ [x00]) ++ (lit "\name\dora\team\" ++ lit b ++ [x00]) ++ repeat x00 600).
Definition feud (a b : string) : list frame :=
  [ in_teams a b; frame_all x01 (say x01 "dora was telefragged by her teammate" ++ [x01]); frame_all x01 (update x00);
    frame_all x01 (update x02) ].

Ltac same_feud := vm_compute; repeat (constructor; [split; reflexivity |]); constructor.

Example feud_reteamed : exists cs, wf (feud "red" "blue") /\ wf (feud "der" "eulb") /\
  clients (sample true) (encode (feud "red" "blue")) = Ret (Ok cs) /\
  clients (sample true) (encode (feud "der" "eulb")) = Ret (Ok (map (reteam_client (fun s => rev s)) cs)) /\
  Forall2 same_obituary (obituaries (feud "red" "blue")) (obituaries (feud "der" "eulb")) /\
  frags_per_player_name (sample true) (encode (feud "red" "blue")) = Ret [(lit "carl", (-1)%Z)] /\
  frags_per_player_name (sample true) (encode (feud "der" "eulb")) = Ret [(lit "carl", (-1)%Z)].
Proof.
  eexists. split; [repeat constructor |]. split; [repeat constructor |]. split; [vm_compute; reflexivity |].
  split; [vm_compute; reflexivity |]. split; [same_feud |]. split; vm_compute; reflexivity.
Qed.

(** When two teams become one, somebody else can be charged. *)
Theorem frags_reteamed_refuted : exists g E fs fs' cs t t', wf fs /\ wf fs' /\
  clients E (encode fs) = Ret (Ok cs) /\ clients E (encode fs') = Ret (Ok (map (reteam_client g) cs)) /\
  Forall2 same_obituary (obituaries fs) (obituaries fs') /\
  frags_per_player_name E (encode fs) = Ret t /\ frags_per_player_name E (encode fs') = Ret t' /\
  In (lit "carl", (-1)%Z) t /\ In (lit "anna", (-1)%Z) t' /\ ~ In (lit "carl") (map fst t').
Proof.
  exists (fun _ => lit "blue"), (sample true), (feud "red" "blue"), (feud "blue" "blue"). do 3 eexists.
  split; [repeat constructor |]. split; [repeat constructor |]. split; [vm_compute; reflexivity |].
  split; [vm_compute; reflexivity |]. split; [same_feud |]. split; [vm_compute; reflexivity |]. split; [vm_compute; reflexivity |].
  split; [left; reflexivity |]. split; [left; reflexivity |]. intros [X | []]. discriminate.
Qed.

(** Red and Blue play together against green. *)
Definition join_blue (s : str) : str := if beq s (lit "red") then lit "Blue" else s.

Example crew_joined_fits : sums_fit (map (reteam join_blue) crew).
Proof. apply sums_fit_small; [reflexivity |]. repeat (constructor; [cbn; lia |]); constructor. Qed.

Example crew_joined : exists a b, teams_from_players (sample true) (map (reteam join_blue) crew) = Ret [a; b] /\
  (t_name a, t_color a, t_frags a, t_ping a, map p_name (t_players a)) =
    (lit "Blue", (4, 4), 33%Z, 24, [lit "a"; lit "b"; lit "c"; lit "d"; lit "e"]) /\
  (t_name b, t_color b, t_frags b, t_ping b, map p_name (t_players b)) = (lit "green", (0, 0), 0%Z, 0, [lit "f"]).
Proof. do 2 eexists. split; [vm_compute; reflexivity |]. repeat split. Qed.

(** The order of the teams follows the new names. *)
Example crew_relabelled : exists a b c, teams_from_players (sample true) (map (reteam (fun s => rev s)) crew) = Ret [a; b; c] /\
  (t_name a, t_color a, t_frags a, t_ping a) = (lit "der", (4, 4), 26%Z, 27) /\
  (t_name b, t_color b, t_frags b, t_ping b) = (lit "eulB", (13, 13), 7%Z, 21) /\
  (t_name c, t_color c, t_frags c, t_ping c) = (lit "neerg", (0, 0), 0%Z, 0).
Proof. do 3 eexists. split; [vm_compute; reflexivity |]. repeat split. Qed.

(** The sample night, with both players in Blue *)
Definition blue_night : recording := mkRecording (r_info night)
  [([x01; x00], lit "\name\anna\team\Blue"); ([x02; x00], lit "\name\carl\team\Blue\*bot\1")]
  (r_users_rest night) (r_countdown night) (r_date_time night) (r_date night) (r_match night) (r_over_time night) (r_stats night).

Definition blue_clients : list Client := map (reteam_client join_blue) night_clients.

Example blue_night_wf : wf_recording (sample true) blue_clients blue_night.
Proof.
  assert (forall g s, existsb (Byte.eqb x00) s = false -> 7 <= len s <= 256 -> find s name_key = Some 0 ->
    find (g ++ [x00]) name_key = None -> len (g ++ [x00]) + 0 <= 496 -> wf_record (g ++ [x00], s)) as U.
  { intros g s H1 H2 H3 H4 H5. apply find_some in H3. split.
    - split; [apply not_in; exact H1 |]. split; [exact H2 |]. apply occurs_iff. exists 0. apply H3.
    - split; [right; exists g; reflexivity |]. split; [apply find_none; exact H4 |]. exists 0. split; assumption. }
  constructor.
  - split; [discriminate |]. repeat split; try (apply not_in; reflexivity). vm_compute. discriminate.
  - split; [discriminate |]. split; [vm_compute; discriminate |]. split; [| split; [| vm_compute; discriminate]].
    + constructor; [| constructor; [| constructor]];
        [apply (U [x01]) | apply (U [x02])]; try reflexivity; try (split; vm_compute; discriminate); vm_compute; discriminate.
    + intros g s l Q. injection Q as <- _ _. discriminate.
  - split; [vm_compute; discriminate | apply find_none; vm_compute; reflexivity].
  - split; [apply not_in; vm_compute; reflexivity | vm_compute; reflexivity].
  - split; [reflexivity |]. intros [| [| k]] g s Q; [| | destruct k; discriminate]; injection Q as <- <-.
    + eexists. split; [reflexivity |].
      constructor; try reflexivity; try (left; reflexivity); try (split; [reflexivity | exists 0%Z; split; [right; split |]; reflexivity]);
        (split; [discriminate | intros [v [V _]]; discriminate]).
    + eexists. split; [reflexivity |].
      constructor; try reflexivity; try (left; reflexivity); try (split; [reflexivity | exists 0%Z; split; [right; split |]; reflexivity]).
      * split; [discriminate | intros [v [V _]]; discriminate].
      * split; [intros _; exists 1%Z; split; [reflexivity | discriminate] | reflexivity].
  - split.
    + constructor; [| constructor; [| constructor]]; (split; [split; vm_compute; reflexivity |]).
      * split; [discriminate |]. split; [discriminate |]. apply not_in. reflexivity.
      * split; [discriminate |]. split; [discriminate |]. apply find_none. reflexivity.
    + repeat (constructor; [split; [split; vm_compute; reflexivity |] |]); [| | | | | | constructor].
      * split; [discriminate |]. split; [apply not_in; reflexivity |]. split; [vm_compute; tauto |]. split; [discriminate |].
        split; [| split; [discriminate | apply trimmed_iff; vm_compute; reflexivity]]. left.
        split; [apply not_in; reflexivity |]. split; [apply not_in; reflexivity |]. repeat split; try discriminate; intros; discriminate.
      * split; [discriminate |]. split; [apply not_in; reflexivity |]. split; [vm_compute; tauto |]. split; [reflexivity |].
        split; [left; split; [apply not_in; reflexivity | repeat split; try discriminate; intros []] |].
        split; [apply trimmed_iff; vm_compute; reflexivity |].
        do 2 eexists. split; [exists [], (tl blue_clients); split; [reflexivity | split; [reflexivity | constructor]] |].
        split; [exists [hd (mkClient 0 [] [] (0, 0) false false None None) blue_clients], [];
          split; [reflexivity | split; [reflexivity | constructor; [discriminate | constructor]]] |].
        split; [reflexivity |]. split; [reflexivity | discriminate].
      * split; [discriminate |]. split; [apply not_in; reflexivity |].
        split; [apply occurs_iff; eexists; apply find_some; vm_compute; reflexivity |].
        split; [vm_compute; tauto |]. split; [apply FlagFacts.quotes_none_line, not_in; reflexivity | reflexivity].
      * split; [apply not_in; reflexivity | apply find_none; reflexivity].
      * repeat constructor.
      * exact I.
  - split; [split; vm_compute; discriminate |]. split; [apply not_in; reflexivity |]. split; [apply not_in; reflexivity |].
    split; [apply utf8_valid_iff; reflexivity | apply find_none; reflexivity].
  - repeat (constructor; [repeat split; try (apply find_none; reflexivity); vm_compute; try reflexivity; discriminate |]). constructor.
  - exists [(2, version_mark ++ lit "3, ")], (lit """x"": 1}"). split; [reflexivity |]. repeat constructor. discriminate.
  - apply utf8_valid_iff. reflexivity.
  - eexists. eexists. eexists. split; [reflexivity |]. apply find_none. reflexivity.
  - apply find_none. vm_compute. reflexivity.
  - apply find_none. vm_compute. reflexivity.
  - split; vm_compute; [discriminate | reflexivity].
  - vm_compute. reflexivity.
  - intros k name. change (all_deeds blue_night) with [(Defends, lit "carl")]. unfold Flags.times. cbn [filter].
    destruct (_ && _)%bool; reflexivity.
  - intros p [<- | [<- | []]]; vm_compute; reflexivity.
Qed.

Example blue_night_teams : reteamed join_blue night_clients blue_clients night blue_night /\
  exists ts ts', teams unread (encode (frames night)) = Ret (Ok ts) /\ teams unread (encode (frames blue_night)) = Ret (Ok ts') /\
    map (fun t => (t_name t, t_frags t, t_ping t, map p_name (t_players t))) ts = [(lit "red", 0%Z, 28, [lit "anna"; lit "carl"])] /\
    map (fun t => (t_name t, t_frags t, t_ping t, map p_name (t_players t))) ts' = [(lit "Blue", 0%Z, 28, [lit "anna"; lit "carl"])].
Proof.
  split.
  - constructor; try reflexivity. cbn. repeat (constructor; [intros X; repeat destruct X as [X | X]; try discriminate; exact X |]). constructor.
  - do 2 eexists. split; [vm_compute; reflexivity |]. split; [vm_compute; reflexivity |]. split; reflexivity.
Qed.

(** Without [sums_fit] for the joined players, teams whose sums fit join to one whose sums do
    not. *)
Theorem teams_merged_refuted : exists g ps ts, sums_fit ps /\ teams_from_players (sample true) ps = Ret ts /\
  teams_from_players (sample true) (map (reteam g) ps) = Panic POverflow.
Proof.
  exists join_blue, [person "a" "red" (4, 4) 2147483647 0; person "b" "Blue" (4, 4) 1 0]. eexists.
  split; [| split; vm_compute; reflexivity]. intros team ms others H. apply members in H.
  cbn [filter] in H. unfold in_team in H. cbn [person p_team] in H.
  destruct (beq (lit "red") team) eqn:R.
  - apply beq_eq in R. subst team. cbn in H. subst ms. split; [reflexivity |]. split; [reflexivity |].
    intros [| x [| y a]] b Q; inversion Q; subst; cbn; lia.
  - destruct (beq (lit "Blue") team); subst ms; (split; [reflexivity |]; split; [reflexivity |]);
      intros [| x [| y a]] b Q; inversion Q; subst; cbn; lia.
Qed.

(** The colour of the joined team can be that of none of the teams it was joined from. *)
Theorem joined_color_refuted : exists g ps a b t, sums_fit ps /\ teams_from_players (sample true) ps = Ret [a; b] /\
  teams_from_players (sample true) (map (reteam g) ps) = Ret [t] /\ t_color t <> t_color a /\ t_color t <> t_color b.
Proof.
  exists join_blue, [person "a" "red" (4, 4) 9 20; person "b" "Blue" (13, 13) 8 20; person "c" "red" (1, 1) 7 20; person "d" "Blue" (1, 1) 6 20].
  do 3 eexists. split; [apply sums_fit_small; [reflexivity |]; repeat (constructor; [cbn; lia |]); constructor |].
  split; [vm_compute; reflexivity |]. split; [vm_compute; reflexivity |]. split; discriminate.
Qed.

Print Assumptions teams_merged.
Print Assumptions teams_relabelled.
Print Assumptions recordings_reteamed.
Print Assumptions recordings_teams.
Print Assumptions frags_reteamed.
Print Assumptions frags_reteamed_refuted.
Print Assumptions teams_merged_refuted.
Print Assumptions joined_color_refuted.
