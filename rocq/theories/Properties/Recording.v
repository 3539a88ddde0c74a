(** Whole recordings, read back *)
From Coq Require Import Lia ZifyN ZifyNat ZifyBool Permutation.
From Verif.Model Require Import Base Env Serverinfo Clientinfo Clients Prints Frags Flags Ping Players
  Ktxstats Matchdate Duration Validate.
From Verif.Spec Require Import Occ Mvd Messages Obituary Score Flags Pings Stats Texts Utf8
  Dates Clientlist Times Order Teams Recording Summary.
From Verif.Proofs Require FlagFacts.
From Verif.Proofs Require Import BaseFacts TextFacts ObituaryFacts Utf8Facts PrintFacts RecordingFacts RecordingTexts.
From Verif.Properties Require Import Sample.
Open Scope N_scope.

(** C63: what was written is found again. *)
Theorem recording_contents : forall E cs r, wf_recording E cs r ->
  is_valid E (encode (frames r)) = Ret true /\
  is_paused (encode (frames r)) = false /\
  serverinfo E (encode (frames r)) = Ret (Ok (settings_from E (to_utf8 E (r_info r)))) /\
  clients E (encode (frames r)) = Ret (Ok cs) /\
  matchdate_string (encode (frames r)) = Ret (Ok (r_date r)) /\
  ktxstats_string E (encode (frames r)) = Ret (Ok (concat (map snd (r_stats r)))).
Proof.
  intros E cs r W. split; [exact (recording_valid E cs r W) |]. split; [exact (recording_not_paused r) |].
  split; [exact (recording_serverinfo E cs r W) |].
  split; [exact (recording_clients E cs r W) |]. split; [exact (recording_date E cs r W) | exact (recording_stats E cs r W)].
Qed.

Theorem recording_events : forall E cs r, wf_recording E cs r ->
  prints E (encode (frames r)) = Ret (collapse print_dec (map as_print (filter has_text (all_said r)))) /\
  (exists tbl, frags_per_player_name E (encode (frames r)) = Ret tbl /\ tabulates tbl (all_scores r)) /\
  (exists tbl, flag_events_per_player_name E (encode (frames r)) = Ret tbl /\ counts tbl (all_deeds r)) /\
  (if is_empty (pings_reported r) then ping_per_player_number E (encode (frames r)) = Ret (Err "Unable to read pings")
   else exists tbl, ping_per_player_number E (encode (frames r)) = Ret (Ok tbl) /\ averages tbl (pings_reported r)).
Proof.
  intros E cs r W. split; [exact (recording_prints E cs r W) |]. split; [exact (recording_scores E cs r W) |].
  split; [exact (recording_deeds E cs r W) | exact (recording_pings E cs r W)].
Qed.

Theorem recording_times : forall E cs r, wf_recording E cs r ->
  (exists d, demo_duration E (encode (frames r)) = Ret (Ok d) /\ Z.of_N d = ms_to_ns (lasts (timeline r))) /\
  (st_mode (settings_from E (to_utf8 E (r_info r))) <> Some (lit "hoonymode") ->
   (exists d, countdown_duration E (encode (frames r)) = Ret (Ok d) /\
      Z.of_N d = ms_to_ns (lasts (r_countdown r ++ [date_entry r]))) /\
   exists d, match_duration_from_seeking E (encode (frames r)) = Ret (Ok d) /\
      Z.of_N d = (ms_to_ns (lasts (timeline r)) - ms_to_ns (lasts (r_countdown r ++ [date_entry r])))%Z).
Proof.
  intros E cs r W. split; [exact (recording_demo_duration E cs r W) |]. intros H.
  split; [exact (recording_countdown E cs r W H) | exact (recording_seeking E cs r W H)].
Qed.

(** The list of players, from the statistics if they are readable and from the events if not *)
Theorem recording_players : forall E cs r, wf_recording E cs r ->
  ktxstats_v3 E (encode (frames r)) = Ret (ktxstats_from E (concat (map snd (r_stats r)))) /\
  forall m, iterates (players_order E) -> pings_reported r <> [] ->
  ktxstats_from E (concat (map snd (r_stats r))) = Err m ->
  exists es l, players E (encode (frames r)) = Ret (Ok l) /\
    Forall2 (portrait r) (filter (fun c => negb (c_is_spectator c)) cs) es /\
    Permutation es l /\ in_order_of better l.
Proof.
  intros E cs r W. split; [unfold ktxstats_v3; rewrite (recording_stats E cs r W); reflexivity |].
  intros m IT NE K. exact (recording_players_listed E cs r m W IT NE K).
Qed.

Definition night : recording := mkRecording
  (lit "\mode\ffa\map\dm3")
  [([x01; x00], lit "\name\anna\team\red"); ([x02; x00], lit "\name\carl\team\red\*bot\1")]
  (repeat x01 1300)
  [mkEntry x0d x06 [] (Speech x03 (lit "anna: hi")); mkEntry x05 x02 [] (Other x01 (repeat x02 7))]
  x07 (lit "2024-05-06 12:34:56 CEST")
  [mkEntry x0a x06 [] (Killed (line "anna rides carl's rocket") (two KKilledBy " rides " "'s rocket") (lit "anna") (lit "carl"));
   mkEntry x0b x06 [] (KilledByMate (line "anna was telefragged by her teammate")
     (one KKilledByMate " was telefragged by her teammate") (lit "anna") (lit "carl") x01 x00 x00);
   mkEntry x0c x04 [] (FlagNews (line "carl defends the ÒÅÄ flag") Defends (line " defends the ÒÅÄ flag") (lit "carl"));
   mkEntry x00 x06 [] (Notice stopped_text);
   mkEntry x01 x06 [] (PingNews [mkPingUpdate x00 25 x00; mkPingUpdate x01 30 x00]);
   mkEntry x01 x0b [x00; x00; x00; x00] Quiet]
  x11
  [(2, version_mark ++ lit "3, "); (0, lit """x"": 1}")].

Definition night_clients : list Client :=
  [mkClient 0 (lit "anna") (lit "red") (0, 0) false false None None;
   mkClient 1 (lit "carl") (lit "red") (0, 0) false true None None].

Example night_wf : wf_recording (sample true) night_clients night.
Proof.
  assert (forall g s, existsb (Byte.eqb x00) s = false -> 7 <= len s <= 256 -> find s name_key = Some 0 ->
    find (g ++ [x00]) name_key = None -> len (g ++ [x00]) + 0 <= 496 -> wf_record (g ++ [x00], s)) as U.
  { intros g s H1 H2 H3 H4 H5. apply find_some in H3. split.
    - split; [apply not_in; exact H1 |]. split; [exact H2 |]. apply occurs_iff. exists 0. apply H3.
    - split; [right; exists g; reflexivity |]. split; [apply find_none; exact H4 |]. exists 0. split; assumption. }
  constructor.
  - split; [discriminate |]. repeat split; try (apply not_in; reflexivity). vm_compute. discriminate.
  - split; [discriminate |]. split; [vm_compute; discriminate |]. split; [| split; [| vm_compute; discriminate]].
    + constructor; [| constructor; [| constructor]];
        [apply (U [x01]) | apply (U [x02])]; try reflexivity; try (split; vm_compute; discriminate); vm_compute; discriminate.
    + intros g s l Q. injection Q as <- _ _. discriminate.
  - split; [vm_compute; discriminate | apply find_none; vm_compute; reflexivity].
  - split; [apply not_in; vm_compute; reflexivity | vm_compute; reflexivity].
  - split; [reflexivity |]. intros [| [| k]] g s Q; [| | destruct k; discriminate]; injection Q as <- <-.
    + eexists. split; [reflexivity |].
      constructor; try reflexivity; try (left; reflexivity); try (split; [reflexivity | exists 0%Z; split; [right; split |]; reflexivity]);
        (split; [discriminate | intros [v [V _]]; discriminate]).
    + eexists. split; [reflexivity |].
      constructor; try reflexivity; try (left; reflexivity); try (split; [reflexivity | exists 0%Z; split; [right; split |]; reflexivity]).
      * split; [discriminate | intros [v [V _]]; discriminate].
      * split; [intros _; exists 1%Z; split; [reflexivity | discriminate] | reflexivity].
  - split.
    + constructor; [| constructor; [| constructor]]; (split; [split; vm_compute; reflexivity |]).
      * split; [discriminate |]. split; [discriminate |]. apply not_in. reflexivity.
      * split; [discriminate |]. split; [discriminate |]. apply find_none. reflexivity.
    + repeat (constructor; [split; [split; vm_compute; reflexivity |] |]); [| | | | | | constructor].
      * split; [discriminate |]. split; [apply not_in; reflexivity |]. split; [vm_compute; tauto |]. split; [discriminate |].
        split; [| split; [discriminate | apply trimmed_iff; vm_compute; reflexivity]]. left.
        split; [apply not_in; reflexivity |]. split; [apply not_in; reflexivity |]. repeat split; try discriminate; intros; discriminate.
      * split; [discriminate |]. split; [apply not_in; reflexivity |]. split; [vm_compute; tauto |]. split; [reflexivity |].
        split; [left; split; [apply not_in; reflexivity | repeat split; try discriminate; intros []] |].
        split; [apply trimmed_iff; vm_compute; reflexivity |].
        do 2 eexists. split; [exists [], (tl night_clients); split; [reflexivity | split; [reflexivity | constructor]] |].
        split; [exists [hd (mkClient 0 [] [] (0, 0) false false None None) night_clients], [];
          split; [reflexivity | split; [reflexivity | constructor; [discriminate | constructor]]] |].
        split; [reflexivity |]. split; [reflexivity | discriminate].
      * split; [discriminate |]. split; [apply not_in; reflexivity |].
        split; [apply occurs_iff; eexists; apply find_some; vm_compute; reflexivity |].
        split; [vm_compute; tauto |]. split; [apply FlagFacts.quotes_none_line, not_in; reflexivity | reflexivity].
      * split; [apply not_in; reflexivity | apply find_none; reflexivity].
      * repeat constructor.
      * exact I.
  - split; [split; vm_compute; discriminate |]. split; [apply not_in; reflexivity |]. split; [apply not_in; reflexivity |].
    split; [apply utf8_valid_iff; reflexivity | apply find_none; reflexivity].
  - repeat (constructor; [repeat split; try (apply find_none; reflexivity); vm_compute; try reflexivity; discriminate |]). constructor.
  - exists [(2, version_mark ++ lit "3, ")], (lit """x"": 1}"). split; [reflexivity |]. repeat constructor. discriminate.
  - apply utf8_valid_iff. reflexivity.
  - eexists. eexists. eexists. split; [reflexivity |]. apply find_none. reflexivity.
  - apply find_none. vm_compute. reflexivity.
  - apply find_none. vm_compute. reflexivity.
  - split; vm_compute; [discriminate | reflexivity].
  - vm_compute. reflexivity.
  - intros k name. change (all_deeds night) with [(Defends, lit "carl")]. unfold Flags.times. cbn [filter].
    destruct (_ && _)%bool; reflexivity.
  - intros p [<- | [<- | []]]; vm_compute; reflexivity.
Qed.

Example night_read : all_scores night = [(lit "carl", 1%Z); (lit "carl", (-1)%Z)] /\
  all_deeds night = [(Defends, lit "carl")] /\ pings_reported night = [(0, 25); (1, 30)] /\
  len (all_said night) = 7 /\ lasts (timeline night) = 77 /\ lasts (r_countdown night ++ [date_entry night]) = 25 /\
  st_mode (settings_from (sample true) (to_utf8 (sample true) (r_info night))) = Some (lit "ffa").
Proof. repeat split; vm_compute; reflexivity. Qed.

(** An environment that cannot read the statistics: the players are those of the events. *)
Definition unread : env :=
  mkEnv true true (to_unicode (sample true)) (to_utf8 (sample true)) (unicode_sort (sample true))
    (clientinfo_from (sample true)) (settings_from (sample true)) (fun _ => Err "bad json")
    (parse_datetime (sample true)) (to_lowercase (sample true)) (players_order (sample true))
    (teams_order (sample true)) (colors_order (sample true)).
Example night_players : exists l, players unread (encode (frames night)) = Ret (Ok l) /\
  map p_name l = [lit "anna"; lit "carl"] /\ map p_frags l = [0%Z; 0%Z] /\ map p_ping l = [25; 30].
Proof. eexists. split; [vm_compute; reflexivity |]. repeat split. Qed.

Print Assumptions recording_contents.
Print Assumptions recording_events.
Print Assumptions recording_times.
Print Assumptions recording_players.
