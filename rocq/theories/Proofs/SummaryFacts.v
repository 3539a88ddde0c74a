(** The summary of a whole recording *)
From Coq Require Import Lia ZifyN ZifyNat ZifyBool Permutation.
From Verif.Model Require Import Base Env Bytesextra Serverinfo Clientinfo Clients Prints Frags Flags Ping Players
  Ktxstats Matchdate Duration Validate.
From Verif.Spec Require Import Occ Mvd Messages Obituary Score Flags Pings Stats Texts Utf8
  Dates Clientlist Times Order Teams Recording Summary.
From Verif.Proofs Require Import BaseFacts TextFacts FrameFacts ClientFacts Utf8Facts DateFacts DecimalFacts ServerFacts TimeFacts TeamFacts
  RecordingFacts RecordingTexts.
Open Scope N_scope.

Section Summary.
  Context (E : env) (cs : list Client) (r : recording) (W : wf_recording E cs r).

  Lemma recording_squad : player_clients E (encode (frames r)) = Ret (Ok (squad cs)).
  Proof. unfold player_clients. rewrite (recording_clients E cs r W). reflexivity. Qed.
  Lemma recording_crowd : spectator_clients E (encode (frames r)) = Ret (Ok (crowd cs)).
  Proof. unfold spectator_clients. rewrite (recording_clients E cs r W). reflexivity. Qed.

  Lemma recording_lists_proof :
    player_clients E (encode (frames r)) = Ret (Ok (squad cs)) /\
    spectator_clients E (encode (frames r)) = Ret (Ok (crowd cs)) /\
    (exists b, has_human_players E (encode (frames r)) = Ret (Ok b) /\
       (b = true <-> exists c, In c (squad cs) /\ c_is_bot c = false)) /\
    (exists b, has_bot_players E (encode (frames r)) = Ret (Ok b) /\
       (b = true <-> (exists c, In c (squad cs) /\ c_is_bot c = true) \/ occurs (encode (frames r)) (lit """bot"": {"))) /\
    ((forall l, Permutation (unicode_sort E l) l) ->
     exists pn sn tn,
       player_names E (encode (frames r)) = Ret (Ok pn) /\ Permutation pn (map c_name (squad cs)) /\
       spectator_names E (encode (frames r)) = Ret (Ok sn) /\ Permutation sn (map c_name (crowd cs)) /\
       team_names E (encode (frames r)) = Ret (Ok tn) /\ forall t, In t tn <-> exists c, In c (squad cs) /\ c_team c = t).
  Proof.
    pose proof recording_squad as S. split; [exact S |]. pose proof recording_crowd as C. split; [exact C |].
    split; [apply humans_proof; exact S |]. split; [apply bots_proof; exact S |]. intros P.
    destruct (names_proof E _ _ _ P S C) as (pn & sn & H1 & H2 & H3 & H4).
    destruct (team_names_proof E _ _ P S) as (tn & H5 & H6 & _). exists pn, sn, tn. auto 10.
  Qed.

  Lemma recording_when_proof :
    let s := settings_from E (to_utf8 E (r_info r)) in
    (forall t, st_epoch s = Some t -> timestamp E (encode (frames r)) = Ret (Ok t)) /\
    (forall m z min,
       (forall m sign off, valid_moment m -> off < 1440 ->
         (sign = lit "+" -> parse_datetime E (moment_text m ++ sign ++ two_digits (off / 60) ++ lit ":" ++ two_digits (off mod 60))
            = Ok (seconds m - 60 * Z.of_N off)%Z) /\
         (In sign minus_signs -> parse_datetime E (moment_text m ++ sign ++ two_digits (off / 60) ++ lit ":" ++ two_digits (off mod 60))
            = Ok (seconds m + 60 * Z.of_N off)%Z)) ->
       valid_moment m -> named_zone z min \/ numeric_zone z min ->
       r_date r = moment_text m ++ lit " " ++ z ->
       matchdate E (encode (frames r)) = Ret (Ok (seconds m - 60 * min)%Z) /\
       (st_epoch s = None -> timestamp E (encode (frames r)) = Ret (Ok (seconds m - 60 * min)%Z))) /\
    (forall name, st_serverdemo s = Some name -> filename E (encode (frames r)) = Ret (Ok name)) /\
    (st_serverdemo s = None -> exists m, filename E (encode (frames r)) = Ret (Err m)).
  Proof.
    intros s. pose proof (recording_has_info E cs r W) as I. pose proof (proj1 (w_size _ _ _ W)) as L.
    pose proof (recording_serverinfo E cs r W) as S.
    split; [intros t T; apply (timestamp_epoch_proof E _ _ t L I T) |]. split.
    - intros m z min R V Z D. pose proof (recording_date E cs r W) as Q. apply matchdate_string_ok_proof in Q. rewrite D in Q.
      assert (MD : matchdate E (encode (frames r)) = Ret (Ok (seconds m - 60 * min)%Z)).
      { apply (matchdate_proof E _ m z min R V Z); [| exact (proj1 Q)].
        pose proof (proj1 (w_date _ _ _ W)) as LD. rewrite D, !len_app in LD. rewrite len_moment in LD. cbn in LD. lia. }
      split; [exact MD |]. intros N. unfold timestamp, timestamp_from_epoch. rewrite S. cbn [bind]. fold s. rewrite N. exact MD.
    - split; [intros name N; apply filename_proof; [exact L | exists (r_info r); auto] |].
      intros N. unfold filename. rewrite S. cbn [bind]. fold s. rewrite N. eexists. reflexivity.
  Qed.

  Lemma recording_match_duration_proof :
    let mode := st_mode (settings_from E (to_utf8 E (r_info r))) in
    let stats := concat (map snd (r_stats r)) in
    (mode = Some (lit "hoonymode") ->
       exists d, match_duration E (encode (frames r)) = Ret (Ok d) /\ Z.of_N d = ms_to_ns (lasts (timeline r))) /\
    (mode <> Some (lit "hoonymode") -> forall a b ip fp,
       stats = a ++ lit """duration"": " ++ (numeral ip ++ lit "." ++ numeral fp) ++ lit "," ++ b ->
       first_at stats (lit """duration"": ") (len a) -> wf_digits ip -> wf_digits fp -> ip ++ fp <> [] -> len fp <= 9 ->
       number (ip ++ fp) < 8388608 * 10 ^ len fp ->
       match_duration E (encode (frames r)) = Ret (Ok (number (ip ++ fp) * 10 ^ (9 - len fp)))) /\
    (mode <> Some (lit "hoonymode") -> forall a b ds,
       stats = a ++ lit """duration"": " ++ numeral ds ++ lit "," ++ b ->
       first_at stats (lit """duration"": ") (len a) -> wf_digits ds -> ds <> [] -> number ds < 8388608 ->
       match_duration E (encode (frames r)) = Ret (Ok (number ds * 1000000000))) /\
    (mode <> Some (lit "hoonymode") -> ~ occurs stats (lit """duration"": ") ->
       exists d, match_duration E (encode (frames r)) = Ret (Ok d) /\
         Z.of_N d = (ms_to_ns (lasts (timeline r)) - ms_to_ns (lasts (r_countdown r ++ [date_entry r])))%Z).
  Proof.
    intros mode stats. pose proof (recording_serverinfo E cs r W) as S. pose proof (recording_stats E cs r W) as K. fold stats in K.
    assert (NM : mode <> Some (lit "hoonymode") -> forall s, Ok (settings_from E (to_utf8 E (r_info r))) = Ok s -> st_mode s <> Some (lit "hoonymode"))
      by (intros N s Q; inv Q; exact N).
    split; [| split; [| split]].
    - intros H. rewrite (match_duration_hoony_proof E _ _ S H). apply (recording_demo_duration E cs r W).
    - intros N a b ip fp D F H1 H2 H3 H4 H5. eapply match_duration_ktx_proof; [exact S | exact (NM N) |].
      eapply ktx_duration_decimal_proof; eauto.
    - intros N a b ds D F H1 H2 H3. eapply match_duration_ktx_proof; [exact S | exact (NM N) |].
      eapply ktx_duration_integer_proof; eauto.
    - intros NH H. rewrite (match_duration_seeking_proof E _ _ "Duration not found in ktxstats" S (NM NH)).
      + apply (recording_seeking E cs r W NH).
      + unfold match_duration_from_ktxstats. rewrite K. cbn [bind].
        assert (Z : offsets_between stats DURATION_KEY COMMA = Ret None).
        { apply offsets_between_none_proof. intros (y & from & _ & Q). apply H. destruct Q as (x & z & Q & _).
          exists x, (y ++ COMMA ++ z). exact Q. }
        rewrite Z. reflexivity.
  Qed.

  Lemma recording_from_stats_proof : forall k, ktxstats_from E (concat (map snd (r_stats r))) = Ok k ->
    (exists ds, server E (encode (frames r)) = Ret (Ok (mkServer (ks_hostname k) (ks_ip k ++ lit ":" ++ numeral ds) (ks_ip k) (ks_port k))) /\
       wf_digits ds /\ number ds = ks_port k /\ (ds = [0] \/ exists d r, ds = d :: r /\ d <> 0)) /\
    exists es l, players E (encode (frames r)) = Ret (Ok l) /\ Forall2 converted (ks_players k) es /\ stable_order better es l /\
      (iterates (teams_order E) -> each_iterates (colors_order E) -> sums_fit l ->
       exists ts, teams E (encode (frames r)) = Ret (Ok ts) /\ teams_of (to_lowercase E) l ts).
  Proof.
    intros k K.
    assert (V : ktxstats_v3 E (encode (frames r)) = Ret (Ok k)) by (unfold ktxstats_v3; rewrite (recording_stats E cs r W); cbn [bind]; rewrite K; reflexivity).
    split; [apply server_proof; exact V |]. destruct (players_of_stats_proof k) as (es & l & P & F & O). exists es, l.
    assert (PL : players E (encode (frames r)) = Ret (Ok l)) by (unfold players; rewrite V; cbn [bind]; rewrite P; reflexivity).
    split; [exact PL |]. split; [exact F |]. split; [exact O |]. intros T C SF. destruct (teams_proof E l T C SF) as (ts & H & G).
    exists ts. split; [| exact G]. unfold teams. rewrite PL. cbn [bind]. rewrite H. reflexivity.
  Qed.

  Lemma portrait_small : forall c p, portrait r c p -> (-8000000 <= Score.total (c_name c) (all_scores r) <= 8000000)%Z ->
    (-8000000 <= p_frags p <= 8000000)%Z /\ p_ping p <= 16000000.
  Proof.
    intros c p P B. rewrite (po_frags _ _ _ P), (po_ping _ _ _ P). split; [exact B |]. cbv zeta.
    destruct (is_empty (pings_of (c_number c) (pings_reported r))) eqn:Q; [lia |].
    assert (I : In (c_number c) (map fst (pings_reported r))).
    { destruct (pings_of (c_number c) (pings_reported r)) as [| x l] eqn:G; [discriminate |].
      unfold pings_of in G. assert (X : In x (map snd (filter (fun x => fst x =? c_number c) (pings_reported r)))) by (rewrite G; left; reflexivity).
      apply in_map_iff in X. destruct X as [[a b] [_ X]]. apply filter_In in X. destruct X as [X Y]. apply in_map_iff. exists (a, b). split; [apply N.eqb_eq; exact Y | exact X]. }
    pose proof (w_pings _ _ _ W _ I) as L.
    assert (sum (pings_of (c_number c) (pings_reported r)) / len (pings_of (c_number c) (pings_reported r)) <= sum (pings_of (c_number c) (pings_reported r))).
    { apply N.div_le_upper_bound; [destruct (pings_of _ _); [discriminate | unfold len; cbn [length]; lia] |].
      destruct (pings_of _ _); [discriminate |]. unfold len. cbn [length]. nia. }
    lia.
  Qed.

  Lemma recording_teams_proof : forall m,
    iterates (players_order E) -> iterates (teams_order E) -> each_iterates (colors_order E) ->
    pings_reported r <> [] -> ktxstats_from E (concat (map snd (r_stats r))) = Err m ->
    len cs < 256 -> (forall c, In c cs -> (-8000000 <= Score.total (c_name c) (all_scores r) <= 8000000)%Z) ->
    exists es l ts, players E (encode (frames r)) = Ret (Ok l) /\ Forall2 (portrait r) (squad cs) es /\
      Permutation es l /\ in_order_of better l /\
      teams E (encode (frames r)) = Ret (Ok ts) /\ teams_of (to_lowercase E) l ts.
  Proof.
    intros m PO TO CO NE K L B. destruct (recording_players_listed E cs r m W PO NE K) as (es & l & P & F & Q & O).
    change (filter (fun c => negb (c_is_spectator c)) cs) with (squad cs) in F.
    assert (SF : sums_fit l).
    { apply sums_fit_small.
      - assert (LE : forall (f : Client -> bool) l, (length (filter f l) <= length l)%nat)
          by (intros f l0; induction l0 as [| x l0 IH]; [constructor | cbn [filter]; destruct (f x); cbn [length]; lia]).
        assert (LF : length (squad cs) = length es) by (clear - F; induction F; cbn [length]; congruence).
        unfold len in *. rewrite <- (Permutation_length Q), <- LF. pose proof (LE (fun c => negb (c_is_spectator c)) cs) as X.
        fold (squad cs) in X. lia.
      - eapply Permutation_Forall; [exact Q |]. clear - F B W. 
        assert (BS : forall c, In c (squad cs) -> (-8000000 <= Score.total (c_name c) (all_scores r) <= 8000000)%Z)
          by (intros c I; apply B; unfold squad in I; apply filter_In in I; tauto).
        clear B. induction F as [| c p l1 l2 H F IH]; [constructor |]. constructor.
        + apply (portrait_small c p H). apply BS. left. reflexivity.
        + apply IH. intros c' I. apply BS. right. exact I. }
    destruct (teams_proof E l TO CO SF) as (ts & H & G). exists es, l, ts. repeat (split; [assumption |]). split; [| exact G].
    unfold teams. rewrite P. cbn [bind]. rewrite H. reflexivity.
  Qed.

  Lemma recording_aborted_proof : forall e, In e (timeline r) -> e_news e = Notice stopped_text -> is_aborted (encode (frames r)) = true.
  Proof.
    intros e I N. apply aborted_proof. apply in_split in I. destruct I as [l1 [l2 I]].
    unfold frames. rewrite I, map_app. cbn [map]. rewrite !encode_app, encode_cons.
    unfold encode_frame, frame_of. cbn [f_time f_type f_mask f_body]. rewrite N.
    change (body (Notice stopped_text)) with match_stopped.
    match goal with |- occurs (?h ++ (?a ++ (?t :: ?y :: ?k ++ ?n ++ match_stopped) ++ ?z) ++ ?w) _ =>
      exists (h ++ a ++ (t :: y :: k ++ n)), (z ++ w) end.
    rewrite <- !app_assoc. cbn [app]. rewrite <- !app_assoc. reflexivity.
  Qed.
End Summary.
