(** Targets with another [usize] *)
From Coq Require Import Lia ZifyN ZifyNat ZifyBool.
From Verif.Model Require Import Base Utf8Error Env Primitives Prot Frame Message Bytesextra Serverinfo Clientinfo Clients
  Prints FragEvent Frags Flags Ping Ktxstats Matchdate Float Duration Players Width.
From Verif.Spec Require Import Occ Mvd Messages Score Pings Times Builds Width.
From Verif.Proofs Require Import BaseFacts FrameFacts PrintFacts ScoreFacts PingFacts TimeFacts StatsFacts BuildFacts SizeFacts FlagFacts.

Lemma info_field : forall w E index header_size size duration target command body_size,
  index + header_size < w -> index + size < w ->
  (let! header_end := uadd E w index header_size in
   let! body_start := uadd E w index header_size in
   let! body_end := uadd E w index size in
   Ret (Ok {| i_duration := duration; i_target := target; i_command := command; i_index := index; i_size := size;
     i_header_size := header_size; i_header_range := (index, header_end); i_body_size := body_size;
     i_body_range := (body_start, body_end) |})) =
  (Ret (Ok {| i_duration := duration; i_target := target; i_command := command; i_index := index; i_size := size;
     i_header_size := header_size; i_header_range := (index, index + header_size); i_body_size := body_size;
     i_body_range := (index + header_size, index + size) |}) : M (result info)).
Proof. intros. rewrite (uadd_small E w index header_size), (uadd_small E w index size) by assumption. reflexivity. Qed.

Section On.
  Context (w : N) (E : env) (big : narrow <= w).

  (** one header *)
  Lemma fdi_on_none : forall p d, announced d = None ->
    exists e, from_data_and_index_on w E (p ++ d) (len p) = Ret (Err e).
  Proof.
    intros p d H. unfold from_data_and_index_on. rewrite slice_from_app. simpl bind.
    unfold cursor_new. destruct d as [| time [| t r]].
    - rewrite read_byte_nil. eauto.
    - rewrite read_byte_cons, read_byte_nil. eauto.
    - rewrite !read_byte_cons. rewrite target_of_kind, command_of_kind. simpl in H.
      destruct (has_length t); [| discriminate].
      unfold advance. cbn [c_pos c_rest].
      set (k := if has_mask t then 4 else 0) in *.
      assert (K : N.to_nat k = (if has_mask t then 4 else 0)%nat) by (subst k; destruct (has_mask t); reflexivity).
      rewrite K.
      destruct (skipn (if has_mask t then 4 else 0)%nat r) as [| a [| b [| c [| e q]]]] eqn:Q;
        try discriminate H;
        match goal with |- context[read_u32 E (mkCursor ?p ?r)] =>
          destruct (read_u32_short E p r) as [cc ->]; [rewrite ?len_cons, len_nil; lia |] end; eauto.
  Qed.

  Lemma fdi_on_some : forall p d s time t r, announced d = Some s -> d = time :: t :: r ->
    from_data_and_index_on w E (p ++ d) (len p) =
    let! size := uadd E w (hdr t) (s - hdr t) in
    if len (p ++ d) <? size then Ret (Err "Frame is smaller than expected size")
    else
      let! header_end := uadd E w (len p) (hdr t) in
      let! body_start := uadd E w (len p) (hdr t) in
      let! body_end := uadd E w (len p) size in
      Ret (Ok {| i_duration := n_of time; i_target := target_from t; i_command := command_from t; i_index := len p;
        i_size := size; i_header_size := hdr t; i_header_range := (len p, header_end); i_body_size := s - hdr t;
        i_body_range := (body_start, body_end) |}).
  Proof.
    intros p d s time t r H D. unfold from_data_and_index_on. rewrite slice_from_app. simpl bind.
    unfold cursor_new. subst d. rewrite !read_byte_cons. rewrite target_of_kind.
    rewrite command_of_kind. simpl in H. unfold advance. cbn [c_pos c_rest]. unfold narrow in big.
    unfold hdr. destruct (has_length t) eqn:HL.
    - set (k := if has_mask t then 4 else 0) in *.
      assert (K : N.to_nat k = (if has_mask t then 4 else 0)%nat) by (subst k; destruct (has_mask t); reflexivity).
      rewrite K.
      destruct (skipn (if has_mask t then 4 else 0)%nat r) as [| a [| b [| c [| e q]]]]; try discriminate H.
      rewrite read_u32_cons. cbn [c_pos]. fold (le32 a b c e) in H. inv H.
      replace (0 + 1 + 1 + k + 4) with (2 + k + 4) by lia.
      pose proof (le32_lt a b c e). rewrite (N.mod_small (le32 a b c e)) by lia.
      replace (2 + k + 4 + le32 a b c e - (2 + k + 4)) with (le32 a b c e) by lia. reflexivity.
    - assert (HM : has_mask t = false).
      { destruct (has_mask t) eqn:HM; [| reflexivity]. apply mask_has_length in HM. congruence. }
      rewrite HM. inv H. unfold fixed_body.
      destruct (kind t =? 2).
      + cbn [c_pos]. change (2 * LONG) with 8. rewrite (N.mod_small 8) by lia. reflexivity.
      + destruct (kind t =? 0); cbn [c_pos]; rewrite (N.mod_small 0) by lia; reflexivity.
  Qed.

  Section Data.
    Context (data : bytes) (small : holds w data).

    Lemma fdi_on_same : forall p d, data = p ++ d -> ~ vast w d ->
      from_data_and_index_on w E data (len p) = from_data_and_index E data (len p).
    Proof.
      intros p d D V. unfold holds in small. destruct (announced d) as [s |] eqn:A.
      - destruct (announced_inv d s A) as [time [t [r [R [H1 [H2 _]]]]]]. subst data.
        rewrite (fdi_on_some p d s time t r A R), (fdi_some E p d s time t r A R).
        assert (L : s < w). { destruct (N.lt_ge_cases s w) as [L | L]; [exact L |]. exfalso. apply V. exists s. auto. }
        rewrite (uadd_small E w (hdr t)) by lia. cbn [bind].
        replace (hdr t + (s - hdr t)) with s by lia. rewrite len_app in *.
        destruct (len p + len d <? s) eqn:C; [reflexivity |].
        rewrite info_field by lia. reflexivity.
      - subst data. destruct (fdi_on_none p d A) as [e1 Q1]. destruct (fdi_none E p d A) as [e2 Q2]. rewrite Q1, Q2.
        clear - A Q1 Q2. unfold from_data_and_index_on in Q1. unfold from_data_and_index in Q2.
        rewrite slice_from_app in Q1, Q2. cbn [bind] in Q1, Q2. unfold cursor_new in *.
        destruct d as [| time [| t r]].
        + rewrite read_byte_nil in *. congruence.
        + rewrite read_byte_cons, read_byte_nil in *. congruence.
        + rewrite !read_byte_cons in *. rewrite command_of_kind in Q1, Q2. simpl in A.
          destruct (has_length t); [| discriminate].
          rewrite target_of_kind in Q1, Q2. unfold advance in Q1, Q2. cbn [c_pos c_rest] in Q1, Q2.
          set (k := if has_mask t then 4 else 0) in *.
          assert (K : N.to_nat k = (if has_mask t then 4 else 0)%nat) by (subst k; destruct (has_mask t); reflexivity).
          rewrite K in Q1, Q2.
          destruct (skipn (if has_mask t then 4 else 0)%nat r) as [| a [| b [| c [| e q]]]] eqn:Q;
            try discriminate A;
            match type of Q1 with context[read_u32 E (mkCursor ?p ?r)] =>
              destruct (read_u32_short E p r) as [cc CC]; [rewrite ?len_cons, len_nil; lia |] end;
            rewrite CC in Q1, Q2; congruence.
    Qed.

    Lemma fdi_on_beyond : forall i, len data < i -> from_data_and_index_on w E data i = Panic PSlice /\
      from_data_and_index E data i = Panic PSlice.
    Proof.
      intros i L. unfold from_data_and_index_on, from_data_and_index. rewrite slice_from_panic by exact L. auto.
    Qed.

    (** the loop, from the start of a frame *)
    Section Loop.
      Context {St : Type} (body : St -> info -> M (step St)).

      Lemma loop_beyond : forall fuel i st, len data < i ->
        frame_loop_on w E fuel data body i st = frame_loop E fuel data body i st.
      Proof.
        intros [| fuel] i st L; [reflexivity |]. cbn [frame_loop_on frame_loop].
        destruct (fdi_on_beyond i L) as [-> ->]. reflexivity.
      Qed.

      Lemma loop_step_same : forall fuel p d, data = p ++ d -> ~ vast w d ->
        (forall st s, announced d = Some s -> s <= len data ->
           frame_loop_on w E fuel data body (len p + s) st = frame_loop E fuel data body (len p + s) st) ->
        forall st, frame_loop_on w E (S fuel) data body (len p) st = frame_loop E (S fuel) data body (len p) st.
      Proof.
        intros fuel p d D V H st. cbn [frame_loop_on frame_loop]. rewrite (fdi_on_same p d D V).
        destruct (announced d) as [s |] eqn:A.
        - destruct (announced_inv d s A) as [time [t [r [R [H1 [H2 _]]]]]].
          pose proof (fdi_some E p d s time t r A R) as F. rewrite <- D in F. rewrite F.
          destruct (len data <? s) eqn:C; [reflexivity |]. cbn [bind].
          destruct (body st (info_at (len p) time t s)) as [[st' | st'] | |]; cbn [bind]; try reflexivity.
          change (i_size (info_at (len p) time t s)) with s. unfold holds in small.
          assert (len p <= len data) by (rewrite D, len_app; lia).
          rewrite uadd_small by lia. cbn [bind]. apply H; [reflexivity | lia].
        - destruct (fdi_none E p d A) as [e F]. rewrite <- D in F. rewrite F. reflexivity.
      Qed.

      Lemma loop_same : forall fs p rest, data = p ++ encode fs ++ rest -> wf fs -> no_frame rest -> ~ vast w rest ->
        forall fuel st, frame_loop_on w E fuel data body (len p) st = frame_loop E fuel data body (len p) st.
      Proof.
        induction fs as [| f fs IH]; intros p rest D W NF V fuel st; (destruct fuel as [| fuel]; [reflexivity |]).
        - change (encode [] ++ rest) with rest in D. apply (loop_step_same fuel p rest D V). intros st' s A L.
          apply loop_beyond. unfold no_frame in NF. rewrite A in NF. rewrite D, len_app. lia.
        - apply Forall_cons_iff in W. destruct W as [W1 W2]. rewrite encode_cons, <- app_assoc in D.
          assert (A : announced (encode_frame f ++ encode fs ++ rest) = Some (len (encode_frame f)))
            by (apply announced_encode; assumption).
          apply (loop_step_same fuel p (encode_frame f ++ encode fs ++ rest) D).
          + intros [s [A' L]]. rewrite A in A'. injection A' as <-. unfold holds in small. rewrite D, !len_app in small. lia.
          + intros st' s A' L. rewrite A in A'. injection A' as <-. rewrite <- len_app.
            apply (IH (p ++ encode_frame f) rest); auto. rewrite <- app_assoc. exact D.
      Qed.
    End Loop.
  End Data.
End On.

Lemma loop_mono : forall St E data (body : St -> info -> M (step St)) n m index st, (n <= m)%nat ->
  frame_loop E n data body index st <> OutOfFuel -> frame_loop E m data body index st = frame_loop E n data body index st.
Proof.
  intros St E data body. induction n as [| n IH]; intros m index st L F; [exfalso; apply F; reflexivity |].
  destruct m as [| m]; [lia |]. cbn [frame_loop] in *.
  destruct (from_data_and_index E data index) as [[i | e] | |]; cbn [bind] in *; try reflexivity.
  destruct (body st i) as [[st' | st'] | |]; cbn [bind] in *; try reflexivity. apply IH; [lia | exact F].
Qed.

(** Where no announced size is too large for the target, nothing changes. *)
Section Same.
  Context (w : N) (E : env) (big : narrow <= w) (fs : list frame) (rest : bytes).
  Local Notation data := (encode fs ++ rest).
  Context (W : wf fs) (NF : no_frame rest) (V : ~ vast w rest) (small : holds w data).

  Lemma loop_same_0 : forall St (body : St -> info -> M (step St)) fuel st,
    frame_loop_on w E fuel data body 0 st = frame_loop E fuel data body 0 st.
  Proof. intros. exact (loop_same w E big data small body fs [] rest eq_refl W NF V fuel st). Qed.

  Lemma prints_same_on : prints_on w E data = prints E data.
  Proof. unfold prints_on, prints. rewrite loop_same_0. reflexivity. Qed.

  Lemma print_frames_same_on : print_frames_on w E data = print_frames E data.
  Proof. unfold print_frames_on, print_frames. apply loop_same_0. Qed.

  Lemma killer_same_on : forall p gs victim, data = p ++ encode gs ++ rest -> wf gs ->
    find_team_killer_on w E data (len p) victim = find_team_killer E data (len p) victim.
  Proof.
    intros p gs victim D Wg. unfold find_team_killer_on, find_team_killer. f_equal.
    unfold nearby_frag_updates_on, nearby_frag_updates. apply (loop_same w E big data small _ gs p rest D Wg NF V).
  Qed.

  Lemma frags_same_on : frags_per_player_name_on w E data = frags_per_player_name E data.
  Proof.
    unfold frags_per_player_name_on, frags_per_player_name. rewrite print_frames_same_on.
    destruct (rest_cases (len data) rest) as [Q | Q]; [rewrite len_app; lia | exact NF | |].
    - rewrite print_frames_quiet by assumption. cbn [bind]. apply foldM_ext. intros tbl [pr idx] H.
      apply in_map_iff in H. destruct H as [[[m i] s] [H1 H2]]. inv H1.
      apply (obits_at_prefix fs []) in H2. destruct H2 as [q [E1 [E2 [E3 _]]]]. simpl in E1. subst idx.
      unfold score_print_on, score_print. cbn [fst snd]. destruct (frag_event_from _) as [[] |]; try reflexivity.
      rewrite (killer_same_on q s); [reflexivity | rewrite E1, <- app_assoc; reflexivity | apply E3, W].
    - rewrite print_frames_crash by assumption. reflexivity.
  Qed.

  Lemma flags_same_on : flag_events_per_player_name_on w E data = flag_events_per_player_name E data.
  Proof. unfold flag_events_per_player_name_on, flag_events_per_player_name, flag_prints_on, flag_prints. rewrite loop_same_0. reflexivity. Qed.

  Lemma pings_same_on : ping_per_player_number_on w E data = ping_per_player_number E data.
  Proof. unfold ping_per_player_number_on, ping_per_player_number, sample_pings_on, sample_pings. rewrite loop_same_0. reflexivity. Qed.

  Lemma until_same_on : forall fuel target, (frame_fuel data <= fuel)%nat ->
    duration_until_offset_on w E fuel data target = duration_until_offset E data target.
  Proof.
    intros fuel target F. unfold duration_until_offset_on, duration_until_offset. f_equal.
    unfold total_ms_until_on, total_ms_until. rewrite loop_same_0. apply loop_mono; [exact F |].
    apply walk_terminates. intros st i. destruct (_ <=? _); [discriminate |]. apply bind_fuel; [apply uadd_fuel | discriminate].
  Qed.

  Lemma countdown_same_on : forall fuel, (frame_fuel data <= fuel)%nat -> countdown_duration_on w E fuel data = countdown_duration E data.
  Proof.
    intros fuel F. unfold countdown_duration_on, countdown_duration. destruct (serverinfo E data); [| reflexivity | reflexivity].
    cbn [bind]. destruct (is_hoonymode a); [reflexivity |]. destruct (find data MATCHDATE_NEEDLE); [| reflexivity].
    rewrite until_same_on by exact F. reflexivity.
  Qed.

  Lemma demo_same_on : forall fuel, (frame_fuel data <= fuel)%nat -> demo_duration_on w E fuel data = demo_duration E data.
  Proof. intros fuel F. unfold demo_duration_on, demo_duration. rewrite until_same_on by exact F. reflexivity. Qed.

  Lemma seeking_same_on : forall fuel, (frame_fuel data <= fuel)%nat ->
    match_duration_from_seeking_on w E fuel data = match_duration_from_seeking E data.
  Proof.
    intros fuel F. unfold match_duration_from_seeking_on, match_duration_from_seeking.
    rewrite demo_same_on, countdown_same_on by exact F. reflexivity.
  Qed.

  Lemma parsing_same_on : players_from_parsing_on w E data = players_from_parsing E data.
  Proof. unfold players_from_parsing_on, players_from_parsing. rewrite pings_same_on, frags_same_on. reflexivity. Qed.
End Same.

(** The functions that only search *)
Section Search.
  Context (w : N) (E : env).

  Lemma offsets_same_on : forall data a b, holds w data -> offsets_between_on w E data a b = offsets_between data a b.
  Proof.
    intros data a b H. unfold holds in H. unfold offsets_between_on, offsets_between.
    destruct (find data a) as [i |] eqn:F; [| reflexivity].
    apply find_some in F. destruct F as [[x [y [D L]]] _].
    assert (i + len a <= len data) by (rewrite D, !len_app; lia).
    rewrite uadd_small by lia. cbn [bind]. destruct (slice_from data (i + len a)) as [r | |] eqn:R; cbn [bind]; try reflexivity.
    apply slice_from_inv in R. destruct R as [p [D' L']].
    destruct (find r b) as [j |] eqn:G; [| reflexivity]. apply find_some in G. destruct G as [[x' [y' [D2 L2]]] _].
    assert (j <= len r) by (rewrite D2, !len_app; lia).
    assert (len data = i + len a + len r) by (rewrite D', len_app; lia).
    rewrite uadd_small by lia. reflexivity.
  Qed.

  Lemma matchdate_same_on : forall data, holds w data -> matchdate_string_on w E data = matchdate_string data.
  Proof.
    intros data H. unfold holds in H. unfold matchdate_string_on, matchdate_string.
    destruct (find data MATCHDATE_NEEDLE) as [i |] eqn:F; [| reflexivity].
    apply find_some in F. destruct F as [[x [y [D L]]] _].
    assert (i + len MATCHDATE_NEEDLE <= len data) by (rewrite D, !len_app; lia).
    rewrite uadd_small by lia. cbn [bind].
    destruct (slice_from data (i + len MATCHDATE_NEEDLE)) as [r | |] eqn:R; cbn [bind]; try reflexivity.
    apply slice_from_inv in R. destruct R as [p [D' L']].
    destruct (find_byte r x0a) as [j |] eqn:G; [| reflexivity]. apply find_byte_some in G. destruct G as [x' [y' [D2 [L2 _]]]].
    assert (j <= len r) by (rewrite D2, !len_app; lia).
    assert (len data = i + len MATCHDATE_NEEDLE + len r) by (rewrite D', len_app; lia).
    rewrite uadd_small by lia. cbn [bind]. unfold usub.
    destruct (i + len MATCHDATE_NEEDLE <=? j + (i + len MATCHDATE_NEEDLE)) eqn:C; [| lia]. reflexivity.
  Qed.

  Lemma clientinfo_loop_same_on : forall data, holds w data -> forall fuel m offset result, offset <= len data ->
    clientinfo_loop_on w E fuel data m offset result = clientinfo_loop E fuel data m offset result.
  Proof.
    intros data H. unfold holds in H. induction fuel as [| fuel IH]; intros m offset result L; [reflexivity |].
    cbn [clientinfo_loop_on clientinfo_loop]. change MAX_LOOKAHEAD with 512 in *.
    rewrite uadd_small by lia. cbn [bind].
    destruct (slice data offset (offset + 512)) as [win | |] eqn:S; cbn [bind]; try reflexivity.
    destruct (find win NAME) as [o |] eqn:F; [| reflexivity].
    apply slice_inv in S. destruct S as [p [q [D [L1 [L2 _]]]]].
    apply find_some in F. destruct F as [[x [y [D2 L3]]] _].
    assert (o <= len win) by (rewrite D2, !len_app; lia).
    rewrite uadd_small by lia. cbn [bind].
    destruct (slice_to data (offset + o)) as [before | |] eqn:B; cbn [bind]; try reflexivity.
    destruct (rfind_byte before x00) as [z |] eqn:Z; [| reflexivity].
    apply slice_to_inv in B. destruct B as [q' [D3 L4]].
    apply rfind_byte_some in Z. destruct Z as [a [c [D4 [L5 _]]]].
    assert (z + 1 <= len before) by (rewrite D4, len_app, len_cons; lia).
    assert (len before <= len data) by (rewrite D3, len_app; lia).
    rewrite uadd_small by lia. cbn [bind].
    destruct (slice_from data (z + 1)) as [after | |] eqn:A; cbn [bind]; try reflexivity.
    destruct (find_byte after x00) as [t |] eqn:T; [| reflexivity].
    apply slice_from_inv in A. destruct A as [p' [D5 L6]].
    apply find_byte_some in T. destruct T as [a' [c' [D6 [L7 _]]]].
    assert (t <= len after) by (rewrite D6, len_app; lia).
    assert (len data = z + 1 + len after) by (rewrite D5, len_app; lia).
    rewrite uadd_small by lia. cbn [bind]. unfold usub.
    replace (z + 1 <=? z + 1 + t) with true by lia. cbn [bind].
    destruct ((CI_MIN_LEN <=? z + 1 + t - (z + 1)) && (z + 1 + t - (z + 1) <=? CI_MAX_LEN))%bool; [| reflexivity].
    destruct (slice data (z + 1) (z + 1 + t)); cbn [bind]; try reflexivity.
    destruct (m <=? z + 1 + t); [reflexivity |]. apply IH. lia.
  Qed.

  Lemma clientinfo_same_on : forall data, holds w data -> clientinfo_strings_on w E data = clientinfo_strings E data.
  Proof.
    intros data H. unfold clientinfo_strings_on, clientinfo_strings. destruct (find data CMD_SPAWN) as [o |] eqn:F; [| reflexivity].
    apply find_some in F. destruct F as [[x [y [D L]]] _].
    assert (o <= len data) by (rewrite D, !len_app; lia).
    change (MAX_PLAYERS * MAX_LOOKAHEAD) with 12288. pose proof H as H'. unfold holds in H'. rewrite uadd_small by lia. cbn [bind].
    rewrite clientinfo_loop_same_on by assumption. reflexivity.
  Qed.
End Search.

Lemma uadd_wrap : forall E b x y, checked E = false -> b <= x + y < 2 * b -> uadd E b x y = Ret (x + y - b).
Proof.
  intros E b x y C H. unfold uadd. destruct (x + y <? b) eqn:L; [lia |]. rewrite C. f_equal.
  rewrite <- (N.mod_small (x + y - b) b) by lia.
  replace (x + y) with ((x + y - b) + 1 * b) at 1 by lia. apply N.mod_add. lia.
Qed.

Lemma slice_none : forall A (d : list A) a b, b < a -> slice d a b = Panic PSlice.
Proof. intros. unfold slice. replace ((a <=? b) && (b <=? len d))%bool with false by lia. reflexivity. Qed.

(** The statistics *)
Section Stats.
  Context (E : env).

  Lemma u32_of : forall d, (exists e c, read_u32 E (cursor_new d) = (Err e, c)) \/
    (exists n c, read_u32 E (cursor_new d) = (Ok n, c) /\ n < 4294967296).
  Proof.
    intros d. unfold cursor_new. destruct (four d) as [[a [b [c [e [r ->]]]]] | S].
    - right. rewrite read_u32_cons. do 2 eexists. split; [reflexivity | apply le32_lt].
    - left. apply read_u32_err. exact S.
  Qed.

  Lemma block_wide : forall d, block_try_from_on usize_bound E d = block_try_from E d.
  Proof.
    intros d. unfold block_try_from_on, block_try_from. destruct (u32_of d) as [[e [c ->]] | [n [c [-> L]]]]; [reflexivity |].
    rewrite N.mod_small by (unfold usize_bound; lia). reflexivity.
  Qed.

  Lemma ktxstats_loop_wide : forall data fuel offset content,
    ktxstats_loop_on usize_bound E fuel data offset content = ktxstats_loop E fuel data offset content.
  Proof.
    intros data. induction fuel as [| fuel IH]; intros offset content; [reflexivity |]. cbn [ktxstats_loop_on ktxstats_loop].
    destruct (uadd E usize_bound offset MULTI_HEADER_SIZE); cbn [bind]; try reflexivity.
    destruct (slice_from data a); cbn [bind]; try reflexivity. rewrite block_wide.
    destruct (block_try_from E a0) as [[i | e] | |]; cbn [bind]; try reflexivity.
    destruct (negb _); [reflexivity |].
    destruct (uadd E usize_bound offset TOTAL_HEADER_SIZE); cbn [bind]; try reflexivity.
    destruct (uadd E usize_bound a1 (b_body_size i)); cbn [bind]; try reflexivity.
    destruct (slice data a1 a2); cbn [bind]; try reflexivity.
    destruct (_ =? 0); [reflexivity |]. apply IH.
  Qed.

  Lemma ktxstats_wide : forall data, ktxstats_string_on usize_bound E data = ktxstats_string E data.
  Proof.
    intros data. unfold ktxstats_string_on, ktxstats_string. destruct (rfind data VERSION); [| reflexivity].
    destruct (usub E usize_bound n TOTAL_HEADER_SIZE); cbn [bind]; try reflexivity. rewrite ktxstats_loop_wide. reflexivity.
  Qed.

  (** the same, or an overflow where overflows are checked *)
  Definition alike {A} (m m' : M A) : Prop := m = m' \/ (checked E = true /\ m = Panic POverflow).

  Lemma alike_bind : forall A B (m m' : M A) (k k' : A -> M B), alike m m' ->
    (forall a, m' = Ret a -> alike (k a) (k' a)) -> alike (bind m k) (bind m' k').
  Proof.
    intros A B m m' k k' [-> | [C ->]] H; [| right; auto].
    destruct m' as [a | p |]; [apply H; reflexivity | left; reflexivity | left; reflexivity].
  Qed.

  Lemma alike_refl : forall A (m : M A), alike m m.
  Proof. left. reflexivity. Qed.

  Context (w : N) (big : narrow <= w) (fits : w <= usize_bound).

  (** a distance before the start of the data, in either width *)
  Definition same_offset (bound o o' : N) : Prop :=
    (o = o' /\ o <= bound) \/ (checked E = false /\ exists k, 0 < k <= 18 /\ o = w - k /\ o' = usize_bound - k).

  (** the two readings of a block differ at most in the total size, or both sizes are negative *)
  Definition same_block (r r' : result block_info) : Prop :=
    match r, r' with
    | Err _, Err _ => True
    | Ok i, Ok i' =>
        b_hidden_message i = b_hidden_message i' /\ b_number i = b_number i' /\
        ((b_body_size i = b_body_size i' /\ b_body_size i < 4294967296) \/
         (checked E = false /\ exists j, 0 < j <= 2 /\ b_body_size i = w - j /\ b_body_size i' = usize_bound - j))
    | _, _ => False
    end.

  Lemma block_on : forall d, (checked E = true /\ block_try_from_on w E d = Panic POverflow) \/
    exists r r', block_try_from_on w E d = Ret r /\ block_try_from E d = Ret r' /\ same_block r r'.
  Proof.
    intros d. unfold narrow in big. unfold usize_bound in *. unfold block_try_from_on, block_try_from.
    change SHORT with 2. change BLOCK_HEADER_SIZE with 8. unfold usize_bound.
    set (ub := 18446744073709551616) in *.
    destruct (u32_of d) as [[e [c ->]] | [n [c [-> L]]]].
    { right. do 2 eexists. repeat split; exact I. }
    rewrite N.mod_small by lia.
    assert (Tail : forall m m' t t', ((m = m' /\ m < 4294967296) \/ (checked E = false /\ exists j, 0 < j <= 2 /\ m = w - j /\ m' = ub - j)) ->
      exists r r',
      (match read_u16 E c with
       | (Ok h, cur) => match read_u16 E cur with
           | (Ok number, _) => Ret (Ok {| b_body_size := m; b_total_size := t; b_hidden_message := hidden_message_from h; b_number := number |})
           | (Err e, _) => Ret (Err e) end
       | (Err e, _) => Ret (Err e) end) = Ret r /\
      (match read_u16 E c with
       | (Ok h, cur) => match read_u16 E cur with
           | (Ok number, _) => Ret (Ok {| b_body_size := m'; b_total_size := t'; b_hidden_message := hidden_message_from h; b_number := number |})
           | (Err e, _) => Ret (Err e) end
       | (Err e, _) => Ret (Err e) end) = Ret r' /\ same_block r r').
    { intros m m' t t' H. destruct (read_u16 E c) as [[h | e] c']; [| do 2 eexists; repeat split; exact I].
      destruct (read_u16 E c') as [[x | e] c'']; [| do 2 eexists; repeat split; exact I].
      do 2 eexists. repeat split. cbn [b_body_size]. exact H. }
    unfold usub. destruct (2 <=? n) eqn:C.
    - cbn [bind]. rewrite (uadd_small E ub) by lia. destruct (N.lt_ge_cases (8 + (n - 2)) w) as [S | S].
      + rewrite uadd_small by exact S. cbn [bind]. right. apply Tail. left. split; [reflexivity | lia].
      + unfold uadd. replace (8 + (n - 2) <? w) with false by lia.
        destruct (checked E); [left; auto |]. cbn [bind]. right. apply Tail. left. split; [reflexivity | lia].
    - destruct (checked E) eqn:K; [left; auto |]. cbn [bind].
      rewrite !N.mod_small by lia. rewrite !uadd_wrap by (auto; lia). cbn [bind]. right. apply Tail. right. split; [reflexivity |].
      exists (2 - n). lia.
  Qed.

  Lemma ktxstats_loop_alike : forall data, holds w data -> forall fuel o o' content, same_offset (len data) o o' ->
    alike (ktxstats_loop_on w E fuel data o content) (ktxstats_loop E fuel data o' content).
  Proof.
    intros data H. unfold holds in H. unfold narrow in big. induction fuel as [| fuel IH]; intros o o' content S; [apply alike_refl |].
    rewrite ktxstats_loop_S. cbn [ktxstats_loop_on]. change MULTI_HEADER_SIZE with 10. change TOTAL_HEADER_SIZE with 18.
    unfold same_offset in S. unfold usize_bound in *. set (ub := 18446744073709551616) in *.
    assert (P : (exists a, uadd E w o 10 = Ret a /\ len data < a /\ exists a', uadd E ub o' 10 = Ret a' /\ len data < a') \/
      (exists a o2, uadd E w o 10 = Ret a /\ uadd E ub o' 10 = Ret a /\ uadd E w o 18 = Ret o2 /\ uadd E ub o' 18 = Ret o2 /\
         8 <= o2 <= len data + 18)).
    { destruct S as [[<- L] | [C [k [K [-> ->]]]]].
      - right. exists (o + 10), (o + 18). rewrite !uadd_small by lia. repeat split; lia.
      - destruct (N.lt_ge_cases 10 k) as [G | G].
        + left. exists (w - k + 10). rewrite !uadd_small by lia. repeat split; [lia |]. eexists. split; [reflexivity | lia].
        + right. exists (10 - k), (18 - k). rewrite !uadd_wrap by (auto; lia).
          repeat split; try lia; f_equal; lia. }
    destruct P as [[a [-> [L1 [a' [-> L2]]]]] | [a [o2 [-> [-> [-> [-> B]]]]]]].
    { cbn [bind]. rewrite !slice_from_panic by assumption. apply alike_refl. }
    cbn [bind]. destruct (slice_from data a) as [d | |]; cbn [bind]; try apply alike_refl.
    destruct (block_on d) as [[C ->] | [r [r' [-> [-> R]]]]]; [right; auto |]. cbn [bind].
    destruct r as [i | e], r' as [i' | e']; unfold same_block in R; change usize_bound with ub in R; try contradiction; [| apply alike_refl].
    destruct R as [-> [-> R]]. destruct (negb _); [apply alike_refl |].
    assert (Q : (checked E = true /\ uadd E w o2 (b_body_size i) = Panic POverflow) \/
      (exists t t', uadd E w o2 (b_body_size i) = Ret t /\ uadd E ub o2 (b_body_size i') = Ret t' /\
         ((t = t') \/ (slice data o2 t = Panic PSlice /\ slice data o2 t' = Panic PSlice)))).
    { destruct R as [[<- L] | [C [j [J [-> ->]]]]].
      - destruct (N.lt_ge_cases (o2 + b_body_size i) w) as [G | G].
        + right. exists (o2 + b_body_size i), (o2 + b_body_size i). rewrite !uadd_small by lia. auto.
        + destruct (checked E) eqn:C.
          * left. split; [reflexivity |]. unfold uadd. rewrite C. replace (o2 + b_body_size i <? w) with false by lia. reflexivity.
          * right. exists (o2 + b_body_size i - w), (o2 + b_body_size i). rewrite uadd_wrap by (auto; lia).
            rewrite uadd_small by lia. repeat split. right. split; [apply slice_none; lia | apply slice_panic; lia].
      - right. exists (o2 - j), (o2 - j). rewrite !uadd_wrap by (auto; lia). repeat split; [f_equal; lia | f_equal; lia |]. auto. }
    destruct Q as [[C ->] | [t [t' [-> [-> Q]]]]]; [right; auto |]. cbn [bind].
    destruct Q as [-> | [-> ->]]; [| apply alike_refl].
    destruct (slice data o2 t') as [part | |] eqn:SL; cbn [bind]; try apply alike_refl.
    destruct (b_number i' =? 0); [apply alike_refl |]. apply IH. left. apply slice_bounds in SL. split; [reflexivity | lia].
  Qed.

  Lemma ktxstats_alike : forall data, holds w data -> alike (ktxstats_string_on w E data) (ktxstats_string E data).
  Proof.
    intros data H. unfold ktxstats_string_on, ktxstats_string. destruct (rfind data VERSION) as [o |] eqn:F; [| apply alike_refl].
    apply rfind_some in F. destruct F as [[x [y [D L]]] _].
    assert (o <= len data) by (rewrite D, !len_app; lia). pose proof H as H'. unfold holds in H'. unfold narrow in big.
    change TOTAL_HEADER_SIZE with 18. unfold usub.
    assert (K : forall o1 o2, same_offset (len data) o1 o2 ->
      alike (let! content := ktxstats_loop_on w E (S (length data)) data o1 [] in
             if utf8_valid content then Ret (Ok content) else Ret (Err (utf8_error_text content)))
            (let! content := ktxstats_loop E (S (length data)) data o2 [] in
             if utf8_valid content then Ret (Ok content) else Ret (Err (utf8_error_text content)))).
    { intros o1 o2 S. apply alike_bind; [apply ktxstats_loop_alike; assumption |]. intros. apply alike_refl. }
    destruct (18 <=? o) eqn:C; [cbn [bind]; apply K; left; split; [reflexivity | lia] |].
    destruct (checked E) eqn:CH; [apply alike_refl |]. cbn [bind]. apply K. right. split; [exact CH |].
    exists (18 - o). unfold usize_bound in *. rewrite !N.mod_small by lia. lia.
  Qed.
End Stats.

Section Alike.
  Context (E : env) (w : N) (big : narrow <= w) (fits : w <= usize_bound).

  Lemma v3_alike : forall data, holds w data -> alike E (ktxstats_v3_on w E data) (ktxstats_v3 E data).
  Proof.
    intros data H. unfold ktxstats_v3_on, ktxstats_v3. apply alike_bind; [apply ktxstats_alike; assumption |]. intros. apply alike_refl.
  Qed.

  Lemma server_alike : forall data, holds w data -> alike E (server_on w E data) (server E data).
  Proof.
    intros data H. unfold server_on, server. apply alike_bind; [apply v3_alike; assumption |]. intros. apply alike_refl.
  Qed.

  Lemma from_stats_alike : forall data, holds w data ->
    alike E (match_duration_from_ktxstats_on w E data) (match_duration_from_ktxstats E data).
  Proof.
    intros data H. unfold match_duration_from_ktxstats_on, match_duration_from_ktxstats.
    apply alike_bind; [apply ktxstats_alike; assumption |]. intros [s | e] R; [| apply alike_refl].
    apply ktxstats_size_proof in R; [| unfold holds, usize_bound in *; lia].
    rewrite offsets_same_on; [apply alike_refl |]. unfold holds in *. lia.
  Qed.

  Section Walked.
    Context (fs : list frame) (rest : bytes).
    Local Notation data := (encode fs ++ rest).
    Context (W : wf fs) (NF : no_frame rest) (V : ~ vast w rest) (small : holds w data).

    Lemma match_duration_alike : forall fuel, (frame_fuel data <= fuel)%nat ->
      alike E (match_duration_on w E fuel data) (match_duration E data).
    Proof.
      intros fuel F. unfold match_duration_on, match_duration. apply alike_bind; [apply alike_refl |]. intros s _.
      rewrite seeking_same_on by assumption. destruct (is_hoonymode s); [apply alike_refl |].
      apply alike_bind; [apply from_stats_alike; assumption |]. intros. apply alike_refl.
    Qed.

    Lemma players_alike : alike E (players_on w E data) (players E data).
    Proof.
      unfold players_on, players. apply alike_bind; [apply v3_alike; assumption |]. intros s _.
      rewrite parsing_same_on by assumption. apply alike_refl.
    Qed.

    Lemma teams_alike : alike E (teams_on w E data) (teams E data).
    Proof. unfold teams_on, teams. apply alike_bind; [apply players_alike |]. intros. apply alike_refl. Qed.
  End Walked.
End Alike.

(** A frame that is too large for the target *)
Lemma announced_body : forall d s time t r, announced d = Some s -> d = time :: t :: r -> s - hdr t < 4294967296.
Proof.
  intros d s time t r A ->. simpl in A. unfold hdr. destruct (has_length t) eqn:HL.
  - destruct (skipn (if has_mask t then 4 else 0)%nat r) as [| a [| b [| c [| e q]]]]; inv A.
    fold (le32 a b c e). pose proof (le32_lt a b c e). lia.
  - inv A. unfold fixed_body. destruct (kind t =? 2); lia.
Qed.

Section Vast.
  Context (w : N) (E : env) (big : narrow <= w).

  Definition vast_info (idx : N) (time t : byte) (s : N) : info :=
    {| i_duration := n_of time; i_target := target_from t; i_command := command_from t; i_index := idx;
       i_size := s - w; i_header_size := hdr t; i_header_range := (idx, idx + hdr t); i_body_size := s - hdr t;
       i_body_range := (idx + hdr t, idx + (s - w)) |}.

  Lemma fdi_vast : forall p d s time t r, announced d = Some s -> d = time :: t :: r -> w <= s -> holds w (p ++ d) ->
    from_data_and_index_on w E (p ++ d) (len p) =
    if checked E then Panic POverflow else Ret (Ok (vast_info (len p) time t s)).
  Proof.
    intros p d s time t r A R V H. pose proof (announced_body d s time t r A R) as B. unfold narrow, holds in *.
    destruct (announced_inv d s A) as [time' [t' [r' [R' [H1 [H2 _]]]]]]. rewrite R in R'. injection R' as <- <- <-.
    pose proof (hdr_le t) as H10.
    rewrite (fdi_on_some w E big p d s time t r A R). rewrite len_app in *.
    destruct (checked E) eqn:C.
    - unfold uadd at 1. rewrite C. replace (hdr t + (s - hdr t) <? w) with false by lia. reflexivity.
    - rewrite (uadd_wrap E w (hdr t)) by (auto; lia). cbn [bind]. replace (hdr t + (s - hdr t) - w) with (s - w) by lia.
      replace (len p + len d <? s - w) with false by lia. rewrite info_field by lia. reflexivity.
  Qed.

  Section Loop.
    Context {St : Type} (data : bytes) (small : holds w data) (body : St -> info -> M (step St)).

    Definition tail_on (fuel : nat) (idx : N) (r : step St) : M St :=
      match r with
      | Break st => Ret st
      | Continue st => frame_loop_on w E fuel data body idx st
      end.

    Lemma loop_on_walk : forall (g : St -> N -> frame -> M (step St)) fs p rest st fuel, data = p ++ encode fs ++ rest -> wf fs ->
      (forall st p' f r, data = p' ++ encode_frame f ++ r -> wf_frame f -> body st (info_of (len p') f) = g st (len p') f) ->
      frame_loop_on w E (length fs + fuel) data body (len p) st =
      bind (walk g (len p) fs st) (tail_on fuel (len p + len (encode fs))).
    Proof.
      intros g. induction fs as [| f fs IH]; intros p rest st fuel D W B.
      - cbn [length Nat.add walk bind tail_on]. change (len (encode [])) with 0. rewrite N.add_0_r. reflexivity.
      - apply Forall_cons_iff in W. destruct W as [W1 W2]. rewrite encode_cons, <- app_assoc in D.
        assert (A : announced (encode_frame f ++ encode fs ++ rest) = Some (len (encode_frame f)))
          by (apply announced_encode; assumption).
        assert (L : len p + len (encode_frame f) <= len data) by (rewrite D, !len_app; lia).
        pose proof small as small'. unfold holds in small'.
        cbn [length Nat.add frame_loop_on walk].
        rewrite (fdi_on_same w E big data small p (encode_frame f ++ encode fs ++ rest) D).
        2: { intros [s [A' L']]. rewrite A in A'. injection A' as <-. lia. }
        pose proof (fdi_some E p _ (len (encode_frame f)) (f_time f) (f_type f)
          (f_mask f ++ (if has_length (f_type f) then enc32 (len (f_body f)) else []) ++ f_body f ++ encode fs ++ rest) A) as F.
        rewrite <- D in F. rewrite F by (unfold encode_frame; simpl; rewrite <- !app_assoc; reflexivity).
        replace (len data <? len (encode_frame f)) with false by lia. cbn [bind].
        change (info_at _ _ _ _) with (info_of (len p) f). rewrite (B st p f (encode fs ++ rest) D W1).
        destruct (g st (len p) f) as [[st' | st'] | |]; cbn [bind]; try reflexivity.
        change (i_size (info_of (len p) f)) with (len (encode_frame f)). rewrite uadd_small by lia. cbn [bind].
        rewrite <- len_app, (IH (p ++ encode_frame f) rest) by (auto; rewrite <- app_assoc; exact D).
        rewrite encode_cons, !len_app, N.add_assoc. reflexivity.
    Qed.

    (** from the start of the data *)
    Lemma loop_vast : forall (g : St -> N -> frame -> M (step St)) fs rest s time t r st fuel,
      data = encode fs ++ rest -> wf fs -> announced rest = Some s -> rest = time :: t :: r -> w <= s -> (length fs < fuel)%nat ->
      (forall st p' f r, data = p' ++ encode_frame f ++ r -> wf_frame f -> body st (info_of (len p') f) = g st (len p') f) ->
      exists fuel', (S (length fs + fuel') = fuel)%nat /\
      frame_loop_on w E fuel data body 0 st =
      let! r := walk g 0 fs st in
      match r with
      | Break st' => Ret st'
      | Continue st' =>
          if checked E then Panic POverflow
          else
            let! r' := body st' (vast_info (len (encode fs)) time t s) in
            match r' with
            | Break st'' => Ret st''
            | Continue st'' => frame_loop_on w E fuel' data body (len (encode fs) + (s - w)) st''
            end
      end.
    Proof.
      intros g fs rest s time t r st fuel D W A R V F B.
      exists (fuel - length fs - 1)%nat. split; [lia |].
      replace fuel with (length fs + S (fuel - length fs - 1))%nat at 1 by lia.
      change 0 with (len (@nil byte)) at 1. rewrite (loop_on_walk g fs [] rest) by auto.
      change (len (@nil byte)) with 0. rewrite N.add_0_l.
      destruct (walk g 0 fs st) as [[st' | st'] | |]; cbn [bind tail_on]; try reflexivity.
      cbn [frame_loop_on]. pose proof (fdi_vast (encode fs) rest s time t r A R V) as F'. rewrite <- D in F'.
      rewrite (F' small). destruct (checked E); [reflexivity |]. cbn [bind].
      destruct (body st' _) as [[st'' | st''] | |]; cbn [bind]; try reflexivity.
      change (i_size (vast_info (len (encode fs)) time t s)) with (s - w).
      pose proof (announced_body rest s time t r A R). pose proof (hdr_le t).
      unfold holds, narrow in *. rewrite D, len_app in small. rewrite uadd_small by lia. reflexivity.
    Qed.
  End Loop.

  Lemma vast_cannot_read : forall data idx time t s, s - hdr t < 4294967296 -> w <= s ->
    body_of data (vast_info idx time t s) = Panic PSlice.
  Proof. intros. unfold narrow in big. unfold body_of. cbn [vast_info i_body_range fst snd]. apply slice_none. pose proof (hdr_pos t). lia. Qed.

  Section Walkers.
    Context (fs : list frame) (rest : bytes).
    Local Notation data := (encode fs ++ rest).
    Context (W : wf fs) (V : vast w rest) (small : holds w data).

    Definition refusal : panic := if checked E then POverflow else PSlice.

    Lemma vast_size : exists s time t r, announced rest = Some s /\ rest = time :: t :: r /\ w <= s /\ s - hdr t < 4294967296 /\ 0 < s - hdr t.
    Proof.
      destruct V as [s [A L]]. destruct (announced_inv rest s A) as [time [t [r [R _]]]].
      exists s, time, t, r. pose proof (announced_body rest s time t r A R). pose proof (hdr_le t). unfold narrow in big.
      repeat split; auto; lia.
    Qed.

    Lemma fuel_enough : (length fs < frame_fuel data)%nat.
    Proof. unfold frame_fuel. rewrite app_length. pose proof (length_encode fs W). lia. Qed.

    Lemma vast_stops : stops (len data) rest.
    Proof. unfold stops. destruct V as [s [-> L]]. unfold holds in small. lia. Qed.

    Lemma prints_vast : prints_on w E data = Panic refusal.
    Proof.
      destruct vast_size as [s [time [t [r [A [R [L [B P]]]]]]]].
      unfold prints_on. fold (prints_loop E data).
      destruct (loop_vast data small (prints_loop E data) (fun st _ f => Ret (Continue (prints_step st f))) fs rest s time t r []
        (frame_fuel data) eq_refl W A R L fuel_enough) as [fuel' [_ ->]].
      { intros. apply (prints_body E data st p' f r0); assumption. }
      rewrite (walk_pure _ _ (fun st _ f => prints_step st f)) by reflexivity. cbn [bind]. unfold refusal.
      destruct (checked E); [reflexivity |]. unfold prints_loop. cbn [vast_info i_body_size].
      replace (0 <? s - hdr t) with true by lia. fold (vast_info (len (encode fs)) time t s). rewrite vast_cannot_read by assumption. reflexivity.
    Qed.

    Lemma frags_vast : frags_per_player_name_on w E data = Panic refusal.
    Proof.
      destruct vast_size as [s [time [t [r [A [R [L [B P]]]]]]]].
      unfold frags_per_player_name_on, print_frames_on. fold (print_frames_loop E data).
      destruct (loop_vast data small (print_frames_loop E data) (fun st i f => Ret (Continue (pf_step st i f))) fs rest s time t r []
        (frame_fuel data) eq_refl W A R L fuel_enough) as [fuel' [_ ->]].
      { intros. apply (print_frames_body E data st p' f r0); assumption. }
      rewrite (walk_pure _ _ pf_step) by reflexivity. cbn [bind]. unfold refusal.
      destruct (checked E); [reflexivity |]. unfold print_frames_loop. cbn [vast_info i_body_size].
      replace (s - hdr t =? 0) with false by lia. fold (vast_info (len (encode fs)) time t s). rewrite vast_cannot_read by assumption. reflexivity.
    Qed.

    Lemma flags_vast : flag_events_per_player_name_on w E data = Panic refusal.
    Proof.
      destruct vast_size as [s [time [t [r [A [R [L [B P]]]]]]]].
      unfold flag_events_per_player_name_on, flag_prints_on. fold (flag_loop E data).
      destruct (loop_vast data small (flag_loop E data) (fun st _ f => Ret (Continue (frame_texts E st f))) fs rest s time t r []
        (frame_fuel data) eq_refl W A R L fuel_enough) as [fuel' [_ ->]].
      { intros. apply (flag_body E data st p' f r0); assumption. }
      rewrite (walk_pure _ _ (fun st _ f => frame_texts E st f)) by reflexivity. cbn [bind]. unfold refusal.
      destruct (checked E); [reflexivity |]. unfold flag_loop. cbn [vast_info i_body_size].
      replace (s - hdr t =? 0) with false by lia. fold (vast_info (len (encode fs)) time t s). rewrite vast_cannot_read by assumption. reflexivity.
    Qed.

    Lemma pings_vast : ping_per_player_number_on w E data =
      if len (ping_frames fs) <? 8 then Panic refusal else ping_per_player_number E data.
    Proof.
      destruct vast_size as [s [time [t [r [A [R [L [B P]]]]]]]].
      unfold ping_per_player_number_on, ping_per_player_number, sample_pings_on. fold (sample_loop E data).
      destruct (loop_vast data small (sample_loop E data) sample_g fs rest s time t r (0, [])
        (frame_fuel data) eq_refl W A R L fuel_enough) as [fuel' [_ ->]].
      { intros. apply (sample_body E data st p' f r0); assumption. }
      rewrite walk_sample by lia. rewrite N.add_0_l.
      destruct (len (ping_frames fs) <? 8) eqn:F; cbn [bind].
      - unfold refusal. destruct (checked E); [reflexivity |]. unfold sample_loop. cbn [vast_info i_body_size].
        replace (0 <? s - hdr t) with true by lia. fold (vast_info (len (encode fs)) time t s). rewrite vast_cannot_read by assumption. reflexivity.
      - rewrite sample_enough by (auto; lia). reflexivity.
    Qed.

    (** the clock *)
    Lemma until_vast : forall target fuel, (frame_fuel data <= fuel)%nat ->
      existsb (fun x => target <=? fst x) (located 0 fs) = true ->
      duration_until_offset_on w E fuel data target = duration_until_offset E data target.
    Proof.
      intros target fuel F X. destruct vast_size as [s [time [t [r [A [R [L [B P]]]]]]]].
      unfold duration_until_offset_on, duration_until_offset. f_equal. rewrite total_ms_quiet by (auto using vast_stops).
      unfold total_ms_until_on. fold (ms_loop E target).
      pose proof fuel_enough. destruct (loop_vast data small (ms_loop E target) (ms_g E target) fs rest s time t r 0 fuel eq_refl W A R L) as [fuel' [_ ->]].
      { lia. } { intros. apply ms_body. }
      rewrite walk_ms, sum_times, X. destruct (ms_total E (elapsed target fs)); reflexivity.
    Qed.

    Lemma until_vast_checked : forall target fuel, (frame_fuel data <= fuel)%nat -> checked E = true ->
      existsb (fun x => target <=? fst x) (located 0 fs) = false ->
      duration_until_offset_on w E fuel data target = Panic POverflow.
    Proof.
      intros target fuel F C X. destruct vast_size as [s [time [t [r [A [R [L [B P]]]]]]]].
      unfold duration_until_offset_on, total_ms_until_on. fold (ms_loop E target).
      pose proof fuel_enough. destruct (loop_vast data small (ms_loop E target) (ms_g E target) fs rest s time t r 0 fuel eq_refl W A R L) as [fuel' [_ ->]].
      { lia. } { intros. apply ms_body. }
      rewrite walk_ms, sum_times, X. unfold ms_total. rewrite C. destruct (_ <? _); reflexivity.
    Qed.

    Lemma until_vast_unchecked : forall target fuel, (frame_fuel data <= fuel)%nat -> checked E = false ->
      target <= len (encode fs) ->
      duration_until_offset_on w E fuel data target = duration_until_offset E data target.
    Proof.
      intros target fuel F C T. destruct vast_size as [s [time [t [r [A [R [L [B P]]]]]]]].
      unfold duration_until_offset_on, duration_until_offset. f_equal. rewrite total_ms_quiet by (auto using vast_stops).
      unfold total_ms_until_on. fold (ms_loop E target).
      pose proof fuel_enough. destruct (loop_vast data small (ms_loop E target) (ms_g E target) fs rest s time t r 0 fuel eq_refl W A R L) as [fuel' [_ ->]].
      { lia. } { intros. apply ms_body. }
      rewrite walk_ms, sum_times, C. destruct (ms_total E (elapsed target fs)); cbn [bind]; try reflexivity.
      destruct (existsb _ _); [reflexivity |]. unfold ms_loop. cbn [vast_info i_index].
      replace (target <=? len (encode fs)) with true by lia. reflexivity.
    Qed.
  End Walkers.

  (** the loop that does not move *)
  Lemma loop_on_mono : forall St data (body : St -> info -> M (step St)) n m index st, (n <= m)%nat ->
    frame_loop_on w E n data body index st <> OutOfFuel ->
    frame_loop_on w E m data body index st = frame_loop_on w E n data body index st.
  Proof.
    intros St data body. induction n as [| n IH]; intros m index st L F; [exfalso; apply F; reflexivity |].
    destruct m as [| m]; [lia |]. cbn [frame_loop_on] in *.
    destruct (from_data_and_index_on w E data index) as [[i | e] | |]; cbn [bind] in *; try reflexivity.
    destruct (body st i) as [[st' | st'] | |]; cbn [bind] in *; try reflexivity.
    destruct (uadd E w index (i_size i)); cbn [bind] in *; try reflexivity. apply IH; [lia | exact F].
  Qed.

  Lemma stuck : forall fs rest target, holds w (encode fs ++ rest) -> checked E = false -> announced rest = Some w ->
    len (encode fs) < target -> forall fuel st,
    frame_loop_on w E fuel (encode fs ++ rest) (ms_loop E target) (len (encode fs)) st = OutOfFuel.
  Proof.
    intros fs rest target H C A T. destruct (announced_inv rest w A) as [time [t [r [R _]]]].
    induction fuel as [| fuel IH]; intros st; [reflexivity |]. cbn [frame_loop_on].
    rewrite (fdi_vast (encode fs) rest w time t r A R (N.le_refl w) H), C. cbn [bind].
    unfold ms_loop at 1. cbn [vast_info i_index i_duration i_size]. replace (target <=? len (encode fs)) with false by lia.
    unfold uadd at 1. rewrite C. pose proof H as H'. unfold holds in H'. rewrite len_app in H'.
    destruct (_ <? _); cbn [bind]; rewrite N.sub_diag, (uadd_small E w) by lia; cbn [bind]; rewrite N.add_0_r; apply IH.
  Qed.

  Lemma until_stuck : forall fs rest target, wf fs -> holds w (encode fs ++ rest) -> checked E = false -> announced rest = Some w ->
    len (encode fs) < target -> forall fuel, duration_until_offset_on w E fuel (encode fs ++ rest) target = OutOfFuel.
  Proof.
    intros fs rest target W H C A T fuel. unfold duration_until_offset_on, total_ms_until_on. fold (ms_loop E target).
    assert (X : existsb (fun x => target <=? fst x) (located 0 fs) = false).
    { apply not_true_is_false. intros X. apply existsb_exists in X. destruct X as [x [X1 X2]]. apply located_bound in X1. lia. }
    assert (Y : frame_loop_on w E (length fs + fuel) (encode fs ++ rest) (ms_loop E target) 0 0 = OutOfFuel).
    { change 0 with (len (@nil byte)) at 1. rewrite (loop_on_walk (encode fs ++ rest) H (ms_loop E target) (ms_g E target) fs [] rest)
        by (auto; intros; apply ms_body).
      change (len (@nil byte)) with 0. rewrite N.add_0_l, walk_ms, sum_times, X. unfold ms_total. rewrite C.
      destruct (_ <? _); cbn [bind tail_on]; apply stuck; assumption. }
    destruct (frame_loop_on w E fuel (encode fs ++ rest) (ms_loop E target) 0 0) eqn:Z; [| | reflexivity];
      (rewrite (loop_on_mono _ _ _ fuel (length fs + fuel)) in Y; [congruence | lia | congruence]).
  Qed.
End Vast.

(** Which walks end *)
Section Ends.
  Context (w : N) (E : env) (big : narrow <= w) (data : bytes) (small : holds w data).

  Lemma fdi_on_ok : forall index i, from_data_and_index_on w E data index = Ret (Ok i) ->
    index <= len data /\ i_index i = index /\ i_size i <= len data /\
    (1 <= i_size i \/ (i_size i = 0 /\ checked E = false /\ exists p d, data = p ++ d /\ len p = index /\ announced d = Some w)).
  Proof.
    intros index i H.
    assert (L : index <= len data).
    { unfold from_data_and_index_on, slice_from in H. destruct (index <=? len data) eqn:C; [lia | discriminate]. }
    destruct (split_at _ data index L) as [p [d [D LP]]]. subst index.
    destruct (announced d) as [s |] eqn:A.
    - destruct (announced_inv d s A) as [time [t [r [R [H1 [H2 _]]]]]].
      pose proof (announced_body d s time t r A R) as B. pose proof (announced_pos d s A). unfold holds, narrow in *.
      pose proof (hdr_le t). destruct (N.lt_ge_cases s w) as [V | V].
      + rewrite (fdi_on_same w E big data small p d D) in H by (intros [s' [A' L']]; rewrite A in A'; injection A' as <-; lia).
        pose proof (fdi_some E p d s time t r A R) as F. rewrite <- D in F. rewrite F in H.
        destruct (len data <? s) eqn:C; [discriminate |]. injection H as <-. unfold info_at. cbn [i_index i_size]. repeat split; lia.
      + pose proof (fdi_vast w E big p d s time t r A R V) as F. rewrite <- D in F. rewrite F in H by exact small.
        destruct (checked E) eqn:C; [discriminate |]. injection H as <-. cbn [vast_info i_index i_size].
        assert (len d <= len data) by (rewrite D, len_app; lia). repeat split; try lia.
        destruct (N.eq_dec s w) as [-> | X]; [| left; lia]. right. split; [lia |]. split; [reflexivity |]. exists p, d. auto.
    - destruct (fdi_on_none w E big p d A) as [e F]. rewrite <- D in F. rewrite F in H. discriminate.
  Qed.

  Lemma fdi_on_fuel : forall index, from_data_and_index_on w E data index <> OutOfFuel.
  Proof.
    intros index. unfold from_data_and_index_on. apply bind_fuel; [apply slice_from_fuel |]. intros d _.
    destruct (read_byte E _) as [[b | e] c]; [| discriminate]. destruct (read_byte E c) as [[b' | e] c']; [| discriminate].
    destruct (match command_from b' with CRead => read_u32 E _ | CSet => _ | _ => _ end) as [[n | e] c'']; [| discriminate].
    apply bind_fuel; [apply uadd_fuel |]. intros size _. destruct (_ <? _); [discriminate |].
    repeat (apply bind_fuel; [apply uadd_fuel |]; intros ? _). discriminate.
  Qed.

  Lemma ms_loop_fuel : forall target st i, ms_loop E target st i <> OutOfFuel.
  Proof. intros. unfold ms_loop. destruct (_ <=? _); [discriminate |]. apply bind_fuel; [apply uadd_fuel | discriminate]. Qed.

  Lemma stuck_at : forall target index i, from_data_and_index_on w E data index = Ret (Ok i) -> i_size i = 0 -> checked E = false ->
    i_index i < target -> index <= len data -> forall fuel st, frame_loop_on w E fuel data (ms_loop E target) index st = OutOfFuel.
  Proof.
    intros target index i H Z C T L. induction fuel as [| fuel IH]; intros st; [reflexivity |]. cbn [frame_loop_on]. rewrite H. cbn [bind].
    unfold ms_loop at 1. replace (target <=? i_index i) with false by lia. unfold uadd at 1. rewrite C. pose proof small as S. unfold holds in S.
    destruct (_ <? _); cbn [bind]; rewrite Z, (uadd_small E w) by lia; cbn [bind]; rewrite N.add_0_r; apply IH.
  Qed.

  Lemma until_ends : forall target fuel index st, (0 < fuel)%nat -> (index <= len data -> (length data + 2 <= fuel + N.to_nat index)%nat) ->
    frame_loop_on w E fuel data (ms_loop E target) index st = OutOfFuel ->
    (forall fuel', frame_loop_on w E fuel' data (ms_loop E target) index st = OutOfFuel) /\
    checked E = false /\ exists p d, data = p ++ d /\ announced d = Some w /\ len p < target.
  Proof.
    intros target. induction fuel as [| fuel IH]; intros index st F1 F2 H; [lia |]. cbn [frame_loop_on] in H.
    destruct (from_data_and_index_on w E data index) as [[i | e] | |] eqn:F; cbn [bind] in H; try discriminate;
      [| exfalso; apply (fdi_on_fuel index F)].
    destruct (fdi_on_ok index i F) as [L [I [SZ S]]]. pose proof small as small'. unfold holds in small'.
    destruct (ms_loop E target st i) as [[st' | st'] | |] eqn:B; cbn [bind] in H; try discriminate;
      [| exfalso; apply (ms_loop_fuel target st i B)].
    assert (T : i_index i < target). { unfold ms_loop in B. destruct (target <=? i_index i) eqn:C; [discriminate | lia]. }
    rewrite uadd_small in H by lia. cbn [bind] in H.
    destruct S as [S | [S [C [p [d [D [LP A]]]]]]].
    - assert (LF : index + 1 <= len data -> (0 < fuel)%nat) by (specialize (F2 L); unfold len in *; lia).
      destruct (N.le_gt_cases (index + i_size i) (len data)) as [G | G].
      + apply IH in H; [| apply LF; lia | specialize (F2 L); lia]. destruct H as [H1 H2]. split; [| exact H2].
        intros [| fuel']; [reflexivity |]. cbn [frame_loop_on]. rewrite F. cbn [bind]. rewrite B. cbn [bind].
        rewrite uadd_small by lia. cbn [bind]. apply H1.
      + destruct fuel as [| fuel]; [specialize (F2 L); unfold len in *; lia |].
        cbn [frame_loop_on] in H. destruct (fdi_on_beyond w E data (index + i_size i) G) as [X _]. rewrite X in H. discriminate.
    - split; [intros fuel'; apply (stuck_at target index i); assumption |]. split; [exact C |]. exists p, d. repeat split; auto. lia.
  Qed.

  Lemma until_hangs : forall target fuel, (frame_fuel data <= fuel)%nat -> duration_until_offset_on w E fuel data target = OutOfFuel ->
    (forall fuel', duration_until_offset_on w E fuel' data target = OutOfFuel) /\
    checked E = false /\ exists p d, data = p ++ d /\ announced d = Some w /\ len p < target.
  Proof.
    intros target fuel L H. unfold duration_until_offset_on, total_ms_until_on in *. fold (ms_loop E target) in *.
    destruct (frame_loop_on w E fuel data (ms_loop E target) 0 0) eqn:F; cbn [bind] in H; [| discriminate |].
    - exfalso. revert H. apply from_secs_fuel.
    - unfold frame_fuel in L. apply until_ends in F; [| lia | lia]. destruct F as [F1 F2]. split; [| exact F2].
      intros fuel'. rewrite F1. reflexivity.
  Qed.
End Ends.

(** ** Together *)
Lemma not_vast_wide : forall rest, ~ vast wide rest.
Proof.
  intros rest [s [A L]]. destruct (announced_inv rest s A) as [time [t [r [R _]]]].
  pose proof (announced_body rest s time t r A R). pose proof (hdr_le t). unfold wide in L. lia.
Qed.

Lemma narrow_wide : narrow <= wide.
Proof. unfold narrow, wide. lia. Qed.

Lemma walks_same : forall w E fs rest, narrow <= w -> wf fs -> no_frame rest -> ~ vast w rest -> holds w (encode fs ++ rest) ->
  walks_on (@same_outcome) w E (encode fs ++ rest).
Proof.
  intros w E fs rest B W NF V H. unfold walks_on, same_outcome.
  split; [apply prints_same_on | split; [apply frags_same_on | split; [apply flags_same_on | split; [apply pings_same_on | apply parsing_same_on]]]];
    assumption.
Qed.

Lemma clocks_same : forall w E fs rest fuel, narrow <= w -> wf fs -> no_frame rest -> ~ vast w rest -> holds w (encode fs ++ rest) ->
  (frame_fuel (encode fs ++ rest) <= fuel)%nat -> clocks_on (@same_outcome) w E fuel (encode fs ++ rest).
Proof.
  intros w E fs rest fuel B W NF V H F. unfold clocks_on, same_outcome.
  split; [apply demo_same_on | split; [apply countdown_same_on | apply seeking_same_on]]; assumption.
Qed.

Lemma searches_same : forall w E data, holds w data -> searches_on (@same_outcome) w E data.
Proof.
  intros w E data H. unfold searches_on, same_outcome.
  split; [intros; apply offsets_same_on | split; [apply clientinfo_same_on | apply matchdate_same_on]]; exact H.
Qed.

Lemma stats_wide : forall E data, holds wide data -> stats_on (@same_outcome) wide E data.
Proof.
  intros E data H. unfold stats_on, same_outcome. change wide with usize_bound in *.
  unfold server_on, server, ktxstats_v3_on, ktxstats_v3, match_duration_from_ktxstats_on, match_duration_from_ktxstats.
  rewrite ktxstats_wide. repeat (split; [reflexivity |]).
  destruct (ktxstats_string E data) as [[s | e] | |] eqn:K; cbn [bind]; try reflexivity.
  apply ktxstats_size_proof in K; [| unfold holds, usize_bound in *; lia].
  rewrite offsets_same_on; [reflexivity |]. unfold holds in *. lia.
Qed.

Lemma wide_target_proof : forall E data fuel, holds wide data -> (frame_fuel data <= fuel)%nat ->
  searches_on (@same_outcome) wide E data /\ walks_on (@same_outcome) wide E data /\ clocks_on (@same_outcome) wide E fuel data /\
  stats_on (@same_outcome) wide E data /\ others_on (@same_outcome) wide E fuel data.
Proof.
  intros E data fuel H F. destruct (decompose data) as [fs [rest [-> [W NF]]]].
  pose proof (walks_same wide E fs rest narrow_wide W NF (not_vast_wide rest) H) as HW.
  pose proof (clocks_same wide E fs rest fuel narrow_wide W NF (not_vast_wide rest) H F) as HC.
  pose proof (stats_wide E (encode fs ++ rest) H) as HS.
  repeat (split; [first [apply searches_same; exact H | assumption] |]).
  unfold walks_on, clocks_on, stats_on, others_on, same_outcome in *.
  destruct HW as [_ [_ [_ [_ P]]]]. destruct HC as [_ [_ S]]. destruct HS as [_ [V3 [_ MK]]].
  unfold match_duration_on, match_duration, teams_on, teams, players_on, players. rewrite P, S, V3, MK. auto.
Qed.

Lemma alike_unless : forall E A (m m' : M A), alike E m m' -> same_unless_overflow m m'.
Proof. intros E A m m' [-> | [_ ->]]; [left | right]; reflexivity. Qed.
Lemma alike_same : forall E A (m m' : M A), checked E = false -> alike E m m' -> same_outcome m m'.
Proof. intros E A m m' C [-> | [K _]]; [reflexivity | congruence]. Qed.

Lemma narrow_usize : narrow <= usize_bound.
Proof. unfold narrow, usize_bound. lia. Qed.

Lemma narrow_stats_proof : forall E data, holds narrow data ->
  stats_on (@same_unless_overflow) narrow E data /\ (checked E = false -> stats_on (@same_outcome) narrow E data).
Proof.
  intros E data H. unfold stats_on.
  pose proof (ktxstats_alike E narrow (N.le_refl _) narrow_usize data H) as A1.
  pose proof (v3_alike E narrow (N.le_refl _) narrow_usize data H) as A2.
  pose proof (server_alike E narrow (N.le_refl _) narrow_usize data H) as A3.
  pose proof (from_stats_alike E narrow (N.le_refl _) narrow_usize data H) as A4.
  split; [eauto 10 using alike_unless | intros C; eauto 10 using alike_same].
Qed.

Lemma narrow_others_proof : forall E fs rest fuel, wf fs -> no_frame rest -> ~ vast narrow rest -> holds narrow (encode fs ++ rest) ->
  (frame_fuel (encode fs ++ rest) <= fuel)%nat ->
  others_on (@same_unless_overflow) narrow E fuel (encode fs ++ rest) /\
  (checked E = false -> others_on (@same_outcome) narrow E fuel (encode fs ++ rest)).
Proof.
  intros E fs rest fuel W NF V H F. unfold others_on.
  pose proof (match_duration_alike E narrow (N.le_refl _) narrow_usize fs rest W NF V H fuel F) as A1.
  pose proof (players_alike E narrow (N.le_refl _) narrow_usize fs rest W NF V H) as A2.
  pose proof (teams_alike E narrow (N.le_refl _) narrow_usize fs rest W NF V H) as A3.
  split; [eauto 10 using alike_unless | intros C; eauto 10 using alike_same].
Qed.

Lemma narrow_vast_proof : forall E fs rest, wf fs -> vast narrow rest -> holds narrow (encode fs ++ rest) ->
  let data := encode fs ++ rest in
  let refusal := if checked E then POverflow else PSlice in
  prints_on narrow E data = Panic refusal /\
  frags_per_player_name_on narrow E data = Panic refusal /\
  flag_events_per_player_name_on narrow E data = Panic refusal /\
  ping_per_player_number_on narrow E data =
    (if len (ping_frames fs) <? 8 then Panic refusal else ping_per_player_number E data) /\
  (exists ps, prints E data = Ret ps).
Proof.
  intros E fs rest W V H data rf. pose proof (N.le_refl narrow) as B.
  split; [apply prints_vast; assumption |]. split; [apply frags_vast; assumption |]. split; [apply flags_vast; assumption |].
  split; [apply pings_vast; assumption |]. eexists. apply prints_quiet; [exact W |]. eapply vast_stops; eassumption.
Qed.

Lemma passes_iff : forall target fs, passes target fs <-> existsb (fun x => target <=? fst x) (located 0 fs) = true.
Proof.
  intros target fs. rewrite existsb_exists. unfold passes.
  split; intros [x [I L]]; exists x; (split; [exact I | lia]).
Qed.

Lemma demo_on_offset : forall w E fuel data t, end_marker data t ->
  demo_duration_on w E fuel data = let! d := duration_until_offset_on w E fuel data t in Ret (Ok d).
Proof.
  intros w E fuel data t H. unfold demo_duration_on.
  rewrite (end_marker_unique data t _ H (end_marker_offset data)). reflexivity.
Qed.

Lemma narrow_clock_proof : forall E fs rest t fuel, wf fs -> vast narrow rest -> holds narrow (encode fs ++ rest) ->
  end_marker (encode fs ++ rest) t -> (frame_fuel (encode fs ++ rest) <= fuel)%nat ->
  (passes t fs \/ (checked E = false /\ t <= len (encode fs)) ->
     demo_duration_on narrow E fuel (encode fs ++ rest) = demo_duration E (encode fs ++ rest)) /\
  (checked E = true -> ~ passes t fs ->
     demo_duration_on narrow E fuel (encode fs ++ rest) = Panic POverflow /\
     match_duration_from_seeking_on narrow E fuel (encode fs ++ rest) = Panic POverflow).
Proof.
  intros E fs rest t fuel W V H T F. rewrite (demo_on_offset _ _ _ _ t T), (demo_duration_offset _ _ t T). rewrite passes_iff. split.
  - intros [P | [C L]]; f_equal; [apply until_vast | apply until_vast_unchecked]; auto; apply N.le_refl.
  - intros C P. apply not_true_is_false in P.
    unfold match_duration_from_seeking_on. rewrite (demo_on_offset _ _ _ _ t T).
    rewrite until_vast_checked by (auto; apply N.le_refl). auto.
Qed.

Lemma narrow_hangs_proof : forall E fs rest t, wf fs -> checked E = false -> announced rest = Some narrow ->
  holds narrow (encode fs ++ rest) -> end_marker (encode fs ++ rest) t -> len (encode fs) < t ->
  forall fuel, demo_duration_on narrow E fuel (encode fs ++ rest) = OutOfFuel /\
    match_duration_from_seeking_on narrow E fuel (encode fs ++ rest) = OutOfFuel.
Proof.
  intros E fs rest t W C A H T L fuel. unfold match_duration_from_seeking_on. rewrite (demo_on_offset _ _ _ _ t T).
  rewrite until_stuck by (auto; apply N.le_refl). auto.
Qed.

Lemma narrow_hangs_only_proof : forall E data fuel t, holds narrow data -> end_marker data t -> (frame_fuel data <= fuel)%nat ->
  demo_duration_on narrow E fuel data = OutOfFuel ->
  (forall fuel', demo_duration_on narrow E fuel' data = OutOfFuel) /\
  checked E = false /\ exists p d, data = p ++ d /\ announced d = Some narrow /\ len p < t.
Proof.
  intros E data fuel t H T F Z. rewrite (demo_on_offset _ _ _ _ t T) in Z.
  destruct (duration_until_offset_on narrow E fuel data t) eqn:U; cbn [bind] in Z; try discriminate.
  apply until_hangs in U; [| apply N.le_refl | exact H | exact F]. destruct U as [U1 U2]. split; [| exact U2].
  intros fuel'. rewrite (demo_on_offset _ _ _ _ t T), U1. reflexivity.
Qed.

Lemma unless_terminates : forall A (m m' : M A), m' <> OutOfFuel -> same_unless_overflow m m' -> m <> OutOfFuel.
Proof. intros A m m' H [-> | ->]; [exact H | discriminate]. Qed.

Lemma vast_dec : forall w rest, vast w rest \/ ~ vast w rest.
Proof.
  intros w rest. destruct (announced rest) as [s |] eqn:A.
  - destruct (N.le_gt_cases w s) as [L | L]; [left; exists s; auto |]. right. intros [s' [A' L']]. rewrite A in A'. injection A' as <-. lia.
  - right. intros [s [A' _]]. congruence.
Qed.

Lemma narrow_terminates_proof : forall E data, holds narrow data ->
  terminates (prints_on narrow E data) /\ terminates (frags_per_player_name_on narrow E data) /\
  terminates (flag_events_per_player_name_on narrow E data) /\ terminates (ping_per_player_number_on narrow E data) /\
  terminates (ktxstats_string_on narrow E data) /\ terminates (server_on narrow E data) /\
  terminates (match_duration_from_ktxstats_on narrow E data) /\
  terminates (players_on narrow E data) /\ terminates (teams_on narrow E data).
Proof.
  intros E data H. unfold terminates.
  assert (L63 : len data < 2 ^ 63) by (unfold holds, narrow in H; lia).
  destruct (narrow_stats_proof E data H) as [[S1 [S2 [S3 S4]]] _].
  assert (T1 : ktxstats_string_on narrow E data <> OutOfFuel)
    by (eapply unless_terminates; [| exact S1]; apply ktxstats_string_terminates; exact L63).
  assert (T2 : ktxstats_v3_on narrow E data <> OutOfFuel)
    by (unfold ktxstats_v3_on; apply bind_fuel; [exact T1 | intros [s | e] _; discriminate]).
  assert (T3 : server_on narrow E data <> OutOfFuel)
    by (unfold server_on; apply bind_fuel; [exact T2 | intros [s | e] _; discriminate]).
  assert (T4 : match_duration_from_ktxstats_on narrow E data <> OutOfFuel).
  { eapply unless_terminates; [| exact S4]. pose proof (everything_terminates E data L63) as Y. unfold each_function in Y.
    repeat match goal with Y : _ /\ _ |- _ => destruct Y end. assumption. }
  assert (Wk : prints_on narrow E data <> OutOfFuel /\ frags_per_player_name_on narrow E data <> OutOfFuel /\
    flag_events_per_player_name_on narrow E data <> OutOfFuel /\ ping_per_player_number_on narrow E data <> OutOfFuel).
  { destruct (decompose data) as [fs [rest [-> [W NF]]]]. destruct (vast_dec narrow rest) as [V | V].
    - destruct (narrow_vast_proof E fs rest W V H) as [-> [-> [-> [-> _]]]].
      repeat split; try discriminate. destruct (_ <? _); [discriminate | apply pings_terminates].
    - destruct (walks_same narrow E fs rest (N.le_refl _) W NF V H) as [-> [-> [-> [-> _]]]].
      repeat split; [apply prints_terminates | apply frags_terminates | apply flags_terminates | apply pings_terminates]. }
  destruct Wk as [W1 [W2 [W3 W4]]].
  assert (T5 : players_on narrow E data <> OutOfFuel).
  { unfold players_on. apply bind_fuel; [exact T2 |]. intros [s | e] _; [discriminate |].
    unfold players_from_parsing_on. apply bind_fuel; [apply clients_terminates |]. intros [cs | e'] _; [| discriminate].
    apply bind_fuel; [exact W4 |]. intros [ps | e'] _; [| discriminate]. apply bind_fuel; [exact W2 | discriminate]. }
  repeat split; try assumption. unfold teams_on. apply bind_fuel; [exact T5 |]. intros [ps | e] _; [| discriminate].
  apply bind_fuel; [| discriminate]. unfold teams_from_players. apply bind_fuel; [| discriminate]. apply mapM_fuel. apply team_from_fuel.
Qed.

Lemma narrow_countdown_hangs_proof : forall E fs rest r c, wf fs -> checked E = false -> announced rest = Some narrow ->
  holds narrow (encode fs ++ rest) -> serverinfo E (encode fs ++ rest) = Ret r ->
  (forall s, r = Ok s -> st_mode s <> Some (lit "hoonymode")) ->
  first_at (encode fs ++ rest) matchdate_marker c -> len (encode fs) < c ->
  forall fuel, countdown_duration_on narrow E fuel (encode fs ++ rest) = OutOfFuel.
Proof.
  intros E fs rest r c W C A H S M F L fuel. unfold countdown_duration_on. rewrite S. cbn [bind]. rewrite (hoony_false r M).
  apply find_some in F. change MATCHDATE_NEEDLE with matchdate_marker. rewrite F.
  rewrite until_stuck by (auto; apply N.le_refl). reflexivity.
Qed.

Lemma narrow_clocks_hang_only_proof : forall E data fuel, holds narrow data -> (frame_fuel data <= fuel)%nat ->
  (checked E = true \/ forall p d, data = p ++ d -> announced d <> Some narrow) ->
  terminates (demo_duration_on narrow E fuel data) /\ terminates (countdown_duration_on narrow E fuel data) /\
  terminates (match_duration_from_seeking_on narrow E fuel data) /\ terminates (match_duration_on narrow E fuel data).
Proof.
  intros E data fuel H F N. unfold terminates.
  assert (U : forall t, duration_until_offset_on narrow E fuel data t <> OutOfFuel).
  { intros t U. apply until_hangs in U; [| apply N.le_refl | exact H | exact F].
    destruct U as [_ [C [p [d [D [A _]]]]]]. destruct N as [N | N]; [congruence | exact (N p d D A)]. }
  assert (D : demo_duration_on narrow E fuel data <> OutOfFuel)
    by (unfold demo_duration_on; apply bind_fuel; [apply U | discriminate]).
  assert (T : countdown_duration_on narrow E fuel data <> OutOfFuel).
  { unfold countdown_duration_on. apply bind_fuel; [apply serverinfo_terminates |]. intros s _. destruct (is_hoonymode s); [discriminate |].
    destruct (find _ _); [| discriminate]. apply bind_fuel; [apply U | discriminate]. }
  assert (K : match_duration_from_seeking_on narrow E fuel data <> OutOfFuel).
  { unfold match_duration_from_seeking_on. apply bind_fuel; [exact D |]. intros [d | e] _; [| discriminate].
    apply bind_fuel; [exact T |]. intros c _. apply bind_fuel; [| discriminate]. unfold duration_sub. fuel. }
  repeat split; try assumption. unfold match_duration_on. apply bind_fuel; [apply serverinfo_terminates |]. intros s _.
  destruct (is_hoonymode s); [exact K |]. apply bind_fuel; [apply narrow_terminates_proof; exact H |].
  intros [d | e] _; [discriminate | exact K].
Qed.
