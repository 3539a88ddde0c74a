(** Every function in two builds: the results are the same, unless the stricter one stops at an
    overflow. *)
From Coq Require Import Lia ZifyN ZifyNat ZifyBool.
From Verif.Model Require Import Base Env Primitives Prot Frame Message Prints Bytesextra Serverinfo Clientinfo
  Clients FragEvent FlagEvent Frags Flags Float Ping Ktxstats Timezone Matchdate Duration Validate Players.
From Verif.Spec Require Import Builds.
From Verif.Proofs Require Import BaseFacts FrameFacts PrintFacts PingFacts StatsFacts ClientFacts.
Open Scope N_scope.

Notation agrees := same_unless_overflow.

Lemma agrees_refl : forall A (m : M A), agrees m m.
Proof. intros. left. reflexivity. Qed.
Lemma agrees_bind : forall A B (m m' : M A) (k k' : A -> M B), agrees m m' ->
  (forall x, agrees (k x) (k' x)) -> agrees (bind m k) (bind m' k').
Proof.
  intros A B m m' k k' [-> | ->] K; [| right; reflexivity].
  destruct m' as [x | p |]; cbn [bind]; [apply K | left; reflexivity | left; reflexivity].
Qed.
Lemma agrees_foldM : forall A B (f f' : A -> B -> M A), (forall a b, agrees (f a b) (f' a b)) ->
  forall l a, agrees (foldM f l a) (foldM f' l a).
Proof.
  intros A B f f' H l. induction l as [| b l IH]; intros a; [apply agrees_refl |].
  cbn [foldM]. apply agrees_bind; [apply H | exact IH].
Qed.

Ltac ag := repeat first
  [ apply agrees_refl
  | apply agrees_bind; [| intros ?]
  | match goal with |- agrees (match ?x with _ => _ end) (match ?x with _ => _ end) => destruct x end
  | match goal with |- agrees (let (_, _) := ?x in _) (let (_, _) := ?x in _) => destruct x end ].

Section Two.
  Context (E E' : env) (S : stricter E E') (L : same_libraries E E').

  Lemma uadd_agrees : forall bound a b, agrees (uadd E bound a b) (uadd E' bound a b).
  Proof.
    intros. unfold uadd. destruct (a + b <? bound); [apply agrees_refl |].
    destruct S as [C | C]; rewrite C; [right | left]; reflexivity.
  Qed.
  Lemma usub_agrees : forall bound a b, agrees (usub E bound a b) (usub E' bound a b).
  Proof.
    intros. unfold usub. destruct (b <=? a); [apply agrees_refl |].
    destruct S as [C | C]; rewrite C; [right | left]; reflexivity.
  Qed.
  Lemma iadd_agrees : forall a b, agrees (iadd E a b) (iadd E' a b).
  Proof.
    intros. unfold iadd. destruct ((i32_min <=? a + b) && (a + b <=? i32_max))%Z; [apply agrees_refl |].
    destruct S as [C | C]; rewrite C; [right | left]; reflexivity.
  Qed.

  (** readers *)
  Lemma read_byte_same : forall c, read_byte E c = read_byte E' c.
  Proof.
    intros [pos [| b r]]; [| reflexivity]. unfold read_byte, read_exact. cbn [c_rest c_pos length Nat.leb].
    rewrite len_nil, N.add_0_r. destruct (eof_on_short_read E), (eof_on_short_read E'); reflexivity.
  Qed.
  Lemma read_u16_same : forall c, read_u16 E c = read_u16 E' c \/ exists e, fst (read_u16 E c) = Err e /\ fst (read_u16 E' c) = Err e.
  Proof.
    intros c. unfold read_u16, read_exact. destruct (Nat.leb 2 (length (c_rest c))); [left; reflexivity |].
    right. eexists. split; reflexivity.
  Qed.
  Lemma read_u32_same : forall c, read_u32 E c = read_u32 E' c \/ exists e, fst (read_u32 E c) = Err e /\ fst (read_u32 E' c) = Err e.
  Proof.
    intros c. unfold read_u32, read_exact. destruct (Nat.leb 4 (length (c_rest c))); [left; reflexivity |].
    right. eexists. split; reflexivity.
  Qed.
  Lemma read_message_type_same : forall c, read_message_type E c = read_message_type E' c.
  Proof. intros c. unfold read_message_type. rewrite read_byte_same. reflexivity. Qed.
  Lemma read_print_same : forall c, read_print E c = read_print E' c.
  Proof. intros c. unfold read_print. rewrite read_byte_same. reflexivity. Qed.
  Lemma read_update_frags_same : forall c, fst (read_update_frags E c) = fst (read_update_frags E' c).
  Proof.
    intros c. unfold read_update_frags. rewrite read_byte_same. destruct (read_byte E' c) as [[b | e] c']; [| reflexivity].
    destruct (read_u16_same c') as [-> | [e [X Y]]]; [reflexivity |].
    destruct (read_u16 E c') as [r c1], (read_u16 E' c') as [r' c2]. cbn [fst] in X, Y. subst. reflexivity.
  Qed.

  Lemma frame_same : forall data index, from_data_and_index E data index = from_data_and_index E' data index.
  Proof.
    intros data index. unfold from_data_and_index. destruct (slice_from data index) as [d | |]; cbn [bind]; try reflexivity.
    rewrite read_byte_same. destruct (read_byte E' (cursor_new d)) as [[b | e] c]; [| reflexivity].
    rewrite read_byte_same. destruct (read_byte E' c) as [[b' | e] c']; [| reflexivity].
    destruct (command_from b'); try reflexivity.
    set (c2 := advance _ c'). destruct (read_u32_same c2) as [-> | [e [X Y]]]; [reflexivity |].
    destruct (read_u32 E c2) as [r c3], (read_u32 E' c2) as [r' c4]. cbn [fst] in X, Y. subst. reflexivity.
  Qed.

  Lemma frame_loop_agrees : forall St (body body' : St -> info -> M (step St)) data,
    (forall st i, agrees (body st i) (body' st i)) ->
    forall fuel index st, agrees (frame_loop E fuel data body index st) (frame_loop E' fuel data body' index st).
  Proof.
    intros St body body' data H fuel. induction fuel as [| fuel IH]; intros index st; [apply agrees_refl |].
    cbn [frame_loop]. rewrite frame_same. apply agrees_bind; [apply agrees_refl |]. intros [i | e]; [| apply agrees_refl].
    apply agrees_bind; [apply H |]. intros [st' | st']; [apply IH | apply agrees_refl].
  Qed.

  (** prints *)
  Lemma read_prints_same : forall body acc, read_prints E (Datatypes.S (length body)) (cursor_new body) acc
    = read_prints E' (Datatypes.S (length body)) (cursor_new body) acc.
  Proof. intros. unfold cursor_new. rewrite !read_prints_spec by lia. reflexivity. Qed.

  Lemma prints_agrees : forall data, agrees (prints E data) (prints E' data).
  Proof.
    intros data. unfold prints. apply agrees_bind; [| intros; apply agrees_refl].
    apply frame_loop_agrees. intros st i. destruct (0 <? i_body_size i); [| apply agrees_refl].
    apply agrees_bind; [apply agrees_refl |]. intros body. rewrite read_prints_same. ag.
  Qed.

  (** clients *)
  Lemma clientinfo_loop_same : forall fuel data max offset acc,
    clientinfo_loop E fuel data max offset acc = clientinfo_loop E' fuel data max offset acc.
  Proof.
    induction fuel as [| fuel IH]; intros; [reflexivity |]. rewrite !clientinfo_loop_S. rewrite (sl_unicode _ _ L).
    repeat first [ reflexivity
      | match goal with |- bind ?m _ = bind ?m _ => destruct m; cbn [bind]; [| reflexivity | reflexivity] end
      | match goal with |- match ?x with _ => _ end = match ?x with _ => _ end => destruct x end
      | apply IH ].
  Qed.
  Lemma clientinfo_strings_same : forall data, clientinfo_strings E data = clientinfo_strings E' data.
  Proof.
    intros data. unfold clientinfo_strings. destruct (find data CMD_SPAWN); [| reflexivity].
    rewrite clientinfo_loop_same. reflexivity.
  Qed.
  Lemma clientinfo_same : forall data, clientinfo E data = clientinfo E' data.
  Proof. intros data. unfold clientinfo. rewrite clientinfo_strings_same, (sl_clientinfo _ _ L). reflexivity. Qed.
  Lemma clients_same : forall data, clients E data = clients E' data.
  Proof. intros data. unfold clients. rewrite clientinfo_same. reflexivity. Qed.
  Lemma player_clients_same : forall data, player_clients E data = player_clients E' data.
  Proof. intros data. unfold player_clients. rewrite clients_same. reflexivity. Qed.
  Lemma spectator_clients_same : forall data, spectator_clients E data = spectator_clients E' data.
  Proof. intros data. unfold spectator_clients. rewrite clients_same. reflexivity. Qed.
  Lemma has_bot_players_same : forall data, has_bot_players E data = has_bot_players E' data.
  Proof. intros data. unfold has_bot_players. rewrite player_clients_same. reflexivity. Qed.
  Lemma has_human_players_same : forall data, has_human_players E data = has_human_players E' data.
  Proof. intros data. unfold has_human_players. rewrite player_clients_same. reflexivity. Qed.
  Lemma player_names_same : forall data, player_names E data = player_names E' data.
  Proof. intros data. unfold player_names. rewrite player_clients_same, (sl_sort _ _ L). reflexivity. Qed.
  Lemma spectator_names_same : forall data, spectator_names E data = spectator_names E' data.
  Proof. intros data. unfold spectator_names. rewrite spectator_clients_same, (sl_sort _ _ L). reflexivity. Qed.
  Lemma team_names_same : forall data, team_names E data = team_names E' data.
  Proof. intros data. unfold team_names. rewrite player_clients_same, (sl_sort _ _ L). reflexivity. Qed.

  (** serverinfo *)
  Lemma serverinfo_string_same : forall data, serverinfo_string E data = serverinfo_string E' data.
  Proof. intros data. unfold serverinfo_string. rewrite (sl_utf8 _ _ L). reflexivity. Qed.
  Lemma serverinfo_same : forall data, serverinfo E data = serverinfo E' data.
  Proof. intros data. unfold serverinfo. rewrite serverinfo_string_same, (sl_settings _ _ L). reflexivity. Qed.
  Lemma filename_same : forall data, filename E data = filename E' data.
  Proof. intros data. unfold filename. rewrite serverinfo_same. reflexivity. Qed.
  Lemma is_valid_same : forall data, is_valid E data = is_valid E' data.
  Proof. intros data. unfold is_valid, has_clients. rewrite serverinfo_same, clientinfo_same. reflexivity. Qed.
  Lemma matchdate_same : forall data, matchdate E data = matchdate E' data.
  Proof. intros data. unfold matchdate. rewrite (sl_datetime _ _ L). reflexivity. Qed.
  Lemma timestamp_from_epoch_same : forall data, timestamp_from_epoch E data = timestamp_from_epoch E' data.
  Proof. intros data. unfold timestamp_from_epoch. rewrite serverinfo_same. reflexivity. Qed.
  Lemma timestamp_same : forall data, timestamp E data = timestamp E' data.
  Proof. intros data. unfold timestamp. rewrite timestamp_from_epoch_same, matchdate_same. reflexivity. Qed.

  (** frags *)
  Lemma print_frames_agrees : forall data, agrees (print_frames E data) (print_frames E' data).
  Proof.
    intros data. unfold print_frames. apply frame_loop_agrees. intros acc i.
    destruct (i_body_size i =? 0); [apply agrees_refl |]. apply agrees_bind; [apply agrees_refl |]. intros body.
    rewrite read_message_type_same. destruct (read_message_type E' (cursor_new body)) as [t c].
    rewrite read_print_same. apply agrees_refl.
  Qed.
  Lemma nearby_agrees : forall data index, agrees (nearby_frag_updates E data index) (nearby_frag_updates E' data index).
  Proof.
    intros data index. unfold nearby_frag_updates. apply frame_loop_agrees. intros [count nums] i.
    destruct (MAX_FRAME_COUNT <=? count); [apply agrees_refl |].
    destruct (i_body_size i =? 0); [apply agrees_refl |]. apply agrees_bind; [apply agrees_refl |]. intros body.
    rewrite read_print_same, read_message_type_same. destruct (read_message_type E' _) as [t c].
    rewrite read_update_frags_same. apply agrees_refl.
  Qed.
  Lemma find_team_killer_agrees : forall data index v, agrees (find_team_killer E data index v) (find_team_killer E' data index v).
  Proof.
    intros. unfold find_team_killer. apply agrees_bind; [apply nearby_agrees |]. intros st. rewrite clients_same. apply agrees_refl.
  Qed.
  Lemma frag_add_agrees : forall name d frags, agrees (frag_add E name d frags) (frag_add E' name d frags).
  Proof. intros. unfold frag_add. apply agrees_bind; [apply iadd_agrees | intros; apply agrees_refl]. Qed.
  Lemma frags_agrees : forall data, agrees (frags_per_player_name E data) (frags_per_player_name E' data).
  Proof.
    intros data. unfold frags_per_player_name. apply agrees_bind; [apply print_frames_agrees |]. intros pfs.
    apply agrees_foldM. intros frags pf. unfold score_print. rewrite (sl_unicode _ _ L).
    destruct (frag_event_from _) as [[]|]; try apply frag_add_agrees; try apply agrees_refl.
    apply agrees_bind; [apply find_team_killer_agrees |]. intros [n | e]; [apply frag_add_agrees | apply agrees_refl].
  Qed.

  (** flags *)
  Lemma read_flag_prints_same : forall fuel c cur acc, read_flag_prints E fuel c cur acc = read_flag_prints E' fuel c cur acc.
  Proof.
    induction fuel as [| fuel IH]; intros; [reflexivity |]. cbn [read_flag_prints].
    rewrite read_message_type_same. destruct (read_message_type E' c) as [[mt | e] c']; [| reflexivity].
    destruct (is_print mt); [| apply IH]. rewrite read_print_same. destruct (read_print E' c') as [[p | e] c'']; [| apply IH].
    unfold is_message_suffix. rewrite (sl_unicode _ _ L).
    destruct (print_id_eqb (pr_id p) PiHigh && negb (is_empty (pr_content p))); [| apply IH].
    destruct (is_empty cur); apply IH.
  Qed.
  Lemma flag_prints_agrees : forall data, agrees (flag_prints E data) (flag_prints E' data).
  Proof.
    intros data. unfold flag_prints. apply frame_loop_agrees. intros acc i.
    destruct (i_body_size i =? 0); [apply agrees_refl |]. apply agrees_bind; [apply agrees_refl |]. intros body.
    rewrite read_flag_prints_same. apply agrees_refl.
  Qed.
  Lemma flags_agrees : forall data, agrees (flag_events_per_player_name E data) (flag_events_per_player_name E' data).
  Proof.
    intros data. unfold flag_events_per_player_name. apply agrees_bind; [apply flag_prints_agrees |]. intros ps.
    apply agrees_foldM. intros m p. unfold count_flag_print. rewrite (sl_unicode _ _ L).
    destruct (flag_event_from _) as [e |]; [| apply agrees_refl].
    apply agrees_bind; [| intros; apply agrees_refl]. unfold flag_apply.
    destruct (aget_or beq (flag_player e) pfe_default m). destruct e; (apply agrees_bind; [apply uadd_agrees | intros; apply agrees_refl]).
  Qed.

  (** pings *)
  Lemma read_pings_same : forall body total did, read_pings E (Datatypes.S (length body)) (cursor_new body) total did
    = read_pings E' (Datatypes.S (length body)) (cursor_new body) total did.
  Proof. intros. unfold cursor_new. rewrite !read_pings_spec by lia. reflexivity. Qed.
  Lemma sample_pings_agrees : forall data, agrees (sample_pings E data) (sample_pings E' data).
  Proof.
    intros data. unfold sample_pings. apply frame_loop_agrees. intros [count total] i.
    apply agrees_bind; [| intros st; apply agrees_refl].
    destruct (0 <? i_body_size i); [| apply agrees_refl]. apply agrees_bind; [apply agrees_refl |]. intros body.
    rewrite read_pings_same. apply agrees_refl.
  Qed.
  Lemma pings_agrees : forall data, agrees (ping_per_player_number E data) (ping_per_player_number E' data).
  Proof.
    intros data. unfold ping_per_player_number. apply agrees_bind; [apply sample_pings_agrees |]. intros st.
    destruct (is_empty (snd st)); [apply agrees_refl |]. apply agrees_bind; [| intros; apply agrees_refl].
    apply agrees_foldM. intros m [n l]. apply agrees_bind; [| intros; apply agrees_refl]. unfold average.
    apply agrees_bind; [| intros; apply agrees_refl]. apply agrees_foldM. intros. apply uadd_agrees.
  Qed.

  (** stats *)
  Lemma block_agrees : forall d, agrees (block_try_from E d) (block_try_from E' d).
  Proof.
    intros d. unfold block_try_from. destruct (read_u32_same (cursor_new d)) as [-> | [e [X Y]]].
    - destruct (read_u32 E' (cursor_new d)) as [[n | e] c]; [| apply agrees_refl].
      apply agrees_bind; [apply usub_agrees |]. intros bs. apply agrees_bind; [apply uadd_agrees |]. intros ts.
      destruct (read_u16_same c) as [-> | [e [X Y]]].
      + destruct (read_u16 E' c) as [[h | e] c']; [| apply agrees_refl].
        destruct (read_u16_same c') as [-> | [e [X Y]]]; [apply agrees_refl |].
        destruct (read_u16 E c') as [r c1], (read_u16 E' c') as [r' c2]. cbn [fst] in X, Y. subst. apply agrees_refl.
      + destruct (read_u16 E c) as [r c1], (read_u16 E' c) as [r' c2]. cbn [fst] in X, Y. subst. apply agrees_refl.
    - destruct (read_u32 E _) as [r c1], (read_u32 E' _) as [r' c2]. cbn [fst] in X, Y. subst. apply agrees_refl.
  Qed.
  Lemma ktxstats_loop_agrees : forall fuel data offset content,
    agrees (ktxstats_loop E fuel data offset content) (ktxstats_loop E' fuel data offset content).
  Proof.
    induction fuel as [| fuel IH]; intros; [apply agrees_refl |]. rewrite !ktxstats_loop_S.
    apply agrees_bind; [apply uadd_agrees |]. intros a. apply agrees_bind; [apply agrees_refl |]. intros d.
    apply agrees_bind; [apply block_agrees |]. intros [b | e]; [| apply agrees_refl].
    destruct (negb (is_demoinfo (b_hidden_message b))); [apply agrees_refl |].
    apply agrees_bind; [apply uadd_agrees |]. intros o. apply agrees_bind; [apply uadd_agrees |]. intros to.
    apply agrees_bind; [apply agrees_refl |]. intros part. destruct (b_number b =? 0); [apply agrees_refl |].
    apply agrees_bind; [apply uadd_agrees |]. intros o'. apply IH.
  Qed.
  Lemma ktxstats_string_agrees : forall data, agrees (ktxstats_string E data) (ktxstats_string E' data).
  Proof.
    intros data. unfold ktxstats_string. destruct (rfind data VERSION); [| apply agrees_refl].
    apply agrees_bind; [apply usub_agrees |]. intros o. apply agrees_bind; [apply ktxstats_loop_agrees |]. intros c. apply agrees_refl.
  Qed.
  Lemma ktxstats_v3_agrees : forall data, agrees (ktxstats_v3 E data) (ktxstats_v3 E' data).
  Proof.
    intros data. unfold ktxstats_v3. rewrite (sl_ktxstats _ _ L). apply agrees_bind; [apply ktxstats_string_agrees | intros; apply agrees_refl].
  Qed.
  Lemma server_agrees : forall data, agrees (server E data) (server E' data).
  Proof. intros data. unfold server. apply agrees_bind; [apply ktxstats_v3_agrees | intros; apply agrees_refl]. Qed.

  (** durations *)
  Lemma duration_until_agrees : forall data t, agrees (duration_until_offset E data t) (duration_until_offset E' data t).
  Proof.
    intros data t. unfold duration_until_offset, total_ms_until. apply agrees_bind; [| intros; apply agrees_refl].
    apply frame_loop_agrees. intros total i. destruct (t <=? i_index i); [apply agrees_refl |].
    apply agrees_bind; [apply uadd_agrees | intros; apply agrees_refl].
  Qed.
  Lemma demo_duration_agrees : forall data, agrees (demo_duration E data) (demo_duration E' data).
  Proof. intros data. unfold demo_duration. apply agrees_bind; [apply duration_until_agrees | intros; apply agrees_refl]. Qed.
  Lemma countdown_agrees : forall data, agrees (countdown_duration E data) (countdown_duration E' data).
  Proof.
    intros data. unfold countdown_duration. rewrite serverinfo_same. apply agrees_bind; [apply agrees_refl |]. intros s.
    destruct (is_hoonymode s); [apply agrees_refl |]. destruct (find data MATCHDATE_NEEDLE); [| apply agrees_refl].
    apply agrees_bind; [apply duration_until_agrees | intros; apply agrees_refl].
  Qed.
  Lemma match_duration_from_seeking_agrees : forall data,
    agrees (match_duration_from_seeking E data) (match_duration_from_seeking E' data).
  Proof.
    intros data. unfold match_duration_from_seeking. apply agrees_bind; [apply demo_duration_agrees |]. intros [d | e]; [| apply agrees_refl].
    apply agrees_bind; [apply countdown_agrees | intros; apply agrees_refl].
  Qed.
  Lemma match_duration_from_ktxstats_agrees : forall data,
    agrees (match_duration_from_ktxstats E data) (match_duration_from_ktxstats E' data).
  Proof. intros data. unfold match_duration_from_ktxstats. apply agrees_bind; [apply ktxstats_string_agrees | intros; apply agrees_refl]. Qed.
  Lemma match_duration_agrees : forall data, agrees (match_duration E data) (match_duration E' data).
  Proof.
    intros data. unfold match_duration. rewrite serverinfo_same. apply agrees_bind; [apply agrees_refl |]. intros s.
    destruct (is_hoonymode s); [apply match_duration_from_seeking_agrees |].
    apply agrees_bind; [apply match_duration_from_ktxstats_agrees |]. intros [d | e]; [apply agrees_refl | apply match_duration_from_seeking_agrees].
  Qed.

  (** players and teams *)
  Context (O : same_orders E E').
  Lemma players_from_parsing_agrees : forall data, agrees (players_from_parsing E data) (players_from_parsing E' data).
  Proof.
    intros data. unfold players_from_parsing. rewrite clients_same, (so_players _ _ O).
    apply agrees_bind; [apply agrees_refl |]. intros [cs | e]; [| apply agrees_refl].
    apply agrees_bind; [apply pings_agrees |]. intros [ps | e]; [| apply agrees_refl].
    apply agrees_bind; [apply frags_agrees | intros; apply agrees_refl].
  Qed.
  Lemma players_agrees : forall data, agrees (players E data) (players E' data).
  Proof.
    intros data. unfold players. apply agrees_bind; [apply ktxstats_v3_agrees |].
    intros [s | e]; [apply agrees_refl | apply players_from_parsing_agrees].
  Qed.
  Lemma team_from_agrees : forall ps, agrees (team_from E ps) (team_from E' ps).
  Proof.
    intros [| p ps]; [apply agrees_refl |]. unfold team_from. apply agrees_bind.
    - apply agrees_foldM. intros [f g] q. apply agrees_bind; [apply iadd_agrees |]. intros f'.
      apply agrees_bind; [apply uadd_agrees | intros; apply agrees_refl].
    - intros [f g]. apply agrees_bind; [| intros; apply agrees_refl]. unfold majority_color. rewrite (so_colors _ _ O).
      destruct (map p_color (p :: ps)) as [| c [| c' [| c'' l]]]; try apply agrees_refl.
      apply agrees_bind; [| intros; apply agrees_refl]. unfold color_counts. apply agrees_foldM. intros m c0.
      apply agrees_bind; [apply uadd_agrees | intros; apply agrees_refl].
  Qed.
  Lemma agrees_mapM : forall A B (f f' : A -> M B), (forall a, agrees (f a) (f' a)) -> forall l, agrees (mapM f l) (mapM f' l).
  Proof.
    intros A B f f' H l. induction l as [| a l IH]; [apply agrees_refl |]. cbn [mapM].
    apply agrees_bind; [apply H |]. intros b. apply agrees_bind; [exact IH | intros; apply agrees_refl].
  Qed.
  Lemma teams_from_players_agrees : forall ps, agrees (teams_from_players E ps) (teams_from_players E' ps).
  Proof.
    intros ps. unfold teams_from_players, team_cmp. rewrite (so_teams _ _ O), (sl_lowercase _ _ L).
    apply agrees_bind; [apply agrees_mapM; apply team_from_agrees | intros; apply agrees_refl].
  Qed.
  Lemma teams_agrees : forall data, agrees (teams E data) (teams E' data).
  Proof.
    intros data. unfold teams. apply agrees_bind; [apply players_agrees |]. intros [ps | e]; [| apply agrees_refl].
    apply agrees_bind; [apply teams_from_players_agrees | intros; apply agrees_refl].
  Qed.
  Lemma teams_from_ktxstats_agrees : forall s, agrees (teams_from_ktxstats E s) (teams_from_ktxstats E' s).
  Proof.
    intros s. unfold teams_from_ktxstats. destruct (players_from_ktxstats s); [| apply agrees_refl].
    apply agrees_bind; [apply teams_from_players_agrees | intros; apply agrees_refl].
  Qed.
End Two.
