(** What each function takes from its environment: every lemma of the section holds for two
    environments that agree in the parts its proof mentions. *)
From Coq Require Import Lia ZifyN ZifyNat ZifyBool.
From Verif.Model Require Import Base Env Primitives Prot Frame Message Prints Bytesextra Serverinfo Clientinfo
  Clients FragEvent FlagEvent Frags Flags Float Ping Ktxstats Timezone Matchdate Duration Validate Players.
From Verif.Spec Require Import Builds.
From Verif.Proofs Require Import BaseFacts FrameFacts PrintFacts PingFacts StatsFacts ClientFacts.
Open Scope N_scope.

Lemma out_refl : forall A (m : M A), same_outcome m m.
Proof. reflexivity. Qed.
Lemma out_bind : forall A B (m m' : M A) (k k' : A -> M B), same_outcome m m' ->
  (forall x, same_outcome (k x) (k' x)) -> same_outcome (bind m k) (bind m' k').
Proof. unfold same_outcome. intros A B m m' k k' -> K. destruct m' as [x | p |]; cbn [bind]; [apply K | reflexivity | reflexivity]. Qed.
Lemma out_foldM : forall A B (f f' : A -> B -> M A), (forall a b, same_outcome (f a b) (f' a b)) ->
  forall l a, same_outcome (foldM f l a) (foldM f' l a).
Proof.
  intros A B f f' H l. induction l as [| b l IH]; intros a; [apply out_refl |].
  cbn [foldM]. apply out_bind; [apply H | exact IH].
Qed.

Ltac ag := repeat first
  [ apply out_refl
  | apply out_bind; [| intros ?]
  | match goal with |- same_outcome (match ?x with _ => _ end) (match ?x with _ => _ end) => destruct x end
  | match goal with |- same_outcome (let (_, _) := ?x in _) (let (_, _) := ?x in _) => destruct x end ].

Section Two.
  Context (E E' : env) (C : checked E = checked E').
  Context (U : to_unicode E = to_unicode E').
  Context (F : to_utf8 E = to_utf8 E').
  Context (SO : unicode_sort E = unicode_sort E').
  Context (CI : clientinfo_from E = clientinfo_from E').
  Context (SE : settings_from E = settings_from E').
  Context (KT : ktxstats_from E = ktxstats_from E').
  Context (DT : parse_datetime E = parse_datetime E').
  Context (LO : to_lowercase E = to_lowercase E').
  Context (PO : players_order E = players_order E').
  Context (TO : teams_order E = teams_order E').
  Context (CO : colors_order E = colors_order E').

  Lemma uadd_used : forall bound a b, same_outcome (uadd E bound a b) (uadd E' bound a b).
  Proof. intros. unfold uadd. rewrite C. reflexivity. Qed.
  Lemma usub_used : forall bound a b, same_outcome (usub E bound a b) (usub E' bound a b).
  Proof. intros. unfold usub. rewrite C. reflexivity. Qed.
  Lemma iadd_used : forall a b, same_outcome (iadd E a b) (iadd E' a b).
  Proof. intros. unfold iadd. rewrite C. reflexivity. Qed.

  (** readers *)
  Lemma read_byte_used : forall c, read_byte E c = read_byte E' c.
  Proof.
    intros [pos [| b r]]; [| reflexivity]. unfold read_byte, read_exact. cbn [c_rest c_pos length Nat.leb].
    rewrite len_nil, N.add_0_r. destruct (eof_on_short_read E), (eof_on_short_read E'); reflexivity.
  Qed.
  Lemma read_u16_used : forall c, read_u16 E c = read_u16 E' c \/ exists e, fst (read_u16 E c) = Err e /\ fst (read_u16 E' c) = Err e.
  Proof.
    intros c. unfold read_u16, read_exact. destruct (Nat.leb 2 (length (c_rest c))); [left; reflexivity |].
    right. eexists. split; reflexivity.
  Qed.
  Lemma read_u32_used : forall c, read_u32 E c = read_u32 E' c \/ exists e, fst (read_u32 E c) = Err e /\ fst (read_u32 E' c) = Err e.
  Proof.
    intros c. unfold read_u32, read_exact. destruct (Nat.leb 4 (length (c_rest c))); [left; reflexivity |].
    right. eexists. split; reflexivity.
  Qed.
  Lemma read_message_type_used : forall c, read_message_type E c = read_message_type E' c.
  Proof. intros c. unfold read_message_type. rewrite read_byte_used. reflexivity. Qed.
  Lemma read_print_used : forall c, read_print E c = read_print E' c.
  Proof. intros c. unfold read_print. rewrite read_byte_used. reflexivity. Qed.
  Lemma read_update_frags_used : forall c, fst (read_update_frags E c) = fst (read_update_frags E' c).
  Proof.
    intros c. unfold read_update_frags. rewrite read_byte_used. destruct (read_byte E' c) as [[b | e] c']; [| reflexivity].
    destruct (read_u16_used c') as [-> | [e [X Y]]]; [reflexivity |].
    destruct (read_u16 E c') as [r c1], (read_u16 E' c') as [r' c2]. cbn [fst] in X, Y. subst. reflexivity.
  Qed.

  Lemma frame_used : forall data index, from_data_and_index E data index = from_data_and_index E' data index.
  Proof.
    intros data index. unfold from_data_and_index. destruct (slice_from data index) as [d | |]; cbn [bind]; try reflexivity.
    rewrite read_byte_used. destruct (read_byte E' (cursor_new d)) as [[b | e] c]; [| reflexivity].
    rewrite read_byte_used. destruct (read_byte E' c) as [[b' | e] c']; [| reflexivity].
    destruct (command_from b'); try reflexivity.
    set (c2 := advance _ c'). destruct (read_u32_used c2) as [-> | [e [X Y]]]; [reflexivity |].
    destruct (read_u32 E c2) as [r c3], (read_u32 E' c2) as [r' c4]. cbn [fst] in X, Y. subst. reflexivity.
  Qed.

  Lemma frame_loop_used : forall St (body body' : St -> info -> M (step St)) data,
    (forall st i, same_outcome (body st i) (body' st i)) ->
    forall fuel index st, same_outcome (frame_loop E fuel data body index st) (frame_loop E' fuel data body' index st).
  Proof.
    intros St body body' data H fuel. induction fuel as [| fuel IH]; intros index st; [apply out_refl |].
    cbn [frame_loop]. rewrite frame_used. apply out_bind; [apply out_refl |]. intros [i | e]; [| apply out_refl].
    apply out_bind; [apply H |]. intros [st' | st']; [apply IH | apply out_refl].
  Qed.

  (** prints *)
  Lemma read_prints_used : forall body acc, read_prints E (Datatypes.S (length body)) (cursor_new body) acc
    = read_prints E' (Datatypes.S (length body)) (cursor_new body) acc.
  Proof. clear C. intros. unfold cursor_new. rewrite !read_prints_spec by lia. reflexivity. Qed.

  Lemma prints_used : forall data, same_outcome (prints E data) (prints E' data).
  Proof.
    intros data. unfold prints. apply out_bind; [| intros; apply out_refl].
    apply frame_loop_used. intros st i. destruct (0 <? i_body_size i); [| apply out_refl].
    apply out_bind; [apply out_refl |]. intros body. rewrite read_prints_used. ag.
  Qed.

  (** clients *)
  Lemma clientinfo_loop_used : forall fuel data max offset acc,
    clientinfo_loop E fuel data max offset acc = clientinfo_loop E' fuel data max offset acc.
  Proof.
    induction fuel as [| fuel IH]; intros; [reflexivity |]. rewrite !clientinfo_loop_S. rewrite U.
    repeat first [ reflexivity
      | match goal with |- bind ?m _ = bind ?m _ => destruct m; cbn [bind]; [| reflexivity | reflexivity] end
      | match goal with |- match ?x with _ => _ end = match ?x with _ => _ end => destruct x end
      | apply IH ].
  Qed.
  Lemma clientinfo_strings_used : forall data, clientinfo_strings E data = clientinfo_strings E' data.
  Proof.
    intros data. unfold clientinfo_strings. destruct (find data CMD_SPAWN); [| reflexivity].
    rewrite clientinfo_loop_used. reflexivity.
  Qed.
  Lemma clientinfo_used : forall data, clientinfo E data = clientinfo E' data.
  Proof. intros data. unfold clientinfo. rewrite clientinfo_strings_used, CI. reflexivity. Qed.
  Lemma clients_used : forall data, clients E data = clients E' data.
  Proof. intros data. unfold clients. rewrite clientinfo_used. reflexivity. Qed.
  Lemma player_clients_used : forall data, player_clients E data = player_clients E' data.
  Proof. intros data. unfold player_clients. rewrite clients_used. reflexivity. Qed.
  Lemma spectator_clients_used : forall data, spectator_clients E data = spectator_clients E' data.
  Proof. intros data. unfold spectator_clients. rewrite clients_used. reflexivity. Qed.
  Lemma has_bot_players_used : forall data, has_bot_players E data = has_bot_players E' data.
  Proof. intros data. unfold has_bot_players. rewrite player_clients_used. reflexivity. Qed.
  Lemma has_human_players_used : forall data, has_human_players E data = has_human_players E' data.
  Proof. intros data. unfold has_human_players. rewrite player_clients_used. reflexivity. Qed.
  Lemma player_names_used : forall data, player_names E data = player_names E' data.
  Proof. intros data. unfold player_names. rewrite player_clients_used, SO. reflexivity. Qed.
  Lemma spectator_names_used : forall data, spectator_names E data = spectator_names E' data.
  Proof. intros data. unfold spectator_names. rewrite spectator_clients_used, SO. reflexivity. Qed.
  Lemma team_names_used : forall data, team_names E data = team_names E' data.
  Proof. intros data. unfold team_names. rewrite player_clients_used, SO. reflexivity. Qed.

  (** serverinfo *)
  Lemma serverinfo_string_used : forall data, serverinfo_string E data = serverinfo_string E' data.
  Proof. intros data. unfold serverinfo_string. rewrite F. reflexivity. Qed.
  Lemma serverinfo_used : forall data, serverinfo E data = serverinfo E' data.
  Proof. intros data. unfold serverinfo. rewrite serverinfo_string_used, SE. reflexivity. Qed.
  Lemma filename_used : forall data, filename E data = filename E' data.
  Proof. intros data. unfold filename. rewrite serverinfo_used. reflexivity. Qed.
  Lemma matchdate_used : forall data, matchdate E data = matchdate E' data.
  Proof. intros data. unfold matchdate. rewrite DT. reflexivity. Qed.
  Lemma timestamp_from_epoch_used : forall data, timestamp_from_epoch E data = timestamp_from_epoch E' data.
  Proof. intros data. unfold timestamp_from_epoch. rewrite serverinfo_used. reflexivity. Qed.
  Lemma timestamp_used : forall data, timestamp E data = timestamp E' data.
  Proof. intros data. unfold timestamp. rewrite timestamp_from_epoch_used, matchdate_used. reflexivity. Qed.

  (** frags *)
  Lemma print_frames_used : forall data, same_outcome (print_frames E data) (print_frames E' data).
  Proof.
    intros data. unfold print_frames. apply frame_loop_used. intros acc i.
    destruct (i_body_size i =? 0); [apply out_refl |]. apply out_bind; [apply out_refl |]. intros body.
    rewrite read_message_type_used. destruct (read_message_type E' (cursor_new body)) as [t c].
    rewrite read_print_used. apply out_refl.
  Qed.
  Lemma nearby_used : forall data index, same_outcome (nearby_frag_updates E data index) (nearby_frag_updates E' data index).
  Proof.
    intros data index. unfold nearby_frag_updates. apply frame_loop_used. intros [count nums] i.
    destruct (MAX_FRAME_COUNT <=? count); [apply out_refl |].
    destruct (i_body_size i =? 0); [apply out_refl |]. apply out_bind; [apply out_refl |]. intros body.
    rewrite read_print_used, read_message_type_used. destruct (read_message_type E' _) as [t c].
    rewrite read_update_frags_used. apply out_refl.
  Qed.
  Lemma find_team_killer_used : forall data index v, same_outcome (find_team_killer E data index v) (find_team_killer E' data index v).
  Proof.
    intros. unfold find_team_killer. apply out_bind; [apply nearby_used |]. intros st. rewrite clients_used. apply out_refl.
  Qed.
  Lemma frag_add_used : forall name d frags, same_outcome (frag_add E name d frags) (frag_add E' name d frags).
  Proof. intros. unfold frag_add. apply out_bind; [apply iadd_used | intros; apply out_refl]. Qed.
  Lemma frags_used : forall data, same_outcome (frags_per_player_name E data) (frags_per_player_name E' data).
  Proof.
    intros data. unfold frags_per_player_name. apply out_bind; [apply print_frames_used |]. intros pfs.
    apply out_foldM. intros frags pf. unfold score_print. rewrite U.
    destruct (frag_event_from _) as [[]|]; try apply frag_add_used; try apply out_refl.
    apply out_bind; [apply find_team_killer_used |]. intros [n | e]; [apply frag_add_used | apply out_refl].
  Qed.

  (** flags *)
  Lemma read_flag_prints_used : forall fuel c cur acc, read_flag_prints E fuel c cur acc = read_flag_prints E' fuel c cur acc.
  Proof.
    induction fuel as [| fuel IH]; intros; [reflexivity |]. cbn [read_flag_prints].
    rewrite read_message_type_used. destruct (read_message_type E' c) as [[mt | e] c']; [| reflexivity].
    destruct (is_print mt); [| apply IH]. rewrite read_print_used. destruct (read_print E' c') as [[p | e] c'']; [| apply IH].
    unfold is_message_suffix. rewrite U.
    destruct (print_id_eqb (pr_id p) PiHigh && negb (is_empty (pr_content p))); [| apply IH].
    destruct (is_empty cur); apply IH.
  Qed.
  Lemma flag_prints_used : forall data, same_outcome (flag_prints E data) (flag_prints E' data).
  Proof.
    intros data. unfold flag_prints. apply frame_loop_used. intros acc i.
    destruct (i_body_size i =? 0); [apply out_refl |]. apply out_bind; [apply out_refl |]. intros body.
    rewrite read_flag_prints_used. apply out_refl.
  Qed.
  Lemma flags_used : forall data, same_outcome (flag_events_per_player_name E data) (flag_events_per_player_name E' data).
  Proof.
    intros data. unfold flag_events_per_player_name. apply out_bind; [apply flag_prints_used |]. intros ps.
    apply out_foldM. intros m p. unfold count_flag_print. rewrite U.
    destruct (flag_event_from _) as [e |]; [| apply out_refl].
    apply out_bind; [| intros; apply out_refl]. unfold flag_apply.
    destruct (aget_or beq (flag_player e) pfe_default m). destruct e; (apply out_bind; [apply uadd_used | intros; apply out_refl]).
  Qed.

  (** pings *)
  Lemma read_pings_used : forall body total did, read_pings E (Datatypes.S (length body)) (cursor_new body) total did
    = read_pings E' (Datatypes.S (length body)) (cursor_new body) total did.
  Proof. clear C. intros. unfold cursor_new. rewrite !read_pings_spec by lia. reflexivity. Qed.
  Lemma sample_pings_used : forall data, same_outcome (sample_pings E data) (sample_pings E' data).
  Proof.
    intros data. unfold sample_pings. apply frame_loop_used. intros [count total] i.
    apply out_bind; [| intros st; apply out_refl].
    destruct (0 <? i_body_size i); [| apply out_refl]. apply out_bind; [apply out_refl |]. intros body.
    rewrite read_pings_used. apply out_refl.
  Qed.
  Lemma pings_used : forall data, same_outcome (ping_per_player_number E data) (ping_per_player_number E' data).
  Proof.
    intros data. unfold ping_per_player_number. apply out_bind; [apply sample_pings_used |]. intros st.
    destruct (is_empty (snd st)); [apply out_refl |]. apply out_bind; [| intros; apply out_refl].
    apply out_foldM. intros m [n l]. apply out_bind; [| intros; apply out_refl]. unfold average.
    apply out_bind; [| intros; apply out_refl]. apply out_foldM. intros. apply uadd_used.
  Qed.

  (** stats *)
  Lemma block_used : forall d, same_outcome (block_try_from E d) (block_try_from E' d).
  Proof.
    intros d. unfold block_try_from. destruct (read_u32_used (cursor_new d)) as [-> | [e [X Y]]].
    - destruct (read_u32 E' (cursor_new d)) as [[n | e] c]; [| apply out_refl].
      apply out_bind; [apply usub_used |]. intros bs. apply out_bind; [apply uadd_used |]. intros ts.
      destruct (read_u16_used c) as [-> | [e [X Y]]].
      + destruct (read_u16 E' c) as [[h | e] c']; [| apply out_refl].
        destruct (read_u16_used c') as [-> | [e [X Y]]]; [apply out_refl |].
        destruct (read_u16 E c') as [r c1], (read_u16 E' c') as [r' c2]. cbn [fst] in X, Y. subst. apply out_refl.
      + destruct (read_u16 E c) as [r c1], (read_u16 E' c) as [r' c2]. cbn [fst] in X, Y. subst. apply out_refl.
    - destruct (read_u32 E _) as [r c1], (read_u32 E' _) as [r' c2]. cbn [fst] in X, Y. subst. apply out_refl.
  Qed.
  Lemma ktxstats_loop_used : forall fuel data offset content,
    same_outcome (ktxstats_loop E fuel data offset content) (ktxstats_loop E' fuel data offset content).
  Proof.
    induction fuel as [| fuel IH]; intros; [apply out_refl |]. rewrite !ktxstats_loop_S.
    apply out_bind; [apply uadd_used |]. intros a. apply out_bind; [apply out_refl |]. intros d.
    apply out_bind; [apply block_used |]. intros [b | e]; [| apply out_refl].
    destruct (negb (is_demoinfo (b_hidden_message b))); [apply out_refl |].
    apply out_bind; [apply uadd_used |]. intros o. apply out_bind; [apply uadd_used |]. intros to.
    apply out_bind; [apply out_refl |]. intros part. destruct (b_number b =? 0); [apply out_refl |].
    apply out_bind; [apply uadd_used |]. intros o'. apply IH.
  Qed.
  Lemma ktxstats_string_used : forall data, same_outcome (ktxstats_string E data) (ktxstats_string E' data).
  Proof.
    intros data. unfold ktxstats_string. destruct (rfind data VERSION); [| apply out_refl].
    apply out_bind; [apply usub_used |]. intros o. apply out_bind; [apply ktxstats_loop_used |]. intros c. apply out_refl.
  Qed.
  Lemma ktxstats_v3_used : forall data, same_outcome (ktxstats_v3 E data) (ktxstats_v3 E' data).
  Proof.
    intros data. unfold ktxstats_v3. rewrite KT. apply out_bind; [apply ktxstats_string_used | intros; apply out_refl].
  Qed.
  Lemma server_used : forall data, same_outcome (server E data) (server E' data).
  Proof. intros data. unfold server. apply out_bind; [apply ktxstats_v3_used | intros; apply out_refl]. Qed.

  (** durations *)
  Lemma duration_until_used : forall data t, same_outcome (duration_until_offset E data t) (duration_until_offset E' data t).
  Proof.
    intros data t. unfold duration_until_offset, total_ms_until. apply out_bind; [| intros; apply out_refl].
    apply frame_loop_used. intros total i. destruct (t <=? i_index i); [apply out_refl |].
    apply out_bind; [apply uadd_used | intros; apply out_refl].
  Qed.
  Lemma demo_duration_used : forall data, same_outcome (demo_duration E data) (demo_duration E' data).
  Proof. intros data. unfold demo_duration. apply out_bind; [apply duration_until_used | intros; apply out_refl]. Qed.
  Lemma countdown_used : forall data, same_outcome (countdown_duration E data) (countdown_duration E' data).
  Proof.
    intros data. unfold countdown_duration. rewrite serverinfo_used. apply out_bind; [apply out_refl |]. intros s.
    destruct (is_hoonymode s); [apply out_refl |]. destruct (find data MATCHDATE_NEEDLE); [| apply out_refl].
    apply out_bind; [apply duration_until_used | intros; apply out_refl].
  Qed.
  Lemma match_duration_from_seeking_used : forall data,
    same_outcome (match_duration_from_seeking E data) (match_duration_from_seeking E' data).
  Proof.
    intros data. unfold match_duration_from_seeking. apply out_bind; [apply demo_duration_used |]. intros [d | e]; [| apply out_refl].
    apply out_bind; [apply countdown_used | intros; apply out_refl].
  Qed.
  Lemma match_duration_from_ktxstats_used : forall data,
    same_outcome (match_duration_from_ktxstats E data) (match_duration_from_ktxstats E' data).
  Proof. intros data. unfold match_duration_from_ktxstats. apply out_bind; [apply ktxstats_string_used | intros; apply out_refl]. Qed.
  Lemma match_duration_used : forall data, same_outcome (match_duration E data) (match_duration E' data).
  Proof.
    intros data. unfold match_duration. rewrite serverinfo_used. apply out_bind; [apply out_refl |]. intros s.
    destruct (is_hoonymode s); [apply match_duration_from_seeking_used |].
    apply out_bind; [apply match_duration_from_ktxstats_used |]. intros [d | e]; [apply out_refl | apply match_duration_from_seeking_used].
  Qed.

  (** players and teams *)
  Lemma players_from_parsing_used : forall data, same_outcome (players_from_parsing E data) (players_from_parsing E' data).
  Proof.
    intros data. unfold players_from_parsing. rewrite clients_used, PO.
    apply out_bind; [apply out_refl |]. intros [cs | e]; [| apply out_refl].
    apply out_bind; [apply pings_used |]. intros [ps | e]; [| apply out_refl].
    apply out_bind; [apply frags_used | intros; apply out_refl].
  Qed.
  Lemma players_used : forall data, same_outcome (players E data) (players E' data).
  Proof.
    intros data. unfold players. apply out_bind; [apply ktxstats_v3_used |].
    intros [s | e]; [apply out_refl | apply players_from_parsing_used].
  Qed.
  Lemma team_from_used : forall ps, same_outcome (team_from E ps) (team_from E' ps).
  Proof.
    intros [| p ps]; [apply out_refl |]. unfold team_from. apply out_bind.
    - apply out_foldM. intros [f g] q. apply out_bind; [apply iadd_used |]. intros f'.
      apply out_bind; [apply uadd_used | intros; apply out_refl].
    - intros [f g]. apply out_bind; [| intros; apply out_refl]. unfold majority_color. rewrite CO.
      destruct (map p_color (p :: ps)) as [| c [| c' [| c'' l]]]; try apply out_refl.
      apply out_bind; [| intros; apply out_refl]. unfold color_counts. apply out_foldM. intros m c0.
      apply out_bind; [apply uadd_used | intros; apply out_refl].
  Qed.
  Lemma out_mapM : forall A B (f f' : A -> M B), (forall a, same_outcome (f a) (f' a)) -> forall l, same_outcome (mapM f l) (mapM f' l).
  Proof.
    intros A B f f' H l. induction l as [| a l IH]; [apply out_refl |]. cbn [mapM].
    apply out_bind; [apply H |]. intros b. apply out_bind; [exact IH | intros; apply out_refl].
  Qed.
  Lemma teams_from_players_used : forall ps, same_outcome (teams_from_players E ps) (teams_from_players E' ps).
  Proof.
    intros ps. unfold teams_from_players, team_cmp. rewrite TO, LO.
    apply out_bind; [apply out_mapM; apply team_from_used | intros; apply out_refl].
  Qed.
  Lemma teams_used : forall data, same_outcome (teams E data) (teams E' data).
  Proof.
    intros data. unfold teams. apply out_bind; [apply players_used |]. intros [ps | e]; [| apply out_refl].
    apply out_bind; [apply teams_from_players_used | intros; apply out_refl].
  Qed.
  Lemma teams_from_ktxstats_used : forall s, same_outcome (teams_from_ktxstats E s) (teams_from_ktxstats E' s).
  Proof.
    intros s. unfold teams_from_ktxstats. destruct (players_from_ktxstats s); [| apply out_refl].
    apply out_bind; [apply teams_from_players_used | intros; apply out_refl].
  Qed.
End Two.

(** Validity does not depend on any library: only the number of clients counts. *)
Definition alike {A} (m m' : M (list A)) : Prop :=
  match m, m' with
  | Ret l, Ret l' => length l = length l'
  | Panic p, Panic p' => p = p'
  | OutOfFuel, OutOfFuel => True
  | _, _ => False
  end.

Lemma clientinfo_loop_alike : forall E E' data max fuel offset acc acc', length acc = length acc' ->
  alike (clientinfo_loop E fuel data max offset acc) (clientinfo_loop E' fuel data max offset acc').
Proof.
  intros E E' data max fuel. induction fuel as [| fuel IH]; intros offset acc acc' L; [exact I |].
  rewrite !clientinfo_loop_S.
  repeat first
    [ exact L | reflexivity
    | match goal with |- alike (bind ?m _) (bind ?m _) => destruct m; cbn [bind]; [| reflexivity | exact I] end
    | match goal with |- alike (match ?x with _ => _ end) (match ?x with _ => _ end) => destruct x end
    | apply IH | cbn [alike]; rewrite !app_length, L; reflexivity | rewrite !app_length, L; reflexivity ].
Qed.

Lemma has_clients_used : forall E E' data, has_clients E data = has_clients E' data.
Proof.
  intros E E' data. unfold has_clients, clientinfo, clientinfo_strings. destruct (find data CMD_SPAWN) as [o |]; [| reflexivity].
  pose proof (clientinfo_loop_alike E E' data (o + MAX_PLAYERS * MAX_LOOKAHEAD) (S (length data)) o [] [] eq_refl) as A. revert A.
  destruct (clientinfo_loop E _ _ _ _ _) as [l | p |], (clientinfo_loop E' _ _ _ _ _) as [l' | p' |]; cbn [alike bind]; intros A;
    try contradiction; [| congruence | reflexivity].
  destruct l, l'; try discriminate; reflexivity.
Qed.

Lemma valid_used : forall E E' data, is_valid E data = is_valid E' data.
Proof.
  intros E E' data. unfold is_valid. destruct (negb _); [reflexivity |]. destruct (negb _); [reflexivity |].
  unfold serverinfo, serverinfo_string.
  destruct (slice_to data _); cbn [bind]; [| reflexivity | reflexivity].
  destruct (offsets_between _ _ _) as [o | |]; cbn [bind]; [| reflexivity | reflexivity]. destruct o as [[from to] |]; [| reflexivity].
  destruct (slice data from to); cbn [bind]; [| reflexivity | reflexivity]. apply has_clients_used.
Qed.
