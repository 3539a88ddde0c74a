(** Every public function: builds, termination, absence of overflow. *)
From Coq Require Import Lia ZifyN ZifyNat ZifyBool.
From Verif.Model Require Import Base Env Primitives Prot Frame Message Prints Bytesextra Serverinfo Clientinfo
  Clients FragEvent FlagEvent Frags Flags Float Ping Ktxstats Timezone Matchdate Duration Validate Players.
From Verif.Spec Require Import Mvd Builds.
From Verif.Proofs Require Import BaseFacts FrameFacts PrintFacts PrintProps PingFacts StatsFacts ClientFacts ScoreFacts FlagFacts
  DateFacts OrderFacts TeamFacts EnvFacts.
Open Scope N_scope.

Lemma stops_at_overflow : forall E E' data, stricter E E' -> same_libraries E E' -> same_orders E E' ->
  each_function (@same_unless_overflow) E E' data.
Proof.
  intros E E' data S L O. unfold each_function, has_clients.
  rewrite (is_valid_same E E' L), (serverinfo_string_same E E' L), (serverinfo_same E E' L), (filename_same E E' L),
    (clientinfo_strings_same E E' L), (clientinfo_same E E' L), (clients_same E E' L), (player_clients_same E E' L),
    (spectator_clients_same E E' L), (player_names_same E E' L), (spectator_names_same E E' L), (team_names_same E E' L),
    (has_bot_players_same E E' L), (has_human_players_same E E' L), (matchdate_same E E' L),
    (timestamp_from_epoch_same E E' L), (timestamp_same E E' L).
  repeat match goal with |- _ /\ _ => split end; first
    [ apply agrees_refl
    | apply prints_agrees; assumption | apply frags_agrees; assumption | apply flags_agrees; assumption | apply pings_agrees; assumption
    | apply ktxstats_string_agrees; assumption | apply ktxstats_v3_agrees; assumption | apply server_agrees; assumption
    | apply demo_duration_agrees; assumption | apply countdown_agrees; assumption | apply match_duration_agrees; assumption
    | apply match_duration_from_seeking_agrees; assumption | apply match_duration_from_ktxstats_agrees; assumption
    | apply players_from_parsing_agrees; assumption | apply players_agrees; assumption | apply teams_agrees; assumption ].
Qed.

Lemma each_and : forall (R R' : forall A, M A -> M A -> Prop) E E' data,
  (forall A (m m' : M A), R A m m' -> R' A m' m -> m = m') ->
  each_function R E E' data -> each_function R' E' E data -> each_function (@same_outcome) E E' data.
Proof.
  intros R R' E E' data H X Y. unfold each_function in *.
  repeat match goal with H : _ /\ _ |- _ => destruct H end.
  repeat match goal with |- _ /\ _ => split end; apply H; assumption.
Qed.

Lemma same_checks_same_results : forall E E' data, checked E = checked E' -> same_libraries E E' -> same_orders E E' ->
  each_function (@same_outcome) E E' data.
Proof.
  intros E E' data C L O. apply (each_and (@same_unless_overflow) (@same_unless_overflow)).
  - intros A m m'. apply agrees_antisym.
  - apply stops_at_overflow; [right; exact C | exact L | exact O].
  - apply stops_at_overflow; [right; symmetry; exact C | destruct L; split; auto | destruct O; split; auto].
Qed.

(** ** Bounds on the frame walk *)
Lemma fdi_ok : forall E data index i, from_data_and_index E data index = Ret (Ok i) ->
  index + 2 <= len data /\ 2 <= i_size i /\ i_index i = index /\ i_duration i < 256.
Proof.
  intros E data index i H.
  assert (L : index <= len data).
  { unfold from_data_and_index, slice_from in H. destruct (index <=? len data) eqn:C; [lia | discriminate]. }
  pose proof (firstn_skipn (N.to_nat index) data) as D. set (p := firstn _ data) in *. set (d := skipn _ data) in *.
  assert (LP : len p = index) by (unfold p; rewrite len_firstn; lia).
  rewrite <- D, <- LP in H. destruct (announced d) as [s |] eqn:A.
  - destruct (announced_inv _ _ A) as [time [t [r [R [HS _]]]]]. rewrite (fdi_some E p d s time t r A R) in H.
    destruct (len (p ++ d) <? s); [discriminate |]. injection H as <-. rewrite <- D, len_app, R, !len_cons.
    pose proof (hdr_pos t). pose proof (n_of_lt time). cbn [info_at i_size i_index i_duration]. rewrite LP. lia.
  - destruct (fdi_none E p d A) as [e H']. rewrite H' in H. discriminate.
Qed.

Lemma fdi_fuel : forall E data index, from_data_and_index E data index <> OutOfFuel.
Proof.
  intros E data index. unfold from_data_and_index, slice_from. destruct (index <=? len data); [| discriminate]. cbn [bind].
  destruct (read_byte E _) as [[b | e] c]; [| discriminate]. destruct (read_byte E c) as [[b' | e] c']; [| discriminate].
  destruct (match command_from b' with CRead => read_u32 E _ | CSet => _ | _ => _ end) as [[n | e] c'']; [| discriminate].
  destruct (_ <? _); discriminate.
Qed.

Lemma frame_loop_terminates : forall St E data (body : St -> info -> M (step St)), (forall st i, body st i <> OutOfFuel) ->
  forall fuel index st, (0 < fuel)%nat -> (index <= len data -> (length data + 2 <= fuel + N.to_nat index)%nat) ->
  frame_loop E fuel data body index st <> OutOfFuel.
Proof.
  intros St E data body H fuel. induction fuel as [| fuel IH]; intros index st F1 F2; [lia |]. cbn [frame_loop].
  apply bind_fuel; [apply fdi_fuel |]. intros [i | e] Q; [| discriminate]. apply fdi_ok in Q. destruct Q as [L [S _]].
  apply bind_fuel; [apply H |]. intros [st' | st'] _; [| discriminate]. apply IH; unfold len in *; lia.
Qed.

Lemma walk_terminates : forall St E data (body : St -> info -> M (step St)) index st, (forall st i, body st i <> OutOfFuel) ->
  frame_loop E (frame_fuel data) data body index st <> OutOfFuel.
Proof. intros. apply frame_loop_terminates; [assumption | unfold frame_fuel; lia | unfold frame_fuel; lia]. Qed.

(** ** Termination *)
Ltac fuel := repeat first
  [ discriminate
  | apply bind_fuel; [| intros ? ?]
  | match goal with |- (match ?x with _ => _ end) <> OutOfFuel => destruct x end ].

Lemma body_of_fuel : forall data i, body_of data i <> OutOfFuel.
Proof. intros. apply slice_not_fuel. Qed.
Lemma slice_from_fuel : forall A (d : list A) a, slice_from d a <> OutOfFuel.
Proof. intros. unfold slice_from. destruct (_ <=? _); discriminate. Qed.
Lemma slice_to_fuel : forall A (d : list A) a, slice_to d a <> OutOfFuel.
Proof. intros. unfold slice_to. destruct (_ <=? _); discriminate. Qed.
Lemma uadd_fuel : forall E b x y, uadd E b x y <> OutOfFuel.
Proof. intros. unfold uadd. destruct (_ <? _), (checked E); discriminate. Qed.
Lemma usub_fuel : forall E b x y, usub E b x y <> OutOfFuel.
Proof. intros. unfold usub. destruct (_ <=? _), (checked E); discriminate. Qed.
Lemma iadd_fuel : forall E x y, iadd E x y <> OutOfFuel.
Proof. intros. unfold iadd. destruct (_ && _)%bool, (checked E); discriminate. Qed.

Lemma prints_terminates : forall E data, prints E data <> OutOfFuel.
Proof.
  intros E data. unfold prints. apply bind_fuel; [| discriminate]. apply walk_terminates. intros st i. destruct (0 <? i_body_size i); [| discriminate].
  apply bind_fuel; [apply body_of_fuel |]. intros body _. unfold cursor_new. rewrite read_prints_spec by lia. fuel.
Qed.

Lemma offsets_fuel : forall d a b, offsets_between d a b <> OutOfFuel.
Proof. intros. unfold offsets_between. destruct (find d a); [| discriminate]. apply bind_fuel; [apply slice_from_fuel |]. intros. fuel. Qed.
Lemma serverinfo_string_terminates : forall E data, serverinfo_string E data <> OutOfFuel.
Proof.
  intros. unfold serverinfo_string. apply bind_fuel; [apply slice_to_fuel |]. intros. apply bind_fuel; [apply offsets_fuel |]. intros.
  fuel. apply slice_not_fuel.
Qed.
Lemma serverinfo_terminates : forall E data, serverinfo E data <> OutOfFuel.
Proof. intros. unfold serverinfo. apply bind_fuel; [apply serverinfo_string_terminates |]. intros. fuel. Qed.
Lemma clientinfo_terminates : forall E data, clientinfo E data <> OutOfFuel.
Proof. intros. unfold clientinfo. apply bind_fuel; [apply clientinfo_strings_fuel |]. intros. fuel. Qed.
Lemma clients_terminates : forall E data, clients E data <> OutOfFuel.
Proof. intros. unfold clients. apply bind_fuel; [apply clientinfo_terminates |]. intros. fuel. Qed.
Lemma player_clients_terminates : forall E data, player_clients E data <> OutOfFuel.
Proof. intros. unfold player_clients. apply bind_fuel; [apply clients_terminates |]. intros. fuel. Qed.
Lemma spectator_clients_terminates : forall E data, spectator_clients E data <> OutOfFuel.
Proof. intros. unfold spectator_clients. apply bind_fuel; [apply clients_terminates |]. intros. fuel. Qed.

Lemma print_frames_terminates : forall E data, print_frames E data <> OutOfFuel.
Proof.
  intros E data. apply walk_terminates. intros st i. destruct (i_body_size i =? 0); [discriminate |].
  apply bind_fuel; [apply body_of_fuel |]. intros body _. fuel.
Qed.
Lemma find_team_killer_terminates : forall E data i v, find_team_killer E data i v <> OutOfFuel.
Proof.
  intros. unfold find_team_killer. apply bind_fuel.
  - apply walk_terminates. intros [c nums] i'. destruct (_ <=? _); [discriminate |]. destruct (_ =? 0); [discriminate |].
    apply bind_fuel; [apply body_of_fuel |]. intros body _. cbv zeta. destruct (read_message_type _ _). discriminate.
  - intros. destruct (is_empty _); [discriminate |]. apply bind_fuel; [apply clients_terminates |]. intros. fuel.
Qed.
Lemma frag_add_fuel : forall E n d m, frag_add E n d m <> OutOfFuel.
Proof. intros. unfold frag_add. apply bind_fuel; [apply iadd_fuel | discriminate]. Qed.
Lemma frags_terminates : forall E data, frags_per_player_name E data <> OutOfFuel.
Proof.
  intros. unfold frags_per_player_name. apply bind_fuel; [apply print_frames_terminates |]. intros pfs _. apply foldM_fuel.
  intros m pf _. unfold score_print. destruct (frag_event_from _) as [[]|]; try apply frag_add_fuel; try discriminate.
  apply bind_fuel; [apply find_team_killer_terminates |]. intros [n | e] _; [apply frag_add_fuel | discriminate].
Qed.


Lemma flag_apply_fuel : forall E e p, flag_apply E e p <> OutOfFuel.
Proof. intros E e [a b c d f g h]. unfold flag_apply. destruct e; (apply bind_fuel; [apply uadd_fuel | discriminate]). Qed.
Lemma flags_terminates : forall E data, flag_events_per_player_name E data <> OutOfFuel.
Proof.
  intros. unfold flag_events_per_player_name. apply bind_fuel.
  - apply walk_terminates. intros st i. destruct (_ =? 0); [discriminate |]. apply bind_fuel; [apply body_of_fuel |]. intros body _.
    destruct (negb _); [discriminate |]. unfold cursor_new.
    rewrite (read_flag_prints_spec E _ _ (scan_n_scans (length body) body (le_n _))) by lia. cbn [bind]. fuel.
  - intros ps _. apply foldM_fuel. intros m p _. unfold count_flag_print. destruct (flag_event_from _); [| discriminate].
    apply bind_fuel; [apply flag_apply_fuel | discriminate].
Qed.

Lemma average_fuel : forall E l, average E l <> OutOfFuel.
Proof. intros. unfold average. apply bind_fuel; [| discriminate]. apply foldM_fuel. intros. apply uadd_fuel. Qed.
Lemma pings_terminates : forall E data, ping_per_player_number E data <> OutOfFuel.
Proof.
  intros. unfold ping_per_player_number. apply bind_fuel.
  - apply walk_terminates. intros [c t] i. apply bind_fuel.
    + destruct (0 <? _); [| discriminate]. apply bind_fuel; [apply body_of_fuel |]. intros body _. unfold cursor_new.
      rewrite read_pings_spec by lia. discriminate.
    + intros st _. destruct (_ <=? _); discriminate.
  - intros st _. destruct (is_empty _); [discriminate |]. apply bind_fuel; [| discriminate]. apply foldM_fuel.
    intros m [p l] _. apply bind_fuel; [apply average_fuel | discriminate].
Qed.

Lemma uadd_small : forall E b x y, x + y < b -> uadd E b x y = Ret (x + y).
Proof. intros. unfold uadd. destruct (x + y <? b) eqn:C; [reflexivity | lia]. Qed.
Lemma slice_bounds : forall A (d : list A) a b x, slice d a b = Ret x -> a <= b <= len d.
Proof. intros A d a b x H. unfold slice in H. destruct ((a <=? b) && (b <=? len d))%bool eqn:C; [lia | discriminate]. Qed.
Lemma block_fuel : forall E d, block_try_from E d <> OutOfFuel.
Proof.
  intros. unfold block_try_from. repeat match goal with |- context [let (_, _) := ?x in _] => destruct x end. fuel; first [apply usub_fuel | apply uadd_fuel].
Qed.

Lemma ktxstats_step : forall E fuel data offset content, len data < 2 ^ 63 ->
  (forall to content', (offset <= len data -> offset + 18 <= to) -> to <= len data ->
     ktxstats_loop E fuel data to content' <> OutOfFuel) ->
  ktxstats_loop E (S fuel) data offset content <> OutOfFuel.
Proof.
  intros E fuel data offset content B H. rewrite ktxstats_loop_S.
  apply bind_fuel; [apply uadd_fuel |]. intros a _. apply bind_fuel; [apply slice_from_fuel |]. intros d _.
  apply bind_fuel; [apply block_fuel |]. intros [b | e] _; [| discriminate].
  destruct (negb _); [discriminate |]. apply bind_fuel; [apply uadd_fuel |]. intros o O.
  apply bind_fuel; [apply uadd_fuel |]. intros to T. apply bind_fuel; [apply slice_not_fuel |]. intros part P.
  destruct (b_number b =? 0); [discriminate |]. rewrite T. cbn [bind]. apply slice_bounds in P. apply H; [| lia].
  intros L. rewrite uadd_small in O by (unfold usize_bound in *; lia). injection O as <-. lia.
Qed.

Lemma ktxstats_loop_terminates : forall E data, len data < 2 ^ 63 -> forall fuel offset content, offset <= len data ->
  (0 < fuel)%nat -> len data < offset + 18 * N.of_nat fuel -> ktxstats_loop E fuel data offset content <> OutOfFuel.
Proof.
  intros E data B. induction fuel as [| fuel IH]; intros offset content L F1 F2; [lia |]. apply ktxstats_step; [exact B |].
  intros to c' T1 T2. specialize (T1 L). apply IH; lia.
Qed.

Lemma ktxstats_string_terminates : forall E data, len data < 2 ^ 63 -> ktxstats_string E data <> OutOfFuel.
Proof.
  intros E data B. unfold ktxstats_string. destruct (rfind data VERSION) as [o |] eqn:R; [| discriminate].
  apply bind_fuel; [apply usub_fuel |]. intros o' _. apply bind_fuel; [| intros; fuel]. apply ktxstats_step; [exact B |].
  intros to c _ T. assert (0 < len data) by (destruct data; [discriminate R | rewrite len_cons; lia]).
  apply ktxstats_loop_terminates; unfold len in *; lia.
Qed.
Lemma ktxstats_v3_terminates : forall E data, len data < 2 ^ 63 -> ktxstats_v3 E data <> OutOfFuel.
Proof. intros. unfold ktxstats_v3. apply bind_fuel; [apply ktxstats_string_terminates; assumption |]. intros. fuel. Qed.
Lemma server_terminates : forall E data, len data < 2 ^ 63 -> server E data <> OutOfFuel.
Proof. intros. unfold server. apply bind_fuel; [apply ktxstats_v3_terminates; assumption |]. intros. fuel. Qed.

Lemma from_secs_fuel : forall f, from_secs f <> OutOfFuel.
Proof. intros. unfold from_secs. fuel. Qed.
Lemma duration_until_fuel : forall E data o, duration_until_offset E data o <> OutOfFuel.
Proof.
  intros. unfold duration_until_offset. apply bind_fuel.
  - apply walk_terminates. intros st i. destruct (_ <=? _); [discriminate |]. apply bind_fuel; [apply uadd_fuel | discriminate].
  - intros ms _. apply from_secs_fuel.
Qed.
Lemma demo_duration_terminates : forall E data, demo_duration E data <> OutOfFuel.
Proof. intros. unfold demo_duration. apply bind_fuel; [apply duration_until_fuel | discriminate]. Qed.
Lemma countdown_terminates : forall E data, countdown_duration E data <> OutOfFuel.
Proof.
  intros. unfold countdown_duration. apply bind_fuel; [apply serverinfo_terminates |]. intros. destruct (is_hoonymode _); [discriminate |].
  destruct (find _ _); [| discriminate]. apply bind_fuel; [apply duration_until_fuel | discriminate].
Qed.
Lemma seeking_terminates : forall E data, match_duration_from_seeking E data <> OutOfFuel.
Proof.
  intros. unfold match_duration_from_seeking. apply bind_fuel; [apply demo_duration_terminates |]. intros [d | e] _; [| discriminate].
  apply bind_fuel; [apply countdown_terminates |]. intros. apply bind_fuel; [| discriminate]. unfold duration_sub. fuel.
Qed.
Lemma str_slice_fuel : forall s a b, str_slice s a b <> OutOfFuel.
Proof. intros. unfold str_slice. fuel. Qed.
Lemma stats_duration_terminates : forall E data, len data < 2 ^ 63 -> match_duration_from_ktxstats E data <> OutOfFuel.
Proof.
  intros. unfold match_duration_from_ktxstats. apply bind_fuel; [apply ktxstats_string_terminates; assumption |]. intros [s | e] _; [| discriminate].
  apply bind_fuel; [apply offsets_fuel |]. intros [[f t] |] _; [| discriminate]. apply bind_fuel; [apply str_slice_fuel |]. intros x _.
  destruct (parse_f64 x); [| discriminate]. apply bind_fuel; [apply from_secs_fuel | discriminate].
Qed.
Lemma match_duration_terminates : forall E data, len data < 2 ^ 63 -> match_duration E data <> OutOfFuel.
Proof.
  intros. unfold match_duration. apply bind_fuel; [apply serverinfo_terminates |]. intros s _. destruct (is_hoonymode s); [apply seeking_terminates |].
  apply bind_fuel; [apply stats_duration_terminates; assumption |]. intros [d | e] _; [discriminate | apply seeking_terminates].
Qed.
Lemma epoch_terminates : forall E data, timestamp_from_epoch E data <> OutOfFuel.
Proof. intros. unfold timestamp_from_epoch. apply bind_fuel; [apply serverinfo_terminates |]. intros. fuel. Qed.
Lemma timestamp_terminates : forall E data, timestamp E data <> OutOfFuel.
Proof. intros. unfold timestamp. apply bind_fuel; [apply epoch_terminates |]. intros [t | e] _; [discriminate | apply matchdate_no_fuel]. Qed.
Lemma parsing_terminates : forall E data, players_from_parsing E data <> OutOfFuel.
Proof.
  intros. unfold players_from_parsing. apply bind_fuel; [apply clients_terminates |]. intros [cs | e] _; [| discriminate].
  apply bind_fuel; [apply pings_terminates |]. intros [ps | e] _; [| discriminate].
  apply bind_fuel; [apply frags_terminates | discriminate].
Qed.
Lemma players_terminates : forall E data, len data < 2 ^ 63 -> players E data <> OutOfFuel.
Proof.
  intros. unfold players. apply bind_fuel; [apply ktxstats_v3_terminates; assumption |]. intros [s | e] _; [discriminate | apply parsing_terminates].
Qed.
Lemma mapM_fuel : forall A B (f : A -> M B) l, (forall a, f a <> OutOfFuel) -> mapM f l <> OutOfFuel.
Proof. intros A B f l H. induction l as [| a l IH]; [discriminate |]. cbn [mapM]. apply bind_fuel; [apply H |]. intros. apply bind_fuel; [exact IH | discriminate]. Qed.
Lemma team_from_fuel : forall E ps, team_from E ps <> OutOfFuel.
Proof.
  intros E ps. unfold team_from. destruct ps as [| p ps]; [discriminate |]. apply bind_fuel.
  - apply foldM_fuel. intros [f g] q _. apply bind_fuel; [apply iadd_fuel |]. intros. apply bind_fuel; [apply uadd_fuel | discriminate].
  - intros [f g] _. apply bind_fuel; [| discriminate]. unfold majority_color, color_counts.
    destruct (map p_color (p :: ps)) as [| c1 [| c2 [| c3 l]]]; try discriminate. apply bind_fuel; [| discriminate].
    apply foldM_fuel. intros. apply bind_fuel; [apply uadd_fuel | discriminate].
Qed.
Lemma teams_terminates : forall E data, len data < 2 ^ 63 -> teams E data <> OutOfFuel.
Proof.
  intros. unfold teams. apply bind_fuel; [apply players_terminates; assumption |]. intros [ps | e] _; [| discriminate].
  apply bind_fuel; [| discriminate]. unfold teams_from_players. apply bind_fuel; [| discriminate]. apply mapM_fuel. apply team_from_fuel.
Qed.

Lemma has_clients_terminates : forall E data, has_clients E data <> OutOfFuel.
Proof. intros. unfold has_clients. apply bind_fuel; [apply clientinfo_terminates | discriminate]. Qed.
Lemma is_valid_terminates : forall E data, is_valid E data <> OutOfFuel.
Proof.
  intros. unfold is_valid. destruct (negb _); [discriminate |]. destruct (negb _); [discriminate |].
  apply bind_fuel; [apply serverinfo_terminates |]. intros s _. destruct (negb _); [discriminate | apply has_clients_terminates].
Qed.
Lemma filename_terminates : forall E data, filename E data <> OutOfFuel.
Proof. intros. unfold filename. apply bind_fuel; [apply serverinfo_terminates |]. intros. fuel. Qed.
Lemma names_terminates : forall E data, player_names E data <> OutOfFuel.
Proof. intros. unfold player_names. apply bind_fuel; [apply player_clients_terminates |]. intros. fuel. Qed.
Lemma spectator_names_terminates : forall E data, spectator_names E data <> OutOfFuel.
Proof. intros. unfold spectator_names. apply bind_fuel; [apply spectator_clients_terminates |]. intros. fuel. Qed.
Lemma team_names_terminates : forall E data, team_names E data <> OutOfFuel.
Proof. intros. unfold team_names. apply bind_fuel; [apply player_clients_terminates |]. intros. fuel. Qed.
Lemma has_bot_terminates : forall E data, has_bot_players E data <> OutOfFuel.
Proof. intros. unfold has_bot_players. apply bind_fuel; [apply player_clients_terminates |]. intros. fuel. Qed.
Lemma has_human_terminates : forall E data, has_human_players E data <> OutOfFuel.
Proof. intros. unfold has_human_players. apply bind_fuel; [apply player_clients_terminates |]. intros. fuel. Qed.

Lemma everything_terminates : forall E data, len data < 2 ^ 63 ->
  each_function (fun A m _ => terminates m) E E data.
Proof.
  intros E data B. unfold each_function, terminates.
  repeat match goal with |- _ /\ _ => split end; first
  [ apply serverinfo_string_terminates | apply serverinfo_terminates | apply clientinfo_strings_fuel | apply clientinfo_terminates
  | apply clients_terminates | apply player_clients_terminates | apply spectator_clients_terminates
  | apply prints_terminates | apply frags_terminates | apply flags_terminates | apply pings_terminates
  | apply ktxstats_string_terminates; exact B | apply ktxstats_v3_terminates; exact B | apply server_terminates; exact B
  | apply demo_duration_terminates | apply countdown_terminates | apply match_duration_terminates; exact B
  | apply seeking_terminates | apply stats_duration_terminates; exact B | apply matchdate_no_fuel | apply epoch_terminates
    | apply timestamp_terminates | apply parsing_terminates | apply players_terminates; exact B | apply teams_terminates; exact B
  | apply has_clients_terminates | apply is_valid_terminates | apply filename_terminates | apply names_terminates
  | apply spectator_names_terminates | apply team_names_terminates | apply has_bot_terminates | apply has_human_terminates ].
Qed.

(** ** No difference between builds *)
Lemma frame_loop_same : forall St E E' (Inv : N -> St -> Prop) data (body body' : St -> info -> M (step St)),
  (forall st i, Inv (i_index i) st -> i_index i + 2 <= len data -> 2 <= i_size i -> i_duration i < 256 ->
     body st i = body' st i /\ forall st', body st i = Ret (Continue st') -> Inv (i_index i + i_size i) st') ->
  forall fuel index st, Inv index st -> frame_loop E fuel data body index st = frame_loop E' fuel data body' index st.
Proof.
  intros St E E' Inv data body body' H fuel. induction fuel as [| fuel IH]; intros index st I; [reflexivity |].
  cbn [frame_loop]. rewrite (frame_same E E'). destruct (from_data_and_index E' data index) as [[i | e] | |] eqn:F; try reflexivity.
  cbn [bind]. apply fdi_ok in F. destruct F as [L [S [<- D]]]. destruct (H st i I L S D) as [B K]. rewrite <- B.
  destruct (body st i) as [[st' | st'] | |]; try reflexivity. cbn [bind]. apply IH. apply K. reflexivity.
Qed.

Lemma frame_loop_post : forall St E (Inv : N -> St -> Prop) data (body : St -> info -> M (step St)),
  (forall st i st', body st i = Ret (Break st') -> False) ->
  (forall st i st', Inv (i_index i) st -> 2 <= i_size i -> body st i = Ret (Continue st') -> Inv (i_index i + i_size i) st') ->
  forall fuel index st r, Inv index st -> frame_loop E fuel data body index st = Ret r -> exists idx, idx <= len data /\ Inv idx r.
Proof.
  intros St E Inv data body HB HC fuel. induction fuel as [| fuel IH]; intros index st r I H; [discriminate |].
  cbn [frame_loop] in H. destruct (from_data_and_index E data index) as [[i | e] | |] eqn:F; try discriminate; cbn [bind] in H.
  - apply fdi_ok in F. destruct F as [L [S [<- D]]]. destruct (body st i) as [[st' | st'] | |] eqn:B; try discriminate.
    + cbn [bind] in H. apply IH in H; [exact H |]. apply (HC _ _ _ I S B).
    + exfalso. apply (HB _ _ _ B).
  - injection H as <-. exists index. split; [| exact I]. unfold from_data_and_index, slice_from in F.
    destruct (index <=? len data) eqn:C; [lia | discriminate].
Qed.

Lemma bind_ext : forall A B (m : M A) (k k' : A -> M B), (forall a, m = Ret a -> k a = k' a) -> bind m k = bind m k'.
Proof. intros A B [a | p |] k k' H; [apply H; reflexivity | reflexivity | reflexivity]. Qed.

Lemma print_frames_count : forall E data l, print_frames E data = Ret l -> 2 * len l <= len data.
Proof.
  intros E data l H. unfold print_frames in H.
  apply (frame_loop_post _ E (fun idx (l : list (Print * N)) => 2 * len l <= idx) data) in H;
    [destruct H as [idx [I J]]; lia | | | rewrite len_nil; lia].
  - intros st i st' B. destruct (i_body_size i =? 0); [discriminate |]. destruct (body_of data i); try discriminate. cbn [bind] in B.
    destruct (read_message_type _ _) as [t c]. destruct (is_ok_and _ _); [| discriminate]. destruct (fst _); [| discriminate].
    destruct (_ && _)%bool; discriminate.
  - intros st i st' I S B. destruct (i_body_size i =? 0); [injection B as <-; lia |].
    destruct (body_of data i); try discriminate. cbn [bind] in B.
    destruct (read_message_type _ _) as [t c]. destruct (is_ok_and _ _); [| injection B as <-; lia].
    destruct (fst _); [| injection B as <-; lia].
    destruct (_ && _)%bool; injection B as <-; [| lia]. rewrite len_app, len_cons, len_nil. lia.
Qed.

Lemma iadd_small : forall E a b, (-2147483648 <= a + b <= 2147483647)%Z -> iadd E a b = Ret (a + b)%Z.
Proof.
  intros. unfold iadd. destruct ((i32_min <=? a + b) && (a + b <=? i32_max))%Z eqn:C; [reflexivity | unfold i32_min, i32_max in C; lia].
Qed.

Section Same.
  Context (E E' : env) (L : same_libraries E E').

  Lemma prints_same : forall data, prints E data = prints E' data.
  Proof.
    intros data. unfold prints. f_equal. apply (frame_loop_same _ _ _ (fun _ _ => True)); [| exact I].
    intros st i _ _ _ _. split; [| auto]. destruct (0 <? i_body_size i); [| reflexivity]. apply bind_ext. intros body _.
    rewrite (read_prints_same E E'). reflexivity.
  Qed.

  Lemma print_frames_same : forall data, print_frames E data = print_frames E' data.
  Proof.
    intros data. unfold print_frames. apply (frame_loop_same _ _ _ (fun _ _ => True)); [| exact I].
    intros st i _ _ _ _. split; [| auto]. destruct (i_body_size i =? 0); [reflexivity |]. apply bind_ext. intros body _.
    rewrite (read_message_type_same E E'). destruct (read_message_type E' _) as [t c]. rewrite (read_print_same E E'). reflexivity.
  Qed.

  Lemma find_team_killer_same : forall data idx v, find_team_killer E data idx v = find_team_killer E' data idx v.
  Proof.
    intros data idx v. unfold find_team_killer. rewrite (clients_same E E' L). f_equal. unfold nearby_frag_updates.
    apply (frame_loop_same _ _ _ (fun _ _ => True)); [| exact I].
    intros [c nums] i _ _ _ _. split; [| auto]. destruct (_ <=? _); [reflexivity |]. destruct (_ =? 0); [reflexivity |]. apply bind_ext.
    intros body _. cbv zeta. rewrite (read_print_same E E'), (read_message_type_same E E').
    destruct (read_message_type E' _) as [t cu]. rewrite (read_update_frags_same E E'). reflexivity.
  Qed.

  Definition bounded (b : Z) (m : list (str * Z)) : Prop := forall k, (Z.abs (aget_or beq k 0 m) <= b)%Z.

  Lemma frag_add_same : forall b n d m, bounded b m -> (b + 2 <= 2147483647)%Z -> (-2 <= d <= 2)%Z ->
    frag_add E n d m = frag_add E' n d m /\ forall m', frag_add E n d m = Ret m' -> bounded (b + 2) m'.
  Proof.
    intros b n d m B Lb D. unfold frag_add. pose proof (B n) as Bn. rewrite !iadd_small by lia. split; [reflexivity |].
    cbn [bind]. intros m' H. injection H as <-. intros k. rewrite (aget_or_aset beq beq_eq). destruct (beq k n); [lia |]. specialize (B k). lia.
  Qed.

  Lemma frags_same : forall data, len data < 2147483648 -> frags_per_player_name E data = frags_per_player_name E' data.
  Proof.
    intros data B. unfold frags_per_player_name. rewrite <- print_frames_same. apply bind_ext. intros pfs P. apply print_frames_count in P.
    assert (G : forall b m, bounded b m -> (0 <= b)%Z -> (b + 2 * Z.of_nat (length pfs) <= 2147483647)%Z ->
      foldM (score_print E data) pfs m = foldM (score_print E' data) pfs m).
    { clear P. induction pfs as [| [p idx] pfs IH]; intros b m Bm B0 Bl; [reflexivity |]. cbn [foldM length] in *.
      assert (X : score_print E data m (p, idx) = score_print E' data m (p, idx) /\
        forall m', score_print E data m (p, idx) = Ret m' -> bounded (b + 2) m').
      { unfold score_print. rewrite <- (sl_unicode _ _ L). cbn [fst snd].
        assert (K : bounded (b + 2) m) by (intros k; specialize (Bm k); lia).
        destruct (frag_event_from _) as [[q | q | q | q v | q | q] | e];
          try (apply frag_add_same; [exact Bm | lia | lia]);
          [| split; [reflexivity | intros m' H; injection H as <-; exact K]].
        rewrite <- find_team_killer_same. destruct (find_team_killer E data idx q) as [[name | e] | |]; cbn [bind].
        - apply frag_add_same; [exact Bm | lia | lia].
        - split; [reflexivity | intros m' H; injection H as <-; exact K].
        - split; [reflexivity | discriminate].
        - split; [reflexivity | discriminate]. }
      destruct X as [<- X]. apply bind_ext. intros m' M. apply (IH (b + 2)%Z); [apply X; exact M | lia | lia]. }
    apply (G 0%Z); [intros k; cbn; lia | lia | unfold len in *; lia].
  Qed.

  Lemma duration_until_same : forall data o, len data < 33554432 -> duration_until_offset E data o = duration_until_offset E' data o.
  Proof.
    intros data o B. unfold duration_until_offset. f_equal. unfold total_ms_until.
    apply (frame_loop_same _ _ _ (fun idx ms => 2 * ms <= 255 * idx)); [| lia].
    intros ms i I1 I2 I3 I4. destruct (o <=? i_index i); [split; [reflexivity | discriminate] |].
    rewrite !uadd_small by (unfold u32_bound; lia). split; [reflexivity |]. cbn [bind]. intros st' H. injection H as <-. lia.
  Qed.

  Lemma demo_duration_same : forall data, len data < 33554432 -> demo_duration E data = demo_duration E' data.
  Proof. intros data B. unfold demo_duration. rewrite duration_until_same by exact B. reflexivity. Qed.
  Lemma countdown_same : forall data, len data < 33554432 -> countdown_duration E data = countdown_duration E' data.
  Proof.
    intros data B. unfold countdown_duration. rewrite (serverinfo_same E E' L). apply bind_ext. intros s _. destruct (is_hoonymode s); [reflexivity |].
    destruct (find _ _); [| reflexivity]. rewrite duration_until_same by exact B. reflexivity.
  Qed.
  Lemma seeking_same : forall data, len data < 33554432 -> match_duration_from_seeking E data = match_duration_from_seeking E' data.
  Proof. intros data B. unfold match_duration_from_seeking. rewrite demo_duration_same, countdown_same by exact B. reflexivity. Qed.
End Same.
