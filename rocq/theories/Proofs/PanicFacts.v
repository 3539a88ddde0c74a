(** Panics of every public function *)
From Coq Require Import Lia ZifyN ZifyNat ZifyBool.
From Verif.Model Require Import Base Env Primitives Prot Frame Message Prints Bytesextra Serverinfo Clientinfo
  Clients FragEvent FlagEvent Frags Flags Float Ping Ktxstats Timezone Matchdate Duration Validate Players.
From Verif.Spec Require Import Occ Mvd Messages Times Texts Clock Userinfo Dates Utf8 Obituary Score Flags Pings Panics.
From Verif.Proofs Require Import BaseFacts FrameFacts PrintFacts PrintProps TextFacts PingFacts StatsFacts ClientFacts ObituaryFacts ScoreFacts FlagFacts
  DateFacts LiteralFacts TimeFacts WalkProps UserinfoFacts ClockFacts BuildFacts.
Open Scope N_scope.

Definition within (E : env) (ps : list panic) {A} (m : M A) : Prop := panics_only E ps m.

Lemma within_ret : forall E ps A (a : A), within E ps (Ret a).
Proof. intros E ps A a p H. discriminate. Qed.
Lemma within_bind : forall E ps A B (m : M A) (k : A -> M B), within E ps m -> (forall a, m = Ret a -> within E ps (k a)) ->
  within E ps (bind m k).
Proof.
  intros E ps A B [a | p |] k H K q Q; cbn [bind] in Q.
  - exact (K a eq_refl q Q).
  - injection Q as <-. exact (H p eq_refl).
  - discriminate.
Qed.
Lemma within_more : forall E ps qs A (m : M A), within E ps m -> incl ps qs -> within E qs m.
Proof. intros E ps qs A m H I p Q. destruct (H p Q) as [X Y]. split; [apply I; exact X | exact Y]. Qed.
Lemma within_foldM : forall E ps A B (f : A -> B -> M A) l a, (forall a b, within E ps (f a b)) -> within E ps (foldM f l a).
Proof.
  intros E ps A B f l. induction l as [| x l IH]; intros a H; [apply within_ret |]. cbn [foldM].
  apply within_bind; [apply H |]. intros a' _. apply IH. exact H.
Qed.
Lemma within_mapM : forall E ps A B (f : A -> M B) l, (forall a, within E ps (f a)) -> within E ps (mapM f l).
Proof.
  intros E ps A B f l H. induction l as [| a l IH]; [apply within_ret |]. cbn [mapM]. apply within_bind; [apply H |].
  intros. apply within_bind; [exact IH | intros; apply within_ret].
Qed.
Lemma within_slice : forall E ps A (d : list A) a b, In PSlice ps -> within E ps (slice d a b).
Proof. intros E ps A d a b I p H. unfold slice in H. destruct (_ && _); [discriminate |]. injection H as <-. split; [exact I | discriminate]. Qed.
Lemma within_slice_from : forall E ps A (d : list A) a, In PSlice ps -> within E ps (slice_from d a).
Proof. intros E ps A d a I p H. unfold slice_from in H. destruct (_ <=? _); [discriminate |]. injection H as <-. split; [exact I | discriminate]. Qed.
Lemma within_slice_to : forall E ps A (d : list A) a, In PSlice ps -> within E ps (slice_to d a).
Proof. intros E ps A d a I p H. unfold slice_to in H. destruct (_ <=? _); [discriminate |]. injection H as <-. split; [exact I | discriminate]. Qed.
Lemma within_uadd : forall E ps b x y, In POverflow ps -> within E ps (uadd E b x y).
Proof. intros E ps b x y I p H. unfold uadd in H. destruct (_ <? _); [discriminate |]. destruct (checked E); [| discriminate]. injection H as <-. auto. Qed.
Lemma within_usub : forall E ps b x y, In POverflow ps -> within E ps (usub E b x y).
Proof. intros E ps b x y I p H. unfold usub in H. destruct (_ <=? _); [discriminate |]. destruct (checked E); [| discriminate]. injection H as <-. auto. Qed.
Lemma within_iadd : forall E ps x y, In POverflow ps -> within E ps (iadd E x y).
Proof. intros E ps x y I p H. unfold iadd in H. destruct (_ && _); [discriminate |]. destruct (checked E); [| discriminate]. injection H as <-. auto. Qed.

Ltac member := cbn [In]; repeat (first [left; reflexivity | right]).
Ltac calm := repeat first
  [ apply within_ret
  | apply within_slice; member | apply within_slice_from; member | apply within_slice_to; member
  | apply within_uadd; member | apply within_usub; member | apply within_iadd; member
  | assumption
  | apply within_bind; [| intros ? ?]
  | match goal with |- within _ _ (match ?x with _ => _ end) => destruct x end ].

Lemma within_fdi : forall E ps data index, In PSlice ps -> within E ps (from_data_and_index E data index).
Proof.
  intros E ps data index I. unfold from_data_and_index. apply within_bind; [apply within_slice_from; exact I |]. intros d _.
  destruct (read_byte E _) as [[b | e] c]; [| apply within_ret]. destruct (read_byte E c) as [[b' | e] c']; [| apply within_ret].
  destruct (match command_from b' with CRead => read_u32 E _ | CSet => _ | _ => _ end) as [[n | e] c'']; [| apply within_ret].
  destruct (_ <? _); apply within_ret.
Qed.

Lemma within_walk : forall E ps data St (body : St -> info -> M (Base.step St)), In PSlice ps -> (forall st i, within E ps (body st i)) ->
  forall fuel index st, within E ps (frame_loop E fuel data body index st).
Proof.
  intros E ps data St body I H fuel. induction fuel as [| fuel IH]; intros index st; [intros p Q; discriminate |]. cbn [frame_loop].
  apply within_bind; [apply within_fdi; exact I |]. intros [i | e] _; [| apply within_ret].
  apply within_bind; [apply H |]. intros [st' | st'] _; [apply IH | apply within_ret].
Qed.

Definition slices : list panic := [PSlice].
Definition slices_sums : list panic := [PSlice; POverflow].

Lemma within_body : forall E ps data i, In PSlice ps -> within E ps (body_of data i).
Proof. intros. apply within_slice. assumption. Qed.

Lemma prints_within : forall E data, within E slices (prints E data).
Proof.
  intros E data. unfold prints. apply within_bind; [| intros; apply within_ret]. apply within_walk; [member |]. intros st i.
  destruct (0 <? i_body_size i); [| apply within_ret].
  apply within_bind; [apply within_body; member |]. intros body _. unfold cursor_new. rewrite read_prints_spec by lia. calm.
Qed.
Lemma offsets_within : forall E d a b, within E slices (offsets_between d a b).
Proof. intros. unfold offsets_between, slices. destruct (find d a); calm. Qed.
Lemma serverinfo_string_within : forall E data, within E slices (serverinfo_string E data).
Proof.
  intros. unfold serverinfo_string. apply within_bind; [apply within_slice_to; member |]. intros. apply within_bind; [apply offsets_within |]. intros.
  unfold slices. calm.
Qed.
Lemma serverinfo_within : forall E data, within E slices (serverinfo E data).
Proof. intros. unfold serverinfo. apply within_bind; [apply serverinfo_string_within |]. intros. calm. Qed.
Lemma filename_within : forall E data, within E slices (filename E data).
Proof. intros. unfold filename. apply within_bind; [apply serverinfo_within |]. intros. calm. Qed.

Lemma strings_within : forall E data, within E slices (clientinfo_strings E data).
Proof.
  intros E data p H. assert (In p slices /\ p <> POverflow) as [X Y]; [| split; [exact X | intros Z; contradiction]].
  destruct (find data spawn_mark) as [o |] eqn:F.
  - apply find_some in F. apply (proj2 (clientinfo_exact_proof E data o F)) in H. destruct H as [-> _]. split; [member | discriminate].
  - exfalso. unfold clientinfo_strings in H. change CMD_SPAWN with spawn_mark in H. rewrite F in H. discriminate.
Qed.
Lemma clientinfo_within : forall E data, within E slices (clientinfo E data).
Proof. intros. unfold clientinfo. apply within_bind; [apply strings_within |]. intros. calm. Qed.
Lemma clients_within : forall E data, within E slices (clients E data).
Proof. intros. unfold clients. apply within_bind; [apply clientinfo_within |]. intros. calm. Qed.
Lemma player_clients_within : forall E data, within E slices (player_clients E data).
Proof. intros. unfold player_clients. apply within_bind; [apply clients_within |]. intros. calm. Qed.
Lemma spectator_clients_within : forall E data, within E slices (spectator_clients E data).
Proof. intros. unfold spectator_clients. apply within_bind; [apply clients_within |]. intros. calm. Qed.
Lemma player_names_within : forall E data, within E slices (player_names E data).
Proof. intros. unfold player_names. apply within_bind; [apply player_clients_within |]. intros. calm. Qed.
Lemma spectator_names_within : forall E data, within E slices (spectator_names E data).
Proof. intros. unfold spectator_names. apply within_bind; [apply spectator_clients_within |]. intros. calm. Qed.
Lemma team_names_within : forall E data, within E slices (team_names E data).
Proof. intros. unfold team_names. apply within_bind; [apply player_clients_within |]. intros. calm. Qed.
Lemma bots_within : forall E data, within E slices (has_bot_players E data).
Proof. intros. unfold has_bot_players. apply within_bind; [apply player_clients_within |]. intros. calm. Qed.
Lemma humans_within : forall E data, within E slices (has_human_players E data).
Proof. intros. unfold has_human_players. apply within_bind; [apply player_clients_within |]. intros. calm. Qed.
Lemma has_clients_within : forall E data, within E slices (has_clients E data).
Proof. intros. unfold has_clients. apply within_bind; [apply clientinfo_within |]. intros. calm. Qed.
Lemma is_valid_within : forall E data, within E slices (is_valid E data).
Proof.
  intros. unfold is_valid. destruct (negb _); [apply within_ret |]. destruct (negb _); [apply within_ret |].
  apply within_bind; [apply serverinfo_within |]. intros s _. destruct (negb _); [apply within_ret | apply has_clients_within].
Qed.

Lemma two_kinds : forall E A (m : M A), within E slices m -> within E slices_sums m.
Proof. intros E A m H. apply (within_more _ _ _ _ _ H). intros p [<- | []]. left. reflexivity. Qed.

Lemma print_frames_within : forall E data, within E slices_sums (print_frames E data).
Proof.
  intros E data. apply within_walk; [member |]. intros st i. destruct (i_body_size i =? 0); [apply within_ret |].
  apply within_bind; [apply within_body; member |]. intros body _. unfold slices_sums. calm.
Qed.
Lemma team_killer_within : forall E data i v, within E slices_sums (find_team_killer E data i v).
Proof.
  intros. unfold find_team_killer. apply within_bind.
  - apply within_walk; [member |]. intros [c nums] i'. destruct (_ <=? _); [apply within_ret |]. destruct (_ =? 0); [apply within_ret |].
    apply within_bind; [apply within_body; member |]. intros body _. cbv zeta. destruct (read_message_type _ _). apply within_ret.
  - intros. destruct (is_empty _); [apply within_ret |]. apply within_bind; [apply two_kinds; apply clients_within |]. intros. calm.
Qed.
Lemma frag_add_within : forall E n d m, within E slices_sums (frag_add E n d m).
Proof. intros. unfold frag_add, slices_sums. calm. Qed.
Lemma frags_within : forall E data, within E slices_sums (frags_per_player_name E data).
Proof.
  intros. unfold frags_per_player_name. apply within_bind; [apply print_frames_within |]. intros pfs _. apply within_foldM.
  intros m pf. unfold score_print. destruct (frag_event_from _) as [[]|]; try apply frag_add_within; try apply within_ret.
  apply within_bind; [apply team_killer_within |]. intros [n | e] _; [apply frag_add_within | apply within_ret].
Qed.
Lemma flags_within : forall E data, within E slices_sums (flag_events_per_player_name E data).
Proof.
  intros. unfold flag_events_per_player_name. apply within_bind.
  - apply within_walk; [member |]. intros st i. destruct (_ =? 0); [apply within_ret |]. apply within_bind; [apply within_body; member |]. intros body _.
    destruct (negb _); [apply within_ret |]. unfold cursor_new.
    rewrite (read_flag_prints_spec E _ _ (scan_n_scans (length body) body (le_n _))) by lia. cbn [bind]. calm.
  - intros ps _. apply within_foldM. intros m p. unfold count_flag_print. destruct (flag_event_from _) as [e |]; [| apply within_ret].
    apply within_bind; [| intros; apply within_ret]. unfold flag_apply, slices_sums. destruct (aget_or _ _ _ _) as [a b c d f g h].
    destruct e; calm.
Qed.
Lemma pings_within : forall E data, within E slices_sums (ping_per_player_number E data).
Proof.
  intros. unfold ping_per_player_number. apply within_bind.
  - apply within_walk; [member |]. intros [c t] i. apply within_bind.
    + destruct (0 <? _); [| apply within_ret]. apply within_bind; [apply within_body; member |]. intros body _. unfold cursor_new.
      rewrite read_pings_spec by lia. apply within_ret.
    + intros st _. destruct (_ <=? _); apply within_ret.
  - intros st _. destruct (is_empty _); [apply within_ret |]. apply within_bind; [| intros; apply within_ret]. apply within_foldM.
    intros m [p l]. apply within_bind; [| intros; apply within_ret]. unfold average. apply within_bind; [| intros; apply within_ret].
    apply within_foldM. intros. apply within_uadd. member.
Qed.

Lemma stats_loop_within : forall E data fuel offset content, within E slices_sums (ktxstats_loop E fuel data offset content).
Proof.
  intros E data fuel. induction fuel as [| fuel IH]; intros offset content; [intros p Q; discriminate |]. rewrite ktxstats_loop_S.
  unfold slices_sums. apply within_bind; [calm |]. intros a _. apply within_bind; [calm |]. intros d _. apply within_bind.
  { unfold block_try_from. repeat match goal with |- context [let (_, _) := ?x in _] => destruct x end. calm. }
  intros [b | e] _; [| apply within_ret]. destruct (negb _); [apply within_ret |].
  apply within_bind; [calm |]. intros o _. apply within_bind; [calm |]. intros to _. apply within_bind; [calm |]. intros part _.
  cbv zeta. destruct (_ =? 0); [apply within_ret |]. apply within_bind; [calm |]. intros. apply IH.
Qed.
Lemma stats_within : forall E data, within E slices_sums (ktxstats_string E data).
Proof.
  intros. unfold ktxstats_string. destruct (rfind data VERSION); [| apply within_ret]. apply within_bind; [unfold slices_sums; calm |]. intros o _.
  apply within_bind; [apply stats_loop_within |]. intros. calm.
Qed.
Lemma stats_v3_within : forall E data, within E slices_sums (ktxstats_v3 E data).
Proof. intros. unfold ktxstats_v3. apply within_bind; [apply stats_within |]. intros. calm. Qed.
Lemma server_within : forall E data, within E slices_sums (server E data).
Proof. intros. unfold server. apply within_bind; [apply stats_v3_within |]. intros. calm. Qed.

Lemma clock_within : forall checks E fs rest t r, checks = checked E -> clock checks fs rest t r -> within E slices_sums (in_ns r).
Proof.
  intros checks E fs rest t r C H. subst checks. destruct H as [S L | C L | O T L | O T C L]; intros p P; cbn [in_ns] in P; try discriminate;
    injection P as <-; split; try (member; fail); first [discriminate | intros _; exact C].
Qed.
Lemma until_within : forall E data t, within E slices_sums (let! d := duration_until_offset E data t in Ret (Ok d)).
Proof.
  intros E data t. destruct (walk_split_proof data) as [fs [rest [-> [W [NF _]]]]].
  destruct (until_clock E fs rest t W NF) as [r [C ->]]. exact (clock_within _ E _ _ _ _ eq_refl C).
Qed.
Lemma demo_duration_within : forall E data, within E slices_sums (demo_duration E data).
Proof. intros. apply until_within. Qed.
Lemma countdown_within : forall E data, within E slices_sums (countdown_duration E data).
Proof.
  intros. unfold countdown_duration. apply within_bind; [apply two_kinds; apply serverinfo_within |]. intros. destruct (is_hoonymode _); [apply within_ret |].
  destruct (find _ _); [| apply within_ret]. apply until_within.
Qed.
Definition seeking_kinds : list panic := [PSlice; POverflow; PDurationSub].
Lemma seeking_within : forall E data, within E seeking_kinds (match_duration_from_seeking E data).
Proof.
  intros. assert (incl slices_sums seeking_kinds) as I by (intros p [<- | [<- | []]]; member).
  unfold match_duration_from_seeking. apply within_bind; [exact (within_more _ _ _ _ _ (demo_duration_within E data) I) |]. intros [d | e] _; [| apply within_ret].
  apply within_bind; [exact (within_more _ _ _ _ _ (countdown_within E data) I) |]. intros r _. apply within_bind; [| intros; apply within_ret].
  intros p H. unfold duration_sub in H. destruct (_ <=? _); [discriminate |]. injection H as <-. split; [member | discriminate].
Qed.
Definition stats_duration_kinds : list panic := [PSlice; POverflow; PDurationFrom].
Lemma stats_duration_within : forall E data, within E stats_duration_kinds (match_duration_from_ktxstats E data).
Proof.
  intros E data. assert (incl slices_sums stats_duration_kinds) as I by (intros p [<- | [<- | []]]; member).
  destruct (ktxstats_string E data) as [[s | e] | q |] eqn:K.
  - destruct (duration_text_dec s) as [[t T] | N].
    + rewrite (ktx_text_parsed E data s t K T). destruct (parse_f64 t) as [f | e]; [| apply within_ret].
      apply within_bind; [| intros; apply within_ret]. intros p H.
      assert (p = PDurationFrom) as ->; [| split; [member | discriminate]].
      unfold from_secs in H. repeat match goal with H : (match ?x with _ => _ end) = Panic _ |- _ => destruct x end; congruence.
    + unfold match_duration_from_ktxstats. rewrite K. cbn [bind]. rewrite N. cbn [bind]. apply within_ret.
  - unfold match_duration_from_ktxstats. rewrite K. cbn [bind]. apply within_ret.
  - unfold match_duration_from_ktxstats. rewrite K. cbn [bind]. intros p H. injection H as <-.
    destruct (stats_within E data q K) as [X Y]. split; [apply I; exact X | exact Y].
  - unfold match_duration_from_ktxstats. rewrite K. cbn [bind]. intros p H. discriminate.
Qed.
Definition duration_kinds : list panic := [PSlice; POverflow; PDurationSub; PDurationFrom].
Lemma match_duration_within : forall E data, within E duration_kinds (match_duration E data).
Proof.
  intros E data. assert (within E duration_kinds (match_duration_from_seeking E data)) as S.
  { apply (within_more _ _ _ _ _ (seeking_within E data)). intros p [<- | [<- | [<- | []]]]; member. }
  unfold match_duration. apply within_bind; [apply (within_more _ _ _ _ _ (serverinfo_within E data)); intros p [<- | []]; member |].
  intros s _. destruct (is_hoonymode s); [exact S |]. apply within_bind.
  - apply (within_more _ _ _ _ _ (stats_duration_within E data)). intros p [<- | [<- | [<- | []]]]; member.
  - intros [d | e] _; [apply within_ret | exact S].
Qed.

Lemma matchdate_within : forall E data, within E [PCharBoundary] (matchdate E data).
Proof.
  intros E data p H. assert (p = PCharBoundary) as ->; [| split; [member | discriminate]].
  destruct (matchdate_cases_proof E data) as [C0 C1].
  destruct (matchdate_string_cases data) as [[text [T _]] | [N _]].
  - destruct (C1 text T) as [C2 C3]. pose proof T as [_ [L V]].
    destruct (inside_dec text 20 V ltac:(lia)) as [I | NI]; [rewrite (C2 I) in H; congruence |].
    destruct (C3 NI _ eq_refl) as [C4 C5]. destruct (utc_offset_total_proof (skipn 20 text)) as [[o |] U].
    + destruct (C5 o U) as [C6 C7]. destruct (inside_dec text 19 V ltac:(lia)) as [I | NI']; [rewrite (C6 I) in H | rewrite (C7 NI') in H]; congruence.
    + destruct (C4 U) as [m M]. rewrite M in H. discriminate.
  - destruct (C0 N) as [m M]. rewrite M in H. discriminate.
Qed.
Lemma epoch_within : forall E data, within E slices (timestamp_from_epoch E data).
Proof. intros. unfold timestamp_from_epoch. apply within_bind; [apply serverinfo_within |]. intros. calm. Qed.
Lemma timestamp_within : forall E data, within E [PSlice; PCharBoundary] (timestamp E data).
Proof.
  intros. unfold timestamp. apply within_bind; [apply (within_more _ _ _ _ _ (epoch_within E data)); intros p [<- | []]; member |].
  intros [t | e] _; [apply within_ret |]. apply (within_more _ _ _ _ _ (matchdate_within E data)); intros p [<- | []]; member.
Qed.

Lemma parsing_within : forall E data, within E slices_sums (players_from_parsing E data).
Proof.
  intros. unfold players_from_parsing. apply within_bind; [apply two_kinds; apply clients_within |]. intros [cs | e] _; [| apply within_ret].
  apply within_bind; [apply pings_within |]. intros [ps | e] _; [| apply within_ret].
  apply within_bind; [apply frags_within | intros; apply within_ret].
Qed.
Lemma players_within : forall E data, within E slices_sums (players E data).
Proof.
  intros. unfold players. apply within_bind; [apply stats_v3_within |]. intros [s | e] _; [apply within_ret | apply parsing_within].
Qed.
Lemma team_from_within : forall E ps, within E [POverflow] (team_from E ps).
Proof.
  intros E ps. unfold team_from. destruct ps as [| p ps]; [apply within_ret |]. apply within_bind.
  - apply within_foldM. intros [f g] q. calm.
  - intros [f g] _. apply within_bind; [| intros; apply within_ret]. unfold majority_color, color_counts.
    destruct (map p_color (p :: ps)) as [| c1 [| c2 [| c3 l]]]; try apply within_ret. apply within_bind; [| intros; apply within_ret].
    apply within_foldM. intros. calm.
Qed.
Lemma team_list_within : forall E ps, within E [POverflow] (teams_from_players E ps).
Proof. intros. unfold teams_from_players. apply within_bind; [| intros; apply within_ret]. apply within_mapM. apply team_from_within. Qed.
Lemma teams_within : forall E data, within E slices_sums (teams E data).
Proof.
  intros. unfold teams. apply within_bind; [apply players_within |]. intros [ps | e] _; [| apply within_ret].
  apply within_bind; [| intros; apply within_ret]. apply (within_more _ _ _ _ _ (team_list_within E ps)). intros p [<- | []]; member.
Qed.
