(** When the statistics, scores, players, teams and durations panic *)
From Coq Require Import Lia ZifyN ZifyNat ZifyBool Reals Lra.
From Flocq Require Import Core.Core.
From Verif.Model Require Import Base Utf8Error Env Primitives Prot Frame Serverinfo Clientinfo Clients FragEvent Frags Float Ping
  Ktxstats Duration Players.
From Verif.Spec Require Import Occ Mvd Messages Times Clock Texts Userinfo Literal Obituary Score Pings Stats Lax Panics Teams Wrap Jams.
From Verif.Proofs Require Import BaseFacts FrameFacts PrintFacts PrintProps TextFacts ClockFacts TimeFacts PingFacts UserinfoFacts LiteralFacts StatsFacts LaxFacts ObituaryFacts ScoreFacts ScoreProps JoinFacts WalkProps ClientFacts BuildFacts
  PanicFacts PanicExact WrapFacts.
Open Scope N_scope.

(** ** Statistics *)
Lemma block_classes : forall d, dead_end d \/ short_block d \/ tiny_block d \/
  exists b r, wf_block b /\ d = encode_block b ++ r.
Proof.
  intros d. destruct (N.lt_ge_cases (len d) 10) as [S | G]; [right; left; left; exact S |].
  destruct (split_at _ d 10 G) as [h [r [HD HL]]].
  assert (skipn 10 d = r) as SK.
  { rewrite HD. replace 10%nat with (length h) by (unfold len in HL; lia). apply skipn_app_exact. }
  destruct (four r) as [[a [b [e [f [r2 R2]]]]] | SH].
  2: { left. split; [exact G |]. unfold size_field. rewrite SK. destruct r as [| ? [| ? [| ? [| ? r]]]]; try exact I. simpl in SH. lia. }
  assert (size_field d = Some (le32 a b e f)) as SF by (unfold size_field; rewrite SK, R2; reflexivity).
  assert (type_field d = match r2 with x :: y :: _ => Some (le16 x y) | _ => None end) as TF.
  { unfold type_field. change 14%nat with (10 + 4)%nat. rewrite skipn_add, SK, R2. reflexivity. }
  destruct (N.lt_ge_cases (le32 a b e f) 2) as [T | G2]; [right; right; left; exists (le32 a b e f); auto |].
  destruct (N.lt_ge_cases (len d) 18) as [X | G3].
  { left. split; [exact G |]. rewrite SF. auto. }
  assert (len d = 14 + len r2) as LR by (rewrite HD, R2, len_app, HL, !len_cons; lia).
  destruct r2 as [| g1 [| g2 [| n1 [| n2 r2]]]]; try (exfalso; unfold len in LR; cbn [length] in LR; unfold len in G3; lia).
  destruct (N.eq_dec (le16 g1 g2) 3) as [T | NT].
  2: { left. split; [exact G |]. rewrite SF, TF. split; [exact G2 | right; congruence]. }
  destruct (N.lt_ge_cases (len d) (16 + le32 a b e f)) as [SS | G4].
  { right. left. right. exists (le32 a b e f). rewrite TF, T. auto. }
  right. right. right. rewrite !len_cons in LR.
  destruct (split_at _ r2 (le32 a b e f - 2)) as [part [v [RV LP]]]; [lia |].
  exists (mkSblock h (le16 n1 n2) part), v. pose proof (le32_lt a b e f). split.
  - split; [exact HL |]. split; [apply le16_lt |]. cbn [sb_content]. lia.
  - unfold encode_block. cbn [sb_header sb_content sb_number].
    replace (len part + 2) with (le32 a b e f) by lia. rewrite HD, R2, enc32_le32, enc16_le16, <- T, enc16_le16, RV.
    rewrite <- !app_assoc. reflexivity.
Qed.

Lemma jams_cons : forall b d p, wf_block b -> sb_number b <> 0 -> jams p d -> jams p (encode_block b ++ d).
Proof.
  intros b d p W N [bs [rest [-> [F [G H]]]]]. exists (b :: bs), rest. cbn [map concat]. rewrite <- app_assoc. auto.
Qed.
Lemma stats_classes : forall d, (exists text, embeds d text) \/ exists p, jams p d.
Proof.
  intros d. remember (length d) as n eqn:L. assert (length d <= n)%nat as B by lia. clear L. revert d B.
  induction n as [| n IH]; intros d B.
  - right. exists PSlice, [], d. split; [reflexivity |]. split; [constructor |]. split; [constructor |]. left. split; [reflexivity |].
    left. unfold len. lia.
  - destruct (block_classes d) as [H | [H | [H | [b [r [W ->]]]]]].
    + left. exists []. apply embeds_none. exact H.
    + right. exists PSlice, [], d. repeat split; auto.
    + right. exists POverflow, [], d. repeat split; auto.
    + destruct (N.eq_dec (sb_number b) 0) as [Z | Z]; [left; eexists; apply embeds_last; assumption |].
      destruct (IH r) as [[text H] | [p H]].
      * pose proof (len_encode_block b W). rewrite app_length in B. unfold len in *. lia.
      * left. eexists. apply embeds_cons; eassumption.
      * right. exists p. apply jams_cons; assumption.
Qed.

Lemma short_stops : forall E fuel data p d content, short_block d -> data = p ++ d -> len data < 9223372036854775808 ->
  ktxstats_loop E (S fuel) data (len p) content = Panic PSlice.
Proof.
  intros E fuel data p d content SB D LD.
  assert (len data = len p + len d) as L by (rewrite D, len_app; reflexivity).
  rewrite ktxstats_loop_S, uadd_small by (unfold usize_bound; lia). cbn [bind].
  destruct SB as [S | [n [SF [N2 [L18 [TF SS]]]]]]; [rewrite slice_from_panic by lia; reflexivity |].
  destruct (split_at _ d 10) as [h [r [HD HL]]]; [lia |].
  assert (skipn 10 d = r) as SK.
  { rewrite HD. replace 10%nat with (length h) by (unfold len in HL; lia). apply skipn_app_exact. }
  assert (slice_from data (len p + 10) = Ret r) as S1.
  { rewrite D, HD, app_assoc, <- HL, <- len_app. apply slice_from_app. }
  rewrite S1. cbn [bind].
  destruct (four r) as [[a [b [e [f [r2 R2]]]]] | SH].
  2: { exfalso. rewrite HD, len_app in L18. unfold len in *. lia. }
  assert (len d = 14 + len r2) as LR by (rewrite HD, R2, len_app, HL, !len_cons; lia).
  destruct r2 as [| g1 [| g2 [| n1 [| n2 r2]]]]; try (exfalso; unfold len in LR; cbn [length] in LR; unfold len in L18; lia).
  assert (n = le32 a b e f) as -> by (unfold size_field in SF; rewrite SK, R2 in SF; inv SF; reflexivity).
  assert (le16 g1 g2 = 3) as T.
  { unfold type_field in TF. change 14%nat with (10 + 4)%nat in TF. rewrite skipn_add, SK, R2 in TF. cbn [skipn] in TF. inv TF. reflexivity. }
  unfold block_try_from, cursor_new. rewrite R2, read_u32_cons. pose proof (le32_lt a b e f).
  change SHORT with 2. change BLOCK_HEADER_SIZE with 8.
  rewrite usub_small by exact N2. cbn [bind]. rewrite uadd_small by (unfold usize_bound; lia). cbn [bind].
  rewrite !read_u16_cons. cbn [bind b_hidden_message b_body_size b_number].
  rewrite T. change (is_demoinfo (hidden_message_from 3)) with true. cbn [negb].
  rewrite uadd_small by (unfold usize_bound; lia). cbn [bind]. rewrite uadd_small by (unfold usize_bound; lia). cbn [bind].
  rewrite slice_panic by lia. reflexivity.
Qed.
Lemma tiny_stops : forall E fuel data p d content, checked E = true -> tiny_block d -> data = p ++ d -> len data < 9223372036854775808 ->
  ktxstats_loop E (S fuel) data (len p) content = Panic POverflow.
Proof.
  intros E fuel data p d content CH [n [SF N2]] D LD.
  assert (len data = len p + len d) as L by (rewrite D, len_app; reflexivity).
  rewrite ktxstats_loop_S, uadd_small by (unfold usize_bound; lia). cbn [bind].
  destruct (N.lt_ge_cases (len d) 10) as [S | G].
  { exfalso. unfold size_field in SF. rewrite skipn_all2 in SF by (unfold len in S; lia). discriminate. }
  destruct (split_at _ d 10) as [h [r [HD HL]]]; [lia |].
  assert (skipn 10 d = r) as SK.
  { rewrite HD. replace 10%nat with (length h) by (unfold len in HL; lia). apply skipn_app_exact. }
  assert (slice_from data (len p + 10) = Ret r) as S1.
  { rewrite D, HD, app_assoc, <- HL, <- len_app. apply slice_from_app. }
  rewrite S1. cbn [bind]. unfold size_field in SF. rewrite SK in SF.
  destruct r as [| a [| b [| e [| f r2]]]]; try discriminate SF.
  assert (n = le32 a b e f) as -> by (inv SF; reflexivity).
  unfold block_try_from, cursor_new. rewrite read_u32_cons. unfold usub. change SHORT with 2.
  replace (2 <=? le32 a b e f) with false by lia. rewrite CH. reflexivity.
Qed.
Lemma jams_loop : forall bs E fuel data p rest content q, checked E = true ->
  data = p ++ concat (map encode_block bs) ++ rest -> len data < 9223372036854775808 ->
  Forall wf_block bs -> Forall (fun b => sb_number b <> 0) bs -> (length bs < fuel)%nat ->
  (q = PSlice /\ short_block rest) \/ (q = POverflow /\ tiny_block rest) ->
  ktxstats_loop E fuel data (len p) content = Panic q.
Proof.
  induction bs as [| b bs IH]; intros E fuel data p rest content q CH D LD F G B H; (destruct fuel as [| fuel]; [cbn [length] in B; lia |]).
  - cbn [map concat app] in D. destruct H as [[-> H] | [-> H]].
    + apply (short_stops E fuel data p rest content H D LD).
    + apply (tiny_stops E fuel data p rest content CH H D LD).
  - inv F. inv G. cbn [map concat] in *. rewrite <- app_assoc in *.
    rewrite (block_step E fuel _ p b _ content) by (first [eassumption | reflexivity | unfold usize_bound; lia]).
    replace (sb_number b =? 0) with false by lia.
    apply IH with (rest := rest); try assumption; [rewrite <- app_assoc; reflexivity | cbn [length] in B; lia].
Qed.
Lemma jams_stop : forall E data k q, checked E = true -> len data < 9223372036854775808 -> last_at data version_mark k -> 18 <= k ->
  jams q (skipn (N.to_nat (k - 18)) data) -> ktxstats_string E data = Panic q.
Proof.
  intros E data k q CH LD LA K [bs [rest [D [F [G H]]]]]. pose proof LA as [O _]. apply occurs_at_le in O.
  unfold ktxstats_string. change VERSION with version_mark. apply rfind_some in LA. rewrite LA.
  change TOTAL_HEADER_SIZE with 18. rewrite usub_small by exact K. cbn [bind].
  destruct (split_at _ data (k - 18)) as [p [d [DD LP]]]; [lia |].
  assert (skipn (N.to_nat (k - 18)) data = d) as SK by (rewrite DD, <- LP; apply skipn_len_app). rewrite SK in D. subst d.
  rewrite <- LP. rewrite (jams_loop bs E _ data p rest [] q); auto.
  pose proof (chain_length bs F). rewrite DD, !app_length. unfold len in *. lia.
Qed.

Lemma stats_panics_proof : forall E data p, len data < 9223372036854775808 ->
  (ktxstats_string E data = Panic p <-> stats_jam (checked E) data p).
Proof.
  intros E data p LD. unfold stats_jam.
  destruct (rfind data version_mark) as [k |] eqn:RF.
  2: { assert (ktxstats_string E data = Ret (Err "ktxstats not found")) as ->
         by (unfold ktxstats_string; change VERSION with version_mark; rewrite RF; reflexivity).
       split; [discriminate |]. intros [k [LA _]]. apply rfind_some in LA. congruence. }
  assert (LA : last_at data version_mark k) by (apply rfind_some; exact RF).
  assert (ONE : forall k', last_at data version_mark k' -> k' = k) by (intros k' H; apply rfind_some in H; congruence).
  destruct (checked E) eqn:CH.
  - destruct (N.lt_ge_cases k 18) as [K | K].
    + assert (ktxstats_string E data = Panic POverflow) as ->.
      { unfold ktxstats_string. change VERSION with version_mark. rewrite RF. unfold usub. change TOTAL_HEADER_SIZE with 18.
        replace (18 <=? k) with false by lia. rewrite CH. reflexivity. }
      split.
      * intros H. injection H as <-. exists k. split; [exact LA |]. left. auto.
      * intros [k' [L' [[_ ->] | [K' _]]]]; [reflexivity |]. rewrite (ONE k' L') in K'. lia.
    + split.
      * intros H. exists k. split; [exact LA |]. right. split; [exact K |].
        destruct (stats_classes (skipn (N.to_nat (k - 18)) data)) as [[text EM] | [q J]].
        -- exfalso. rewrite (ktxstats_embedded_proof E data k text) in H; try assumption; [| unfold usize_bound; lia].
           destruct (utf8_valid text); discriminate.
        -- rewrite (jams_stop E data k q CH LD LA K J) in H. injection H as <-. exact J.
      * intros [k' [L' [[K' _] | [_ J]]]]; rewrite (ONE k' L') in *; [lia |]. exact (jams_stop E data k p CH LD LA K J).
  - split.
    + intros H. exists k. split; [exact LA |]. split; [exact (ktxstats_unchecked_panic E data k p CH LD LA H) |].
      intros text K EM. rewrite (ktxstats_unchecked_proof E data k text CH LD LA K EM) in H. destruct (utf8_valid text); discriminate.
    + intros [k' [L' [-> N]]]. rewrite (ONE k' L') in N. destruct (ktxstats_string E data) as [r | q |] eqn:R.
      * exfalso. destruct (ktxstats_unchecked_inv E data k r CH LD LA R) as [K [text EM]]. exact (N text K EM).
      * rewrite (ktxstats_unchecked_panic E data k q CH LD LA R). reflexivity.
      * exfalso. exact (ktxstats_string_terminates E data LD R).
Qed.

(** ** Scores *)
Lemma asks_clients_iff : forall E o, asks_clients E o <-> asks E (fst o, nearby_updates (fst o) (snd o)) = true.
Proof.
  intros E [m s]. unfold asks_clients, asks. cbn [fst snd]. split.
  - intros [t [v [T [R N]]]]. apply trimmed_iff in T. subst t. apply reads_iff in R. unfold event_of. rewrite R. apply is_empty_false in N.
    rewrite N. reflexivity.
  - intros A. apply andb_true_iff in A. destruct A as [A B]. unfold event_of in A.
    destruct (frag_event_from (trim_end (to_unicode E (m_text m)))) as [[| | | | | v] | msg] eqn:F; try discriminate A.
    exists (trim_end (to_unicode E (m_text m))), v. split; [apply trimmed_iff; reflexivity |].
    split; [apply reads_iff; exact F |]. intros Z. rewrite Z in B. discriminate.
Qed.

Definition report (o : message * list frame) : message * list N := (fst o, nearby_updates (fst o) (snd o)).
Lemma reports_eq : forall fs, reports fs = map report (obituaries fs).
Proof. intros fs. unfold reports. apply map_ext. intros [m s]. reflexivity. Qed.

Lemma entered_iff : forall E cs os l, entered E cs os l <->
  l = concat (map (fun o => entries_of cs (nearby_updates (fst o) (snd o)) (event_of E (fst o))) os).
Proof.
  intros E cs os l. unfold entered. split.
  - intros [per [-> F]]. f_equal. induction F as [| [m s] x os per H F IH]; [reflexivity |]. cbn [map fst snd]. rewrite <- IH.
    apply scored_iff in H. f_equal. eapply entries_unique; [exact H | apply entries_of_spec].
  - intros ->. eexists. split; [reflexivity |]. induction os as [| [m s] os IH]; [constructor |]. cbn [map fst snd]. constructor; [| exact IH].
    apply scored_iff. apply entries_of_spec.
Qed.

Lemma add_decided : forall E l,
  (checked E = true /\ score_leaves l /\ foldM (add_entry E) l [] = Panic POverflow) \/
  ((checked E = true -> ~ score_leaves l) /\ exists tbl, foldM (add_entry E) l [] = Ret tbl).
Proof.
  intros E l. destruct (add_any E l [] []) as [H | [H [tbl [T _]]]].
  - split; [constructor |]. split; [reflexivity |]. intros name v [].
  - intros _ a b name Q. symmetry in Q. apply app_eq_nil in Q. destruct Q as [-> ->]. cbv. split; discriminate.
  - left. exact H.
  - right. split; [exact H |]. eauto.
Qed.

Lemma quiet_fold : forall E C os, Forall (fun o => asks E (report o) = false) os ->
  foldM (score_text E C) (map report os) [] =
  foldM (add_entry E) (concat (map (fun o => entries_of [] (nearby_updates (fst o) (snd o)) (event_of E (fst o))) os)) [].
Proof.
  intros E C os F.
  replace (map (fun o => entries_of [] (nearby_updates (fst o) (snd o)) (event_of E (fst o))) os) with (map (entries_for E) (map report os))
    by (rewrite map_map; reflexivity).
  rewrite <- foldM_concat. apply foldM_ext. intros tbl x I. apply score_text_quiet. apply in_map_iff in I. destruct I as [o [<- I]].
  rewrite Forall_forall in F. apply F. exact I.
Qed.

Lemma scores_panics_proof : forall E fs rest p, wf fs -> no_frame rest ->
  (frags_per_player_name E (encode fs ++ rest) = Panic p <->
   (p = PSlice /\ cut_off (encode fs ++ rest)) \/
   (~ cut_off (encode fs ++ rest) /\ clients_cut_off (encode fs ++ rest) /\
    exists a o b l, obituaries fs = a ++ o :: b /\ Forall (fun o => ~ asks_clients E o) a /\ asks_clients E o /\ entered E [] a l /\
      ((p = PSlice /\ (checked E = true -> ~ score_leaves l)) \/ (p = POverflow /\ checked E = true /\ score_leaves l))) \/
   (~ cut_off (encode fs ++ rest) /\ p = POverflow /\ checked E = true /\
    (clients_cut_off (encode fs ++ rest) -> Forall (fun o => ~ asks_clients E o) (obituaries fs)) /\
    exists l, entered E (clients_of (clients E (encode fs ++ rest))) (obituaries fs) l /\ score_leaves l)).
Proof.
  intros E fs rest p W N. rewrite (cut_off_iff fs rest W N).
  destruct (rest_cases (len (encode fs ++ rest)) rest) as [S | O]; [rewrite len_app; lia | exact N | |].
  2: { rewrite (frags_crash E fs rest W O). split; [intros H; injection H as <-; auto |].
       intros [[-> _] | [[H _] | [H _]]]; [reflexivity | contradiction ..]. }
  assert (NO : ~ overruns (len (encode fs ++ rest)) rest) by (intros O; exact (stops_overruns _ _ S O)).
  pose proof (clients_panic E (encode fs ++ rest)) as CP.
  destruct (clients E (encode fs ++ rest)) as [r | q |] eqn:C.
  - assert (NC : ~ clients_cut_off (encode fs ++ rest)).
    { intros H. specialize (proj2 (CP PSlice) (conj eq_refl H)). discriminate. }
    rewrite (frags_quiet E fs rest r W S C).
    assert (EN : forall l, entered E (clients_of (Ret r)) (obituaries fs) l <-> l = all_entries E (cs_of r) fs).
    { intros l. rewrite entered_iff. unfold all_entries, clients_of, cs_of. destruct r;
      rewrite (map_ext _ (fun '(m, s) => entries_of _ (nearby_updates m s) (event_of E m))) by (intros [m s]; reflexivity); reflexivity. }
    destruct (add_decided E (all_entries E (cs_of r) fs)) as [[CH [L ->]] | [L [tbl ->]]].
    + split.
      * intros H. injection H as <-. right. right. split; [exact NO |]. split; [reflexivity |]. split; [exact CH |].
        split; [intros H; contradiction |]. eexists. split; [apply EN; reflexivity | exact L].
      * intros [[_ H] | [[_ [H _]] | [_ [-> _]]]]; [contradiction .. | reflexivity].
    + split; [discriminate |]. intros [[_ H] | [[_ [H _]] | [_ [_ [CH [_ [l [H1 H2]]]]]]]]; [contradiction .. |].
      exfalso. apply EN in H1. subst l. exact (L CH H2).
  - destruct (proj1 (CP q) eq_refl) as [-> CC]. rewrite frags_texts by assumption. rewrite C, reports_eq. cbn [clients_of].
    destruct (first_true _ (fun o => asks E (report o)) (obituaries fs)) as [F | [a [x [b [R [X F]]]]]].
    + rewrite quiet_fold by exact F.
      assert (FN : Forall (fun o => ~ asks_clients E o) (obituaries fs)).
      { eapply Forall_impl; [| exact F]. intros o H. cbn beta in H. rewrite asks_clients_iff. fold (report o). rewrite H. discriminate. }
      match goal with |- context[foldM (add_entry E) ?l []] => destruct (add_decided E l) as [[CH [L ->]] | [L [tbl ->]]] end.
      * split.
        -- intros H. injection H as <-. right. right. repeat (split; [first [assumption | reflexivity | intros _; exact FN] |]).
           eexists. split; [apply entered_iff; reflexivity | exact L].
        -- intros [[_ H] | [[_ [_ [a [x [b [l [Q [_ [A _]]]]]]]]] | [_ [-> _]]]]; [contradiction | | reflexivity].
           exfalso. rewrite Forall_forall in FN. apply (FN x); [rewrite Q; apply in_or_app; right; left; reflexivity | exact A].
      * split; [discriminate |]. intros [[_ H] | [[_ [_ [a [x [b [l [Q [_ [A _]]]]]]]]] | [_ [_ [CH [_ [l [H1 H2]]]]]]]]; [contradiction | |].
        -- exfalso. rewrite Forall_forall in FN. apply (FN x); [rewrite Q; apply in_or_app; right; left; reflexivity | exact A].
        -- exfalso. apply entered_iff in H1. subst l. exact (L CH H2).
    + assert (FN : Forall (fun o => ~ asks_clients E o) a).
      { eapply Forall_impl; [| exact F]. intros o H. cbn beta in H. rewrite asks_clients_iff. fold (report o). rewrite H. discriminate. }
      assert (AX : asks_clients E x) by (apply asks_clients_iff; exact X).
      assert (UN : forall a' x' b', obituaries fs = a' ++ x' :: b' -> Forall (fun o => ~ asks_clients E o) a' -> asks_clients E x' -> a' = a).
      { intros a' x' b' Q F' A'. rewrite R in Q. clear - Q FN AX F' A'. revert a' Q F'. induction a as [| y a IH]; intros a' Q F'.
        - destruct a' as [| y' a']; [reflexivity |]. injection Q as <- _. inv F'. contradiction.
        - destruct a' as [| y' a']; [injection Q as -> _; inv FN; contradiction |]. injection Q as <- Q. inv F'. inv FN. f_equal. auto. }
      rewrite R, map_app, foldM_app, quiet_fold by exact F. cbn [map].
      match goal with |- context[foldM (add_entry E) ?l []] => destruct (add_decided E l) as [[CH [L ->]] | [L [tbl ->]]] end; cbn [bind].
      * split.
        -- intros H. injection H as <-. right. left. split; [exact NO |]. split; [exact CC |].
           exists a, x, b. eexists. split; [reflexivity |]. split; [exact FN |]. split; [exact AX |]. split; [apply entered_iff; reflexivity |].
           right. auto.
        -- intros [[_ H] | [[_ [_ [a' [x' [b' [l [Q [F' [A' [EN H]]]]]]]]]] | [_ [-> _]]]]; [contradiction | | reflexivity].
           rewrite <- R in Q. rewrite (UN a' x' b' Q F' A') in EN. apply entered_iff in EN. subst l.
           destruct H as [[-> H] | [-> _]]; [exfalso; exact (H CH L) | reflexivity].
      * cbn [foldM]. rewrite score_text_asks by exact X. cbn [bind]. split.
        -- intros H. injection H as <-. right. left. split; [exact NO |]. split; [exact CC |].
           exists a, x, b. eexists. split; [reflexivity |]. split; [exact FN |]. split; [exact AX |]. split; [apply entered_iff; reflexivity |].
           left. auto.
        -- intros [[_ H] | [[_ [_ [a' [x' [b' [l [Q [F' [A' [EN H]]]]]]]]]] | [_ [_ [_ [H _]]]]]]; [contradiction | |].
           ++ rewrite <- R in Q. rewrite (UN a' x' b' Q F' A') in EN. apply entered_iff in EN. subst l.
              destruct H as [[-> _] | [_ [CH H]]]; [reflexivity | exfalso; exact (L CH H)].
           ++ exfalso. specialize (H CC). rewrite Forall_app in H. destruct H as [_ H]. inv H. contradiction.
  - exfalso. exact (clients_terminates E _ C).
Qed.

(** ** Players and teams *)
Lemma clients_found : forall E data, ~ clients_cut_off data ->
  (occurs data spawn_mark -> exists cs, clients E data = Ret (Ok cs)) /\
  (~ occurs data spawn_mark -> exists e, clients E data = Ret (Err e)).
Proof.
  intros E data NC. pose proof (clients_panic E data) as CP. pose proof (clients_terminates E data) as CT.
  revert CP CT. unfold clients, clientinfo, clientinfo_strings. change CMD_SPAWN with spawn_mark.
  destruct (find data spawn_mark) as [k |] eqn:F.
  - intros CP CT. split; [intros _ | intros H; exfalso; apply H; apply find_some in F; destruct F as [[a [b [O _]]] _]; exists a, b; exact O].
    destruct (clientinfo_loop _ _ _ _ _ _) as [l | q |] eqn:L; cbn [bind] in *; [eauto | | exfalso; apply CT; reflexivity].
    exfalso. destruct (proj1 (CP q) eq_refl). contradiction.
  - intros _ _. split; [intros O; exfalso; apply find_none in F; exact (F O) | intros _; eexists; reflexivity].
Qed.

Lemma parsing_panics_proof : forall E data p,
  players_from_parsing E data = Panic p <->
  (p = PSlice /\ clients_cut_off data) \/
  (~ clients_cut_off data /\ occurs data spawn_mark /\
   (ping_per_player_number E data = Panic p \/
    ((exists t, ping_per_player_number E data = Ret (Ok t)) /\ frags_per_player_name E data = Panic p))).
Proof.
  intros E data p. pose proof (clients_panic E data) as CP. unfold players_from_parsing.
  destruct (clients E data) as [[cs | e] | q |] eqn:C; cbn [bind].
  - assert (NC : ~ clients_cut_off data) by (intros H; specialize (proj2 (CP PSlice) (conj eq_refl H)); discriminate).
    assert (OC : occurs data spawn_mark).
    { destruct (find data spawn_mark) as [k |] eqn:F; [apply find_some in F; destruct F as [[a [b [O _]]] _]; exists a, b; exact O |].
      exfalso. unfold clients, clientinfo, clientinfo_strings in C. change CMD_SPAWN with spawn_mark in C. rewrite F in C. discriminate. }
    destruct (ping_per_player_number E data) as [[t | e] | q |]; cbn [bind].
    + destruct (frags_per_player_name E data) as [m | q |]; cbn [bind].
      * split; [discriminate |]. intros [[_ H] | [_ [_ [H | [_ H]]]]]; [contradiction | discriminate ..].
      * split; [intros H; injection H as ->; right; eauto 6 |]. intros [[_ H] | [_ [_ [H | [_ H]]]]]; [contradiction | discriminate | congruence].
      * split; [discriminate |]. intros [[_ H] | [_ [_ [H | [_ H]]]]]; [contradiction | discriminate ..].
    + split; [discriminate |]. intros [[_ H] | [_ [_ [H | [[t H] _]]]]]; [contradiction | discriminate ..].
    + split; [intros H; injection H as ->; right; auto |]. intros [[_ H] | [_ [_ [H | [[t H] _]]]]]; [contradiction | congruence | discriminate].
    + split; [discriminate |]. intros [[_ H] | [_ [_ [H | [[t H] _]]]]]; [contradiction | discriminate ..].
  - split; [discriminate |]. intros [[-> H] | [N [O _]]].
    + specialize (proj2 (CP PSlice) (conj eq_refl H)). discriminate.
    + destruct (clients_found E data N) as [H _]. destruct (H O) as [cs Q]. rewrite C in Q. discriminate.
  - destruct (proj1 (CP q) eq_refl) as [-> CC]. split; [intros H; injection H as <-; left; auto |].
    intros [[-> _] | [N _]]; [reflexivity | contradiction].
  - exfalso. exact (clients_terminates E data C).
Qed.

Lemma v3_panics : forall E data p, ktxstats_v3 E data = Panic p <-> ktxstats_string E data = Panic p.
Proof.
  intros E data p. unfold ktxstats_v3. destruct (ktxstats_string E data) as [[s | e] | q |]; cbn [bind]; split; congruence.
Qed.

Lemma players_panics_proof : forall E data p, len data < 9223372036854775808 ->
  (players E data = Panic p <->
   stats_jam (checked E) data p \/
   ((exists e, ktxstats_v3 E data = Ret (Err e)) /\ players_from_parsing E data = Panic p)).
Proof.
  intros E data p LD. rewrite <- (stats_panics_proof E data p LD), <- v3_panics. unfold players.
  destruct (ktxstats_v3 E data) as [[s | e] | q |]; cbn [bind].
  - split; [discriminate |]. intros [H | [[e H] _]]; discriminate.
  - split; [intros H; right; eauto |]. intros [H | [_ H]]; [discriminate | exact H].
  - split; [intros H; injection H as ->; left; reflexivity |]. intros [H | [[e H] _]]; [injection H as ->; reflexivity | discriminate].
  - split; [discriminate |]. intros [H | [[e H] _]]; discriminate.
Qed.

Lemma team_list_panics_proof : forall E ps p, iterates (teams_order E) -> each_iterates (colors_order E) -> len ps < 9223372036854775808 ->
  (teams_from_players E ps = Panic p <-> p = POverflow /\ checked E = true /\ teams_leave ps).
Proof.
  intros E ps p I1 I2 L. destruct (teams_any_proof E ps I1 I2 L) as [[CH [TL ->]] | [TL [ts [-> _]]]].
  - split; [intros H; injection H as <-; auto | intros [-> _]; reflexivity].
  - split; [discriminate |]. intros [_ [CH H]]. exfalso. exact (TL CH H).
Qed.

Lemma teams_panics_proof : forall E data p, iterates (teams_order E) -> each_iterates (colors_order E) ->
  (forall ps, players E data = Ret (Ok ps) -> len ps < 9223372036854775808) ->
  (teams E data = Panic p <->
   players E data = Panic p \/
   (p = POverflow /\ checked E = true /\ exists ps, players E data = Ret (Ok ps) /\ teams_leave ps)).
Proof.
  intros E data p I1 I2 B. unfold teams. destruct (players E data) as [[ps | e] | q |]; cbn [bind].
  - specialize (B ps eq_refl). pose proof (team_list_panics_proof E ps p I1 I2 B) as T.
    destruct (teams_from_players E ps) as [ts | q |]; cbn [bind].
    + split; [discriminate |]. intros [H | [-> [CH [ps' [H TL]]]]]; [discriminate |]. injection H as <-. discriminate (proj2 T (conj eq_refl (conj CH TL))).
    + split; [intros H; injection H as ->; right; destruct (proj1 T eq_refl) as [-> [CH TL]]; eauto |].
      intros [H | [-> [CH [ps' [H TL]]]]]; [discriminate |]. injection H as <-. pose proof (proj2 T (conj eq_refl (conj CH TL))) as X. injection X as ->. reflexivity.
    + split; [discriminate |]. intros [H | [-> [CH [ps' [H TL]]]]]; [discriminate |]. injection H as <-. discriminate (proj2 T (conj eq_refl (conj CH TL))).
  - split; [discriminate |]. intros [H | [_ [_ [ps [H _]]]]]; discriminate.
  - split; [intros H; injection H as ->; left; reflexivity |]. intros [H | [_ [_ [ps [H _]]]]]; [injection H as ->; reflexivity | discriminate].
  - split; [discriminate |]. intros [H | [_ [_ [ps [H _]]]]]; discriminate.
Qed.

(** ** Durations *)
Lemma stats_duration_panics_proof : forall E data p, len data < 9223372036854775808 ->
  (match_duration_from_ktxstats E data = Panic p <->
   stats_jam (checked E) data p \/
   (p = PDurationFrom /\ exists s t, ktxstats_string E data = Ret (Ok s) /\ duration_text s t /\ no_time t)).
Proof.
  intros E data p LD. rewrite <- (stats_panics_proof E data p LD).
  destruct (ktxstats_string E data) as [[s | e] | q |] eqn:K.
  - destruct (duration_text_dec s) as [[t D] | D].
    + assert (ONE : forall t', duration_text s t' -> t' = t) by (intros t' H; exact (duration_text_unique s t' t H D)).
      destruct (parse_f64 t) as [f | e] eqn:P.
      * destruct (parse_f64_ok t f P) as [[neg [m [k T]]] | [T | T]].
        -- destruct (stats_number_proof E data s t neg m k K D T) as [H1 H2].
           destruct (Rlt_or_le (double (real_of neg m k)) 0) as [X | X]; [| destruct (Rlt_or_le (double (real_of neg m k)) 18446744073709551616) as [Y | Y]].
           ++ rewrite H2 by auto. split; [| intros [H | [-> _]]; [discriminate | reflexivity]].
              intros H. injection H as <-. right. split; [reflexivity |]. exists s, t. split; [reflexivity |]. split; [exact D |].
              right. right. eauto 8.
           ++ destruct (H1 (conj X Y)) as [d [-> _]]. split; [discriminate |]. intros [H | [_ [s' [t' [Q [D' NT]]]]]]; [discriminate |].
              injection Q as <-. rewrite (ONE t' D') in NT. exfalso.
              assert (match_duration_from_ktxstats E data = Panic PDurationFrom) as Z; [| destruct (H1 (conj X Y)) as [d' [Z' _]]; congruence].
              destruct NT as [I | [I | [neg' [m' [k' [T' R']]]]]].
              ** exact (stats_special_proof E data s t K D (or_introl I)).
              ** exact (stats_special_proof E data s t K D (or_intror I)).
              ** apply (stats_number_proof E data s t neg' m' k' K D T'). exact R'.
           ++ rewrite H2 by auto. split; [| intros [H | [-> _]]; [discriminate | reflexivity]].
              intros H. injection H as <-. right. split; [reflexivity |]. exists s, t. split; [reflexivity |]. split; [exact D |].
              right. right. eauto 8.
        -- rewrite (stats_special_proof E data s t K D (or_introl T)). split; [| intros [H | [-> _]]; [discriminate | reflexivity]].
           intros H. injection H as <-. right. split; [reflexivity |]. exists s, t. split; [reflexivity |]. split; [exact D |]. left. exact T.
        -- rewrite (stats_special_proof E data s t K D (or_intror T)). split; [| intros [H | [-> _]]; [discriminate | reflexivity]].
           intros H. injection H as <-. right. split; [reflexivity |]. exists s, t. split; [reflexivity |]. split; [exact D |]. right. left. exact T.
      * rewrite (ktx_text_parsed E data s t K D), P. split; [discriminate |]. intros [H | [_ [s' [t' [Q [D' NT]]]]]]; [discriminate |].
        injection Q as <-. rewrite (ONE t' D') in NT. exfalso.
        assert (float_text t) as FT by (unfold float_text; destruct NT as [I | [I | [neg' [m' [k' [T' R']]]]]]; eauto 6).
        apply parse_f64_accepts in FT. destruct FT as [f FT]. congruence.
    + assert (NT : forall t, ~ duration_text s t).
      { intros t H. pose proof (ktx_text_parsed E data s t K H) as X. unfold match_duration_from_ktxstats in X. rewrite K in X. cbn [bind] in X.
        rewrite D in X. cbn [bind] in X. destruct (parse_f64 t) as [f | e] eqn:P; [destruct (from_secs f); discriminate |].
        injection X as <-. assert (NE : t <> []) by (destruct H as [a [b [_ [_ [NE _]]]]]; exact NE).
        pose proof (parse_f64_err t _ P). discriminate. }
      rewrite (ktx_text_missing E data s K NT). split; [discriminate |].
      intros [H | [_ [s' [t' [Q [D' _]]]]]]; [discriminate |]. injection Q as <-. exfalso. exact (NT t' D').
  - unfold match_duration_from_ktxstats. rewrite K. cbn [bind]. split; [discriminate |]. intros [H | [_ [s [t [H _]]]]]; discriminate.
  - unfold match_duration_from_ktxstats. rewrite K. cbn [bind]. split; [intros H; left; congruence |].
    intros [H | [_ [s [t [H _]]]]]; [congruence | discriminate].
  - exfalso. exact (ktxstats_string_terminates E data LD K).
Qed.

Lemma demo_panics_proof : forall E fs rest t p, wf fs -> no_frame rest -> end_marker (encode fs ++ rest) t ->
  (demo_duration E (encode fs ++ rest) = Panic p <-> clock (checked E) fs rest t (Panic p)).
Proof.
  intros E fs rest t p W N T. destruct (demo_duration_any_proof E fs rest t W N T) as [r [C ->]].
  destruct (clock_one_proof (checked E) fs rest t N) as [r0 [_ U]]. pose proof (U r C) as Q. subst r0.
  split; [intros H; destruct r; inv H; exact C | intros H; rewrite <- (U _ H); reflexivity].
Qed.

Lemma countdown_panics_proof : forall E fs rest p, wf fs -> no_frame rest ->
  (countdown_duration E (encode fs ++ rest) = Panic p <->
   (p = PSlice /\ len (encode fs ++ rest) < 1280) \/
   (1280 <= len (encode fs ++ rest) /\ not_hoonymode (serverinfo E (encode fs ++ rest)) /\
    exists c, first_at (encode fs ++ rest) matchdate_marker c /\ clock (checked E) fs rest c (Panic p))).
Proof.
  intros E fs rest p W N. destruct (N.lt_ge_cases (len (encode fs ++ rest)) 1280) as [L | L].
  { rewrite (proj1 (countdown_any_proof E fs rest W N) L). split; [intros H; injection H as <-; auto |].
    intros [[-> _] | [G _]]; [reflexivity | lia]. }
  destruct (serverinfo E (encode fs ++ rest)) as [r | q |] eqn:S.
  2: { exfalso. apply serverinfo_panic in S. lia. }
  2: { exfalso. exact (serverinfo_terminates E _ S). }
  destruct (is_hoonymode r) eqn:HM.
  - unfold countdown_duration. rewrite S. cbn [bind]. rewrite HM. split; [discriminate |]. intros [[_ G] | [_ [NH _]]]; [lia |].
    exfalso. destruct r as [s | e]; [| discriminate HM]. cbn [is_hoonymode is_ok_and] in HM.
    destruct (st_mode s) as [m |] eqn:MO; [| discriminate HM]. apply beq_eq in HM. apply (NH s eq_refl). rewrite MO, HM. reflexivity.
  - assert (NH : forall s, r = Ok s -> st_mode s <> Some (lit "hoonymode")).
    { intros s -> Q. cbn [is_hoonymode is_ok_and] in HM. rewrite Q in HM. rewrite (proj2 (beq_eq _ _) eq_refl) in HM. discriminate. }
    destruct (proj2 (countdown_any_proof E fs rest W N) r S NH) as [A B].
    destruct (find (encode fs ++ rest) matchdate_marker) as [c |] eqn:F.
    + apply find_some in F. destruct (B c F) as [v [C ->]]. destruct (clock_one_proof (checked E) fs rest c N) as [r0 [_ U]].
      split.
      * intros H. right. split; [exact L |]. split; [intros s Q; inv Q; apply NH; reflexivity |]. exists c. split; [exact F |].
        destruct v; inv H. exact C.
      * intros [[_ G] | [_ [_ [c' [F' C']]]]]; [lia |]. assert (c' = c) as ->.
        { apply find_some in F. apply find_some in F'. congruence. }
        rewrite (U _ C), <- (U _ C'). reflexivity.
    + apply find_none in F. rewrite (A F). split; [discriminate |]. intros [[_ G] | [_ [_ [c [[[a [b [Q _]]] _] _]]]]]; [lia |].
      exfalso. apply F. exists a, b. exact Q.
Qed.

Lemma seeking_panics_proof : forall E fs rest t p, wf fs -> no_frame rest -> end_marker (encode fs ++ rest) t ->
  (match_duration_from_seeking E (encode fs ++ rest) = Panic p <->
   demo_duration E (encode fs ++ rest) = Panic p \/
   ((exists d, demo_duration E (encode fs ++ rest) = Ret (Ok d)) /\ countdown_duration E (encode fs ++ rest) = Panic p) \/
   (p = PDurationSub /\ exists d c, demo_duration E (encode fs ++ rest) = Ret (Ok d) /\
      countdown_duration E (encode fs ++ rest) = Ret (Ok c) /\ d < c)).
Proof.
  intros E fs rest t p W N T. unfold match_duration_from_seeking.
  destruct (demo_duration_any_proof E fs rest t W N T) as [r [_ D]].
  destruct (demo_duration E (encode fs ++ rest)) as [[d | e] | q |] eqn:DD; cbn [bind].
  - destruct (countdown_duration E (encode fs ++ rest)) as [[c | e] | q |] eqn:CD; cbn [bind]; unfold duration_sub.
    + destruct (c <=? d) eqn:LE; cbn [bind].
      * split; [discriminate |]. intros [H | [[_ H] | [_ [d' [c' [H1 [H2 L]]]]]]]; try discriminate. inv H1. inv H2. lia.
      * split.
        -- intros H. injection H as <-. right. right. split; [reflexivity |]. exists d, c. repeat split; lia.
        -- intros [H | [[_ H] | [-> _]]]; [discriminate .. | reflexivity].
    + replace (0 <=? d) with true by lia. cbn [bind]. split; [discriminate |].
      intros [H | [[_ H] | [_ [d' [c' [H1 [H2 L]]]]]]]; discriminate.
    + split; [intros H; injection H as ->; right; left; eauto |].
      intros [H | [[_ H] | [_ [d' [c' [H1 [H2 L]]]]]]]; [discriminate | congruence | discriminate].
    + split; [discriminate |]. intros [H | [[_ H] | [_ [d' [c' [H1 [H2 L]]]]]]]; discriminate.
  - split; [discriminate |]. intros [H | [[[d H] _] | [_ [d' [c' [H1 [H2 L]]]]]]]; discriminate.
  - split; [intros H; injection H as ->; auto |]. intros [H | [[[d H] _] | [_ [d' [c' [H1 [H2 L]]]]]]]; [congruence | discriminate ..].
  - split; [discriminate |]. intros [H | [[[d H] _] | [_ [d' [c' [H1 [H2 L]]]]]]]; discriminate.
Qed.

Lemma match_panics_proof : forall E data p,
  (match_duration E data = Panic p <->
   (p = PSlice /\ len data < 1280) \/
   (1280 <= len data /\ not_hoonymode (serverinfo E data) /\ match_duration_from_ktxstats E data = Panic p) \/
   (1280 <= len data /\ (not_hoonymode (serverinfo E data) -> exists e, match_duration_from_ktxstats E data = Ret (Err e)) /\
    match_duration_from_seeking E data = Panic p)).
Proof.
  intros E data p. pose proof (serverinfo_panic E data) as SP. unfold match_duration.
  destruct (serverinfo E data) as [r | q |] eqn:S; cbn [bind].
  - assert (L : 1280 <= len data).
    { destruct (N.lt_ge_cases (len data) 1280) as [L | L]; [| exact L]. discriminate (proj2 (SP PSlice) (conj eq_refl L)). }
    assert (HM : not_hoonymode (Ret r) <-> is_hoonymode r = false).
    { unfold not_hoonymode. split.
      - intros H. destruct r as [s | e]; [| reflexivity]. cbn [is_hoonymode is_ok_and]. destruct (st_mode s) as [m |] eqn:M; [| reflexivity].
        destruct (beq m HOONYMODE) eqn:B; [| reflexivity]. apply beq_eq in B. exfalso. apply (H s eq_refl). rewrite M, B. reflexivity.
      - intros H s Q M. inv Q. cbn [is_hoonymode is_ok_and] in H. rewrite M, (proj2 (beq_eq _ _) eq_refl) in H. discriminate. }
    rewrite HM. destruct (is_hoonymode r).
    + split; [intros H; right; right; split; [exact L |]; split; [discriminate | exact H] |].
      intros [[_ G] | [[_ [H _]] | [_ [_ H]]]]; [lia | discriminate | exact H].
    + destruct (match_duration_from_ktxstats E data) as [[d | e] | q |]; cbn [bind].
      * split; [discriminate |]. intros [[_ G] | [[_ [_ H]] | [_ [H _]]]]; [lia | discriminate |]. destruct (H eq_refl). discriminate.
      * split; [intros H; right; right; eauto |]. intros [[_ G] | [[_ [_ H]] | [_ [_ H]]]]; [lia | discriminate | exact H].
      * split; [intros H; right; left; auto |]. intros [[_ G] | [[_ [_ H]] | [_ [H _]]]]; [lia | congruence |]. destruct (H eq_refl). discriminate.
      * split; [discriminate |]. intros [[_ G] | [[_ [_ H]] | [_ [H _]]]]; [lia | discriminate |]. destruct (H eq_refl). discriminate.
  - destruct (proj1 (SP q) eq_refl) as [-> L]. split; [intros H; injection H as <-; auto |].
    intros [[-> _] | [[G _] | [G _]]]; [reflexivity | lia ..].
  - exfalso. exact (serverinfo_terminates E data S).
Qed.

Lemma stats_readers_panic : forall E data p, len data < 9223372036854775808 ->
  Forall (fun panics => panics <-> stats_jam (checked E) data p)
    [ ktxstats_string E data = Panic p; ktxstats_v3 E data = Panic p; server E data = Panic p ].
Proof.
  intros E data p L. pose proof (stats_panics_proof E data p L) as H.
  constructor; [exact H |]. constructor; [rewrite v3_panics; exact H |]. constructor; [| constructor].
  rewrite <- H, <- v3_panics. unfold server. destruct (ktxstats_v3 E data) as [[s | e] | q |]; cbn [bind]; split; congruence.
Qed.

Lemma no_time_cases : no_time (lit "-InF") /\ no_time (lit "-1") /\ ~ no_time (lit "soon").
Proof.
  split; [| split].
  - left. exists true, (lit "-"), (lit "InF"). split; [reflexivity |]. split; [reflexivity |]. left.
    repeat constructor; (left; reflexivity) || (right; reflexivity).
  - right. right. exists true, 1, 0%Z. split.
    + exists (lit "-"), (lit "1"), [], 0, 0%Z. split; [reflexivity |]. split; [reflexivity |].
      split; [| split; [left; auto | reflexivity]].
      exists [1], []. split; [repeat constructor |]. split; [constructor |]. split; [discriminate |].
      split; [reflexivity |]. split; [reflexivity |]. left. auto.
    + left. unfold double, real_of. replace (-1 * IZR (Z.of_N 1) * powerRZ 10 0)%R with (- bpow radix2 0)%R by (simpl; ring).
      rewrite round_generic; [simpl; lra | apply _ |]. apply generic_format_opp. apply generic_format_bpow. vm_compute. discriminate.
  - intros N. assert (float_text (lit "soon")) as F.
    { unfold float_text. destruct N as [I | [I | [neg [m [k [T _]]]]]]; eauto 6. }
    apply parse_f64_accepts in F. destruct F as [f F]. vm_compute in F. discriminate.
Qed.
