(** Texts stay UTF-8: C73 *)
From Coq Require Import Lia ZifyN ZifyNat ZifyBool Permutation.
From Verif.Model Require Import Base Utf8Error Env Primitives Prot Frame Message Prints Bytesextra Serverinfo Clientinfo
  Clients FragEvent FlagEvent Frags Flags Float Ping Ktxstats Timezone Matchdate Duration Validate Players.
From Verif.Spec Require Import Occ Utf8 Obituary Flags Teams Strings.
From Verif.Proofs Require Import BaseFacts Utf8Facts ObituaryFacts FlagFacts OrderFacts TeamFacts RangeFacts AgreeFacts ErrorProps.
Open Scope N_scope.

(** ** cutting a text *)
Definition starts_char (b : bytes) : Prop := match b with x :: _ => is_cont x = false | [] => True end.

Lemma utf8_cut : forall cs, Forall scalar cs -> forall a b, encode_text cs = a ++ b -> starts_char b ->
  utf8_text a /\ utf8_text b.
Proof.
  intros cs F. induction F as [| c cs S F IH]; intros a b H SB.
  - symmetry in H. apply app_eq_nil in H. destruct H as [-> ->]. split; exists []; auto.
  - destruct a as [| x a].
    { split; [exists []; auto |]. exists (c :: cs). split; [constructor; assumption | symmetry; exact H]. }
    rewrite encode_text_cons in H. destruct (char_bytes c S) as [h [t [Q [_ T]]]]. rewrite Q in H. cbn [app] in H.
    injection H as <- H. apply app_eq_app in H. destruct H as [l [[-> Hb] | [-> Hb]]].
    + (* t = a ++ l *) destruct l as [| y l].
      * cbn [app] in Hb. rewrite app_nil_r in Q. subst b. split; [exists [c]; split; [auto |]; cbn; rewrite app_nil_r; auto |].
        exists cs. auto.
      * exfalso. rewrite Hb in SB. cbn in SB. apply Forall_app in T. destruct T as [_ T]. inv T. congruence.
    + destruct (IH l b Hb SB) as [[cl [Fl ->]] B]. split; [| exact B]. exists (c :: cl). split; [auto |].
      rewrite encode_text_cons, Q. reflexivity.
Qed.

Lemma text_cut : forall a b, utf8_text (a ++ b) -> starts_char b -> utf8_text a /\ utf8_text b.
Proof. intros a b [cs [F H]] S. apply (utf8_cut cs F); auto. Qed.

Lemma text_app : forall a b, utf8_text a -> utf8_text b -> utf8_text (a ++ b).
Proof.
  intros a b [x [X ->]] [y [Y ->]]. exists (x ++ y). split; [apply Forall_app; auto |]. rewrite encode_text_app. reflexivity.
Qed.
Lemma text_nil : utf8_text [].
Proof. exists []. auto. Qed.

Lemma text_starts : forall p, utf8_text p -> starts_char p.
Proof.
  intros p [cs [F ->]]. destruct F as [| c cs S F]; [exact I |]. rewrite encode_text_cons.
  destruct (char_bytes c S) as [h [t [-> [H _]]]]. exact H.
Qed.
Lemma text_starts_app : forall p r, utf8_text p -> p <> [] -> starts_char (p ++ r).
Proof. intros [| b p] r T NE; [congruence |]. exact (text_starts _ T). Qed.

Lemma text_drop : forall p r, utf8_text p -> utf8_text (p ++ r) -> utf8_text r.
Proof.
  intros p r [cs [F ->]] H. apply utf8_valid_iff. apply utf8_valid_iff in H. induction F as [| c cs S F IH]; [exact H |].
  rewrite encode_text_cons, <- app_assoc, utf8_valid_char in H by exact S. auto.
Qed.

(** what stands before and after a text within a text *)
Lemma text_around : forall a p b, utf8_text (a ++ p ++ b) -> utf8_text p -> p <> [] -> utf8_text a /\ utf8_text b.
Proof.
  intros a p b H P NE. destruct (text_cut a (p ++ b) H (text_starts_app p b P NE)) as [A B]. split; [exact A |].
  exact (text_drop p b P B).
Qed.

Lemma boundary_here : forall a b, starts_char b -> is_char_boundary (a ++ b) (len a) = true.
Proof.
  intros a b S. unfold is_char_boundary. rewrite len_app. destruct (len a =? len a + len b) eqn:Q; [reflexivity |].
  rewrite nth_error_skip by (unfold len; lia). replace (N.to_nat (len a) - length a)%nat with 0%nat by (unfold len; lia).
  destruct b as [| x b]; [unfold len in Q; simpl in Q; lia |]. cbn [nth_error]. cbn in S. rewrite S. reflexivity.
Qed.

Lemma starts_or : forall b r, utf8_text b -> starts_char r -> starts_char (b ++ r).
Proof. intros [| x b] r B R; [exact R |]. exact (text_starts _ B). Qed.

Lemma cut_proof : forall v p i, utf8_text v -> utf8_text p -> p <> [] -> find v p = Some i \/ rfind v p = Some i ->
  exists a b, v = a ++ p ++ b /\ str_to v i = Ret a /\ str_from v (i + len p) = Ret b /\ utf8_text a /\ utf8_text b.
Proof.
  intros v p i V P NE H. assert (occurs_at v p i) as [a [b [-> <-]]].
  { destruct H as [H | H]; [apply find_some in H | apply rfind_some in H]; apply H. }
  destruct (text_around a p b V P NE) as [A B]. exists a, b. split; [reflexivity |].
  unfold str_to, str_from. rewrite boundary_here by (apply text_starts_app; assumption).
  rewrite (app_assoc a p b). replace (len a + len p) with (len (a ++ p)) by apply len_app.
  rewrite boundary_here by (apply text_starts; exact B). rewrite !len_app.
  replace (len a <=? _) with true by lia. replace (len a + len p <=? _) with true by lia. cbn [andb].
  rewrite <- app_assoc. rewrite firstn_len_app.
  replace (N.to_nat (len a + len p)) with (length (a ++ p)) by (rewrite app_length; unfold len; lia).
  rewrite app_assoc, skipn_app_exact. auto.
Qed.

(** ** literals and tables *)
Ltac literal := apply utf8_valid_iff; vm_compute; reflexivity.

Lemma ascii_text : forall d, Forall (fun b => n_of b < 128) d -> utf8_text d.
Proof.
  intros d F. apply utf8_valid_iff. induction F as [| b d H F IH]; [reflexivity |]. cbn [utf8_valid].
  replace (n_of b <? 128) with true by lia. exact IH.
Qed.

Lemma uint_ascii : forall u, Forall (fun b => n_of b < 128) (lit (DecimalString.NilEmpty.string_of_uint u)).
Proof. induction u; cbn; constructor; try assumption; reflexivity. Qed.
Lemma decimal_ascii : forall n, Forall (fun b => n_of b < 128) (lit (decimal n)).
Proof.
  intros n. unfold decimal. destruct (N.to_uint n) eqn:Q; cbn [DecimalString.NilZero.string_of_uint]; try apply uint_ascii.
  repeat constructor.
Qed.
Lemma utf8_error_ascii : forall d, Forall (fun b => n_of b < 128) (lit (utf8_error_text d)).
Proof.
  intros d. unfold utf8_error_text. destruct (utf8_scan d 0) as [[i [n |]] |]; [| | constructor];
    rewrite !lit_append; repeat (apply Forall_app; split); try apply decimal_ascii; vm_compute; repeat constructor.
Qed.

Lemma quoting_text : forall w v, utf8_text (lit w) -> utf8_text v -> utf8_text (lit (quoting w v)).
Proof.
  intros w v W V. unfold quoting. rewrite !lit_append, lit_bytes.
  apply text_app; [exact W |]. apply text_app; [literal |]. apply text_app; [exact V | literal].
Qed.

Lemma phrases_text : forall p, In p phrases -> utf8_text (ph_before p) /\ utf8_text (ph_after p).
Proof.
  assert (forallb (fun p => utf8_valid (ph_before p) && utf8_valid (ph_after p)) phrases = true) as T by (vm_compute; reflexivity).
  intros p P. rewrite forallb_forall in T. specialize (T p P). apply andb_true_iff in T. rewrite <- !utf8_valid_iff. exact T.
Qed.
Lemma flag_phrases_text : forall q, In q flag_phrases -> utf8_text (snd q) /\ snd q <> [].
Proof.
  assert (forallb (fun q => utf8_valid (snd q) && negb (is_empty (snd q))) flag_phrases = true) as T by (vm_compute; reflexivity).
  intros p P. rewrite forallb_forall in T. specialize (T p P). apply andb_true_iff in T. rewrite <- !utf8_valid_iff.
  destruct T as [T1 T2]. split; [exact T1 |]. destruct p as [k t]. cbn [snd] in *. intros ->. discriminate.
Qed.
Lemma whitespace_text : Forall (fun p => utf8_text p /\ p <> []) whitespace.
Proof.
  assert (forallb (fun p => utf8_valid p && negb (is_empty p)) whitespace = true) as T by (vm_compute; reflexivity).
  apply Forall_forall. intros p P. rewrite forallb_forall in T. specialize (T p P). apply andb_true_iff in T.
  rewrite <- !utf8_valid_iff. destruct T as [T1 T2]. split; [exact T1 |]. intros Q. rewrite Q in T2. discriminate.
Qed.

(** ** trimming *)
Lemma strip_text : forall pats s, Forall (fun p => utf8_text p /\ p <> []) pats -> utf8_text s -> utf8_text (strip_end pats s).
Proof.
  intros pats s F S. destruct (strip_end_spec pats s) as [[l [E L]] _].
  { eapply Forall_impl; [| exact F]. intros p [_ H]. exact H. }
  assert (starts_char (concat l)) as C.
  { destruct l as [| p l]; [exact I |]. inv L. rewrite Forall_forall in F. destruct (F p H1) as [T NE]. apply text_starts_app; assumption. }
  rewrite E in S. apply (text_cut _ _ S C).
Qed.
Lemma trim_end_text : forall s, utf8_text s -> utf8_text (trim_end s).
Proof. intros s. apply strip_text, whitespace_text. Qed.

(** ** events *)
Lemma frag_event_texts : forall v e, utf8_text v -> frag_event_from v = Ok e -> frag_texts e.
Proof.
  intros v e V H. apply reads_iff in H. destruct H as [l1 [p [l2 [x [y [PH [FI [_ ->]]]]]]]].
  assert (In p phrases) as IN by (rewrite PH; apply in_or_app; right; left; reflexivity).
  destruct (phrases_text p IN) as [B A]. pose proof (phrases_before p IN) as NB.
  assert (utf8_text x /\ utf8_text y) as [X Y].
  { unfold fits in FI. destruct (ph_kind p) eqn:K;
      try (destruct FI as [r [-> [_ FI]]]; destruct (text_around _ _ _ V B NB) as [X R]; cbn [has_two_names] in FI; split; [exact X |];
           first [ subst y; apply text_nil
                 | destruct FI as [[_ ->] | [NA [t [-> _]]]]; [exact R | exact (proj1 (text_around _ _ _ R A NA))] ]).
    destruct FI as [[n ->] [_ ->]]. split; [| apply text_nil]. cbn [repeat concat] in V. exact (proj1 (text_around _ _ _ V B NB)). }
  destruct (ph_kind p); cbn [event frag_texts]; auto.
Qed.

Lemma flag_event_texts : forall v e, utf8_text v -> flag_event_from v = Ok e -> flag_texts e.
Proof.
  intros v e V H. apply tells_iff in H. destruct H as [k [name [[l1 [s [l2 [r [PH [-> _]]]]]] ->]]].
  destruct (flag_phrases_text (k, s)) as [T NE]; [rewrite PH; apply in_or_app; right; left; reflexivity |].
  cbn [snd] in *. destruct (text_around _ _ _ V T NE) as [X _]. destruct k; exact X.
Qed.

Lemma frag_event_error : forall v e, utf8_text v -> frag_event_from v = Err e -> utf8_text (lit e).
Proof.
  intros v e V H. rewrite frag_event_try in H. destruct (find_map (try v) phrases); [discriminate |]. injection H as <-.
  apply quoting_text; [literal | exact V].
Qed.
Lemma flag_event_error : forall v e, utf8_text v -> flag_event_from v = Err e -> utf8_text (lit e).
Proof.
  intros v e V H. unfold flag_event_from in H. destruct (find_map _ flag_print_types); [discriminate |]. injection H as <-.
  apply quoting_text; [literal | exact V].
Qed.

(** ** results *)
Lemma gt_ok : forall A (P : A -> Prop) a, P a -> gives_texts P (Ret (Ok a)).
Proof. intros A P a H. split; intros x X; inv X. exact H. Qed.
Lemma gt_err : forall A (P : A -> Prop) e, utf8_text (lit e) -> gives_texts P (Ret (Err e)).
Proof. intros A P a H. split; intros x X; inv X. exact H. Qed.
Lemma gt_bind : forall A B (P : B -> Prop) (m : M A) k, (forall a, m = Ret a -> gives_texts P (k a)) -> gives_texts P (bind m k).
Proof. intros A B P [a | p |] k H; [exact (H a eq_refl) | |]; split; discriminate. Qed.
Lemma gt_try : forall A B (P : A -> Prop) (Q : B -> Prop) (m : M (result A)) k, gives_texts P m ->
  (forall a, P a -> gives_texts Q (k a)) -> gives_texts Q (let? x := m in k x).
Proof.
  intros A B P Q m k [H1 H2] K. apply gt_bind. intros [a | e] E; [apply K, H1, E | apply gt_err, H2, E].
Qed.
Lemma gt_weak : forall A (P Q : A -> Prop) m, gives_texts P m -> (forall a, P a -> Q a) -> gives_texts Q m.
Proof. intros A P Q m [H1 H2] I. split; [intros a E; apply I, H1, E | exact H2]. Qed.

Section Strings.
  Variable E : env.
  Hypothesis RS : returns_strings E.

  Lemma serverinfo_string_gt : forall data, gives_texts utf8_text (serverinfo_string E data).
  Proof.
    intros data. unfold serverinfo_string. apply gt_bind. intros h _. apply gt_bind. intros [[f t] |] _.
    - apply gt_bind. intros d _. apply gt_ok, RS.
    - apply gt_err. literal.
  Qed.
  Lemma serverinfo_gt : forall data, gives_texts settings_texts (serverinfo E data).
  Proof.
    intros data. unfold serverinfo. eapply gt_try; [apply serverinfo_string_gt |]. intros s S. apply gt_ok, RS, S.
  Qed.
  Lemma filename_gt : forall data, gives_texts utf8_text (filename E data).
  Proof.
    intros data. unfold filename. eapply gt_try; [apply serverinfo_gt |]. intros s [_ [S _]].
    destruct (st_serverdemo s) as [d |]; [apply gt_ok, S; reflexivity | apply gt_err; literal].
  Qed.

  Lemma clientinfo_loop_texts : forall data mo fuel o acc r, Forall utf8_text acc ->
    clientinfo_loop E fuel data mo o acc = Ret r -> Forall utf8_text r.
  Proof.
    intros data mo fuel. induction fuel as [| f IH]; intros o acc r A H; cbn [clientinfo_loop] in H; [discriminate |].
    apply bind_ret_inv in H. destruct H as [w [_ H]]. destruct (find w NAME); [| inv H; exact A].
    apply bind_ret_inv in H. destruct H as [b [_ H]]. destruct (rfind_byte b x00); [| inv H; exact A].
    apply bind_ret_inv in H. destruct H as [c [_ H]]. destruct (find_byte c x00); [| inv H; exact A].
    destruct (_ && _); [| inv H; exact A].
    apply bind_ret_inv in H. destruct H as [d [_ H]].
    assert (Forall utf8_text (acc ++ [to_unicode E d])) as A' by (apply Forall_app; split; [exact A | repeat constructor; apply RS]).
    destruct (mo <=? _); [inv H; exact A' | eapply IH; [exact A' | exact H]].
  Qed.
  Lemma clientinfo_strings_gt : forall data, gives_texts (Forall utf8_text) (clientinfo_strings E data).
  Proof.
    intros data. unfold clientinfo_strings. destruct (find data CMD_SPAWN); [| apply gt_err; literal].
    apply gt_bind. intros l L. apply gt_ok. eapply clientinfo_loop_texts; [| exact L]. constructor.
  Qed.
  Lemma clientinfo_gt : forall data, gives_texts (Forall clientinfo_texts) (clientinfo E data).
  Proof.
    intros data. unfold clientinfo. eapply gt_try; [apply clientinfo_strings_gt |]. intros l L. apply gt_ok.
    apply Forall_map. eapply Forall_impl; [| exact L]. apply RS.
  Qed.
  Lemma unwrap_text : forall o, text_if_any o -> utf8_text (unwrap_or o []).
  Proof. intros [s |] H; [apply H; reflexivity | apply text_nil]. Qed.
  Lemma clients_gt : forall data, gives_texts (Forall client_texts) (clients E data).
  Proof.
    intros data. unfold clients. eapply gt_try; [apply clientinfo_gt |]. intros l L. apply gt_ok. generalize 0 as i.
    induction L as [| c l [N [T [A [F _]]]] L IH]; intros i; cbn [number_clients]; constructor; [| apply IH].
    unfold client_from, client_texts; cbn. auto using unwrap_text.
  Qed.
  Lemma filter_forall : forall A (P : A -> Prop) f l, Forall P l -> Forall P (filter f l).
  Proof. intros A P f l H. rewrite Forall_forall in *. intros x X. apply filter_In in X. apply H, X. Qed.
  Lemma player_clients_gt : forall data, gives_texts (Forall client_texts) (player_clients E data).
  Proof. intros data. unfold player_clients. eapply gt_try; [apply clients_gt |]. intros l L. apply gt_ok, filter_forall, L. Qed.
  Lemma spectator_clients_gt : forall data, gives_texts (Forall client_texts) (spectator_clients E data).
  Proof. intros data. unfold spectator_clients. eapply gt_try; [apply clients_gt |]. intros l L. apply gt_ok, filter_forall, L. Qed.
  Lemma names_forall : forall l, Forall client_texts l -> Forall utf8_text (unicode_sort E (map c_name l)).
  Proof. intros l L. apply (rs_sort E RS), Forall_map. eapply Forall_impl; [| exact L]. intros c H. exact (proj1 H). Qed.
  Lemma player_names_gt : forall data, gives_texts (Forall utf8_text) (player_names E data).
  Proof. intros data. unfold player_names. eapply gt_try; [apply player_clients_gt |]. intros l L. apply gt_ok, names_forall, L. Qed.
  Lemma spectator_names_gt : forall data, gives_texts (Forall utf8_text) (spectator_names E data).
  Proof. intros data. unfold spectator_names. eapply gt_try; [apply spectator_clients_gt |]. intros l L. apply gt_ok, names_forall, L. Qed.
  Lemma dedup_from_forall : forall A (P : A -> Prop) eqb l x, Forall P l -> Forall P (dedup_from eqb x l).
  Proof. intros A P eqb l. induction l as [| y l IH]; intros x H; cbn [dedup_from]; [constructor |]. inv H. destruct (eqb _ _); auto. Qed.
  Lemma team_names_gt : forall data, gives_texts (Forall utf8_text) (team_names E data).
  Proof.
    intros data. unfold team_names. eapply gt_try; [apply player_clients_gt |]. intros l L. apply gt_ok.
    assert (Forall utf8_text (unicode_sort E (map c_team l))) as H by (apply (rs_sort E RS), Forall_map; eapply Forall_impl; [| exact L]; intros c H; exact (proj1 (proj2 H))).
    destruct (unicode_sort E (map c_team l)) as [| x m]; [constructor |]. inv H. constructor; [assumption |]. apply dedup_from_forall. assumption.
  Qed.
  Lemma has_bot_gt : forall data, gives_texts (fun _ => True) (has_bot_players E data).
  Proof.
    intros data. unfold has_bot_players. eapply gt_try; [apply player_clients_gt |]. intros l L. destruct (existsb _ l); apply gt_ok; exact I.
  Qed.
  Lemma has_human_gt : forall data, gives_texts (fun _ => True) (has_human_players E data).
  Proof. intros data. unfold has_human_players. eapply gt_try; [apply player_clients_gt |]. intros l L. apply gt_ok; exact I. Qed.

  Lemma ktxstats_string_gt : forall data, gives_texts utf8_text (ktxstats_string E data).
  Proof.
    intros data. unfold ktxstats_string. destruct (rfind data VERSION); [| apply gt_err; literal]. apply gt_bind. intros o _.
    apply gt_bind. intros c _. destruct (utf8_valid c) eqn:U; [apply gt_ok, utf8_valid_iff, U | apply gt_err, ascii_text, utf8_error_ascii].
  Qed.
  Lemma ktxstats_v3_gt : forall data, gives_texts stats_texts (ktxstats_v3 E data).
  Proof.
    intros data. unfold ktxstats_v3. eapply gt_try; [apply ktxstats_string_gt |]. intros s S.
    destruct (ktxstats_from E s) eqn:K; [eapply gt_ok, (rs_ktxstats E RS); eauto | eapply gt_err, (rs_ktxstats_error E RS); eauto].
  Qed.
  Lemma server_gt : forall data, gives_texts server_texts (server E data).
  Proof.
    intros data. unfold server. eapply gt_try; [apply ktxstats_v3_gt |]. intros s [H [I _]]. apply gt_ok.
    unfold server_from, server_texts. cbn [sv_hostname sv_address sv_ip]. split; [exact H |]. split; [| exact I].
    apply text_app; [exact I |]. apply text_app; [literal | apply ascii_text, decimal_ascii].
  Qed.

  Lemma pings_gt : forall data, gives_texts (fun _ => True) (ping_per_player_number E data).
  Proof.
    intros data. unfold ping_per_player_number. apply gt_bind. intros st _. destruct (is_empty _); [apply gt_err; literal |].
    apply gt_bind. intros a _. apply gt_ok. exact I.
  Qed.

  Lemma aset_key : forall V (P : str -> Prop) (m : list (str * V)) k v, P k -> Forall (fun e => P (fst e)) m ->
    Forall (fun e => P (fst e)) (aset beq k v m).
  Proof.
    intros V P m k v K F. induction F as [| [k' v'] m H F IH]; cbn [aset]; [repeat constructor; exact K |].
    destruct (beq k k'); constructor; auto.
  Qed.
  Lemma frag_add_texts : forall n d m r, utf8_text n -> Forall (fun e => utf8_text (fst e)) m -> frag_add E n d m = Ret r ->
    Forall (fun e => utf8_text (fst e)) r.
  Proof. intros n d m r N M H. unfold frag_add in H. apply bind_ret_inv in H. destruct H as [v [_ H]]. inv H. apply aset_key; assumption. Qed.
  Lemma killer_texts : forall data i v, gives_texts utf8_text (find_team_killer E data i v).
  Proof.
    intros data i v. unfold find_team_killer. apply gt_bind. intros st _. destruct (is_empty _); [apply gt_err; literal |].
    eapply gt_try; [apply clients_gt |]. intros cs CS. destruct (List.find _ cs) as [vi |]; [| apply gt_err; literal].
    match goal with |- context[List.find ?p ?l] => destruct (List.find p l) as [k |] eqn:F end; [| apply gt_err; literal].
    apply gt_ok. apply List.find_some in F. destruct F as [I _].
    assert (In k cs) as J.
    { revert I. generalize (snd st) as nums. intros nums. induction nums as [| n nums IH]; cbn [filter_map]; [contradiction |].
      destruct (List.find _ cs) as [c |] eqn:G; [| exact IH]. intros [-> | I]; [apply List.find_some in G; apply G | exact (IH I)]. }
    rewrite Forall_forall in CS. exact (proj1 (CS k J)).
  Qed.
  Lemma frags_texts : forall data r, frags_per_player_name E data = Ret r -> Forall (fun e => utf8_text (fst e)) r.
  Proof.
    intros data r H. unfold frags_per_player_name in H. apply bind_ret_inv in H. destruct H as [pfs [_ H]].
    apply (foldM_inv _ _ (fun m => Forall (fun e => utf8_text (fst e)) m)) in H; [exact H | | constructor].
    intros m pf m' F _ S. unfold score_print in S.
    pose proof (trim_end_text _ (rs_unicode E RS (pr_content (fst pf)))) as T.
    destruct (frag_event_from _) as [e |] eqn:V; [| inv S; exact F]. pose proof (frag_event_texts _ _ T V) as X.
    destruct e; cbn [frag_texts] in X; try (eapply frag_add_texts; [| exact F | exact S]; first [exact X | exact (proj1 X)]).
    apply bind_ret_inv in S. destruct S as [[n | e] [K S]]; [| inv S; exact F].
    eapply frag_add_texts; [| exact F | exact S]. apply (killer_texts data (snd pf) victim). exact K.
  Qed.
  Lemma flags_texts : forall data r, flag_events_per_player_name E data = Ret r -> Forall (fun e => utf8_text (fst e)) r.
  Proof.
    intros data r H. unfold flag_events_per_player_name in H. apply bind_ret_inv in H. destruct H as [ps [_ H]].
    apply (foldM_inv _ _ (fun m => Forall (fun e => utf8_text (fst e)) m)) in H; [exact H | | constructor].
    intros m p m' F _ S. unfold count_flag_print in S.
    destruct (flag_event_from _) as [e |] eqn:V; [| inv S; exact F]. pose proof (flag_event_texts _ _ (rs_unicode E RS _) V) as X.
    apply bind_ret_inv in S. destruct S as [c [_ S]]. inv S. apply aset_key; [| exact F]. destruct e; exact X.
  Qed.

  Lemma matchdate_string_gt : forall data, gives_texts utf8_text (matchdate_string data).
  Proof.
    intros data. unfold matchdate_string. destruct (find data MATCHDATE_NEEDLE); [| apply gt_err; literal]. apply gt_bind. intros r _.
    destruct (find_byte r x0a); [| apply gt_err; literal]. destruct (_ && _); [| apply gt_err; literal]. apply gt_bind. intros d _.
    destruct (utf8_valid d) eqn:U; [apply gt_ok, utf8_valid_iff, U | apply gt_err, ascii_text, utf8_error_ascii].
  Qed.

  Lemma all_digits_ascii : forall s v z, all_digits s v = Some z -> Forall (fun b => n_of b < 128) s.
  Proof.
    induction s as [| b s IH]; intros v z H; [constructor |]. cbn [all_digits] in H. destruct (in_range b 48 57) eqn:R; [| discriminate].
    constructor; [unfold in_range in R; lia | eapply IH; exact H].
  Qed.
  Lemma parse_i32_ascii : forall s z, parse_i32 s = Some z -> Forall (fun b => n_of b < 128) s.
  Proof.
    intros [| b s] z H; [discriminate |]. unfold parse_i32 in H.
    destruct (Byte.eqb b x2b) eqn:B1; [| destruct (Byte.eqb b x2d) eqn:B2].
    - apply byte_eqb_true in B1. subst b. destruct (is_empty s); [discriminate |]. destruct (all_digits s 0) eqn:A; [| discriminate].
      constructor; [reflexivity | eapply all_digits_ascii; exact A].
    - apply byte_eqb_true in B2. subst b. destruct (is_empty s); [discriminate |]. destruct (all_digits s 0) eqn:A; [| discriminate].
      constructor; [reflexivity | eapply all_digits_ascii; exact A].
    - destruct (all_digits (b :: s) 0) eqn:A; [| discriminate]. eapply all_digits_ascii; exact A.
  Qed.
  Lemma sub_list_forall : forall A (P : A -> Prop) l a b, Forall P l -> Forall P (sub_list l a b).
  Proof.
    intros A P l a b F. unfold sub_list. rewrite Forall_forall in *. intros x X. apply F.
    rewrite <- (firstn_skipn (N.to_nat a) l). apply in_or_app. right.
    rewrite <- (firstn_skipn (N.to_nat (b - a)) (skipn (N.to_nat a) l)). apply in_or_app. left. exact X.
  Qed.

  Lemma offset_text : forall v o, utc_offset v = Ret (Some o) -> utf8_text o.
  Proof.
    intros v o H. unfold utc_offset in H. destruct (utc_offset_by_abbr v) as [t |] eqn:A.
    - inv H. assert (forallb (fun e => utf8_valid (snd e)) UTC_OFFSET_BY_ABBR = true) as T by (vm_compute; reflexivity).
      rewrite forallb_forall in T. unfold utc_offset_by_abbr in A.
      apply find_map_some in A. destruct A as [l1 [[a o'] [l2 [L [A _]]]]]. destruct (beq a v); [| discriminate]. inv A.
      apply utf8_valid_iff. apply (T (a, o)). rewrite L. apply in_or_app. right. left. reflexivity.
    - destruct v as [| b r]; [discriminate |]. cbn [utc_offset_by_offset] in H.
      destruct (Byte.eqb b x2b || Byte.eqb b x2d) eqn:B; [| discriminate]. destruct (negb _); [discriminate |].
      destruct (parse_i32 _) as [z |] eqn:P; [| discriminate]. apply parse_i32_ascii in P.
      destruct (_ && _)%bool; [| discriminate]. apply bind_ret_inv in H. destruct H as [hh [H1 H]].
      apply bind_ret_inv in H. destruct H as [mm [H2 H]]. inv H. unfold str_slice in *.
      destruct (_ && _) in H1; [injection H1 as <- | discriminate]. destruct (_ && _) in H2; [injection H2 as <- | discriminate].
      apply ascii_text. constructor.
      + apply orb_true_iff in B. destruct B as [B | B]; apply byte_eqb_true in B; subst b; reflexivity.
      + apply Forall_app. split; [apply sub_list_forall; exact P |]. constructor; [reflexivity | apply sub_list_forall; exact P].
  Qed.

  Lemma str_to_text : forall s i r, utf8_text s -> str_to s i = Ret r -> utf8_text r.
  Proof.
    intros s i r S H. unfold str_to in H. destruct (i <=? len s) eqn:L; [| discriminate]. destruct (is_char_boundary s i) eqn:B; [| discriminate].
    cbn [andb] in H. inv H. rewrite <- (firstn_skipn (N.to_nat i) s) in S. apply text_cut in S; [apply S |].
    unfold is_char_boundary in B. unfold starts_char. destruct (i =? len s) eqn:Q.
    - rewrite skipn_all2 by (unfold len in Q; lia). exact I.
    - rewrite <- (firstn_skipn (N.to_nat i) s) in B at 1. rewrite nth_error_skip in B by (rewrite firstn_length; lia).
      rewrite firstn_length in B. replace (N.to_nat i - _)%nat with 0%nat in B by (unfold len in L; lia).
      destruct (skipn (N.to_nat i) s) as [| x t]; [exact I |]. cbn [nth_error] in B. destruct (is_cont x); [discriminate | reflexivity].
  Qed.

  Lemma matchdate_gt : forall data, gives_texts (fun _ => True) (matchdate E data).
  Proof.
    intros data. unfold matchdate. eapply gt_try; [apply matchdate_string_gt |]. intros s S.
    apply (gt_try _ _ utf8_text).
    - unfold replace_tz_abbr_with_offset. apply gt_bind. intros tz _. apply gt_bind. intros [o |] O; [| apply gt_err; literal].
      apply gt_bind. intros d D. apply gt_ok, text_app; [eapply str_to_text; eauto | eapply offset_text; exact O].
    - intros f F. destruct (parse_datetime E f) eqn:P; [apply gt_ok; exact I | eapply gt_err, (rs_datetime_error E RS); eauto].
  Qed.
  Lemma epoch_gt : forall data, gives_texts (fun _ => True) (timestamp_from_epoch E data).
  Proof.
    intros data. unfold timestamp_from_epoch. eapply gt_try; [apply serverinfo_gt |]. intros s S.
    destruct (st_epoch s); [apply gt_ok; exact I | apply gt_err; literal].
  Qed.
  Lemma timestamp_gt : forall data, gives_texts (fun _ => True) (timestamp E data).
  Proof. intros data. unfold timestamp. apply gt_bind. intros [t | e] _; [apply gt_ok; exact I | apply matchdate_gt]. Qed.

  Lemma demo_duration_gt : forall data, gives_texts (fun _ => True) (demo_duration E data).
  Proof. intros data. unfold demo_duration. apply gt_bind. intros d _. apply gt_ok. exact I. Qed.
  Lemma countdown_gt : forall data, gives_texts (fun _ => True) (countdown_duration E data).
  Proof.
    intros data. unfold countdown_duration. apply gt_bind. intros s _. destruct (is_hoonymode s); [apply gt_ok; exact I |].
    destruct (find data MATCHDATE_NEEDLE); [| apply gt_err; literal]. apply gt_bind. intros d _. apply gt_ok. exact I.
  Qed.
  Lemma seeking_gt : forall data, gives_texts (fun _ => True) (match_duration_from_seeking E data).
  Proof.
    intros data. unfold match_duration_from_seeking. eapply gt_try; [apply demo_duration_gt |]. intros e _.
    apply gt_bind. intros c _. apply gt_bind. intros d _. apply gt_ok. exact I.
  Qed.
  Lemma parse_f64_error : forall t e, parse_f64 t = Err e -> utf8_text (lit e).
  Proof.
    intros t e H. unfold parse_f64 in H.
    repeat match type of H with
    | context[match ?x with _ => _ end] => destruct x
    end; try discriminate; inv H; literal.
  Qed.
  Lemma from_stats_gt : forall data, gives_texts (fun _ => True) (match_duration_from_ktxstats E data).
  Proof.
    intros data. unfold match_duration_from_ktxstats. eapply gt_try; [apply ktxstats_string_gt |]. intros s _.
    apply gt_bind. intros [[f t] |] _; [| apply gt_err; literal]. apply gt_bind. intros x _.
    destruct (parse_f64 x) eqn:P; [apply gt_bind; intros d _; apply gt_ok; exact I | apply gt_err; eapply parse_f64_error; exact P].
  Qed.
  Lemma match_duration_gt : forall data, gives_texts (fun _ => True) (match_duration E data).
  Proof.
    intros data. unfold match_duration. apply gt_bind. intros s _. destruct (is_hoonymode s); [apply seeking_gt |].
    apply gt_bind. intros [d | e] _; [apply gt_ok; exact I | apply seeking_gt].
  Qed.

  (** players and teams *)
  Hypothesis IP : iterates (players_order E).
  Hypothesis IT : iterates (teams_order E).

  Lemma sort_forall : forall A cmp (P : A -> Prop) l, Forall P l -> Forall P (sort_by cmp l).
  Proof. intros A cmp P l F. eapply Permutation_Forall; [apply Permutation_sym, sort_by_perm | exact F]. Qed.

  Lemma parsed_players_gt : forall data, gives_texts (Forall player_texts) (players_from_parsing E data).
  Proof.
    intros data. unfold players_from_parsing. eapply gt_try; [apply clients_gt |]. intros cs CS.
    eapply gt_try; [apply pings_gt |]. intros ps _. apply gt_bind. intros fr _. apply gt_ok. apply sort_forall.
    apply (filter_forall _ _ (fun c => negb (c_is_spectator c))) in CS.
    match goal with |- context[fold_left ?f ?l []] => assert (forall m, Forall player_texts (map snd m) ->
      Forall player_texts (map snd (fold_left f l m))) as F end.
    { induction CS as [| c cs' H CS IH]; intros m F; [exact F |]. cbn [fold_left]. apply IH.
      apply aset_values; [exact F | exact H]. }
    eapply Permutation_Forall; [apply Permutation_map, Permutation_sym, IP |]. apply F. constructor.
  Qed.
  Lemma stats_players_texts : forall s ps, stats_texts s -> players_from_ktxstats s = Ok ps -> Forall player_texts ps.
  Proof.
    intros s ps [_ [_ F]] H. injection H as <-. apply sort_forall, Forall_map. eapply Forall_impl; [| exact F].
    intros p [N [T L]]. unfold player_from, player_texts; cbn. split; [exact N |]. split; [exact T |].
    split; intros x X; [| discriminate]. destruct (is_empty (kp_login p)); [discriminate |]. injection X as <-. exact L.
  Qed.
  Lemma players_gt : forall data, gives_texts (Forall player_texts) (players E data).
  Proof.
    intros data. unfold players. apply gt_bind. intros [s | e] S; [| apply parsed_players_gt].
    apply gt_ok. eapply (stats_players_texts s); [eapply ktxstats_v3_gt; exact S | reflexivity].
  Qed.
  Lemma teams_texts : forall ps ts, Forall player_texts ps -> teams_from_players E ps = Ret ts -> Forall team_texts ts.
  Proof.
    intros ps ts F H. destruct (teams_divide_proof E ps ts IT H) as [_ [K [_ P]]]. rewrite Forall_forall in *. intros t I. split.
    - destruct (proj1 (K (t_name t)) (in_map _ _ _ I)) as [p [J <-]]. exact (proj1 (proj2 (F p J))).
    - apply Forall_forall. intros p J. apply F. eapply Permutation_in; [exact P |]. apply in_concat. exists (t_players t).
      split; [apply in_map; exact I | exact J].
  Qed.
  Lemma teams_gt : forall data, gives_texts (Forall team_texts) (teams E data).
  Proof.
    intros data. unfold teams. eapply gt_try; [apply players_gt |]. intros ps F. apply gt_bind. intros ts T. apply gt_ok.
    eapply teams_texts; eauto.
  Qed.
  Lemma stats_teams_gt : forall s, stats_texts s -> gives_texts (Forall team_texts) (teams_from_ktxstats E s).
  Proof.
    intros s S. unfold teams_from_ktxstats. destruct (players_from_ktxstats s) as [ps | e] eqn:P; [| discriminate P].
    apply gt_bind. intros ts T. apply gt_ok. eapply teams_texts; [eapply stats_players_texts; eauto | exact T].
  Qed.
End Strings.
