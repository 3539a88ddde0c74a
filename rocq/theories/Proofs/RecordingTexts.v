(** Reading back a recording: the texts and the times *)
From Coq Require Import Lia ZifyN ZifyNat ZifyBool Permutation.
From Verif.Model Require Import Base Env Prot Frame Message Serverinfo Clientinfo
  Clients Frags Ping Ktxstats Players Matchdate Duration Validate.
From Verif.Spec Require Import Occ Mvd Messages Score Stats Texts Utf8 Dates Clientlist Times Order Teams Pings Recording.
From Verif.Proofs Require Import BaseFacts FrameFacts TextFacts StatsFacts ClientFacts
  ScoreProps DateFacts TimeFacts WalkProps Utf8Facts TeamFacts RecordingFacts.
Open Scope N_scope.

Lemma encode_app : forall a b, encode (a ++ b) = encode a ++ encode b.
Proof. intros a b. unfold encode. rewrite map_app, concat_app. reflexivity. Qed.
Lemma encode_one : forall f, encode [f] = encode_frame f.
Proof. intros f. unfold encode. cbn [map concat]. apply app_nil_r. Qed.

Lemma not_in : forall b p, existsb (Byte.eqb b) p = false -> ~ In b p.
Proof. intros b p H I. assert (existsb (Byte.eqb b) p = true); [| congruence]. apply existsb_exists. exists b. split; [exact I | apply byte_eqb_refl]. Qed.

Lemma encode_all : forall t b, encode_frame (to_all t b) = t :: x06 :: enc32 (len b) ++ b.
Proof. reflexivity. Qed.

Lemma len_enc32 : forall n, len (enc32 n) = 4.
Proof. reflexivity. Qed.

(** ** The serverinfo *)

Definition after_info (r : recording) : bytes :=
  [x0a; x00] ++ encode_frame (to_all x00 (users_body r)) ++ encode (map frame_of (timeline r) ++ tail_frames r).

Lemma data_info : forall r, encode (frames r) =
  ([x00; x06] ++ enc32 (len (info_body r)) ++ [x09]) ++ serverinfo_mark ++ r_info r ++ lit """" ++ after_info r.
Proof.
  intros r. unfold frames, head_frames. rewrite encode_app. change (encode [to_all x00 (info_body r); to_all x00 (users_body r)])
    with (encode_frame (to_all x00 (info_body r)) ++ encode_frame (to_all x00 (users_body r)) ++ []).
  rewrite app_nil_r, encode_all. unfold info_body at 2. unfold after_info. cbn [app]. rewrite <- !app_assoc. cbn [app]. rewrite <- !app_assoc. reflexivity.
Qed.

Lemma firstn_prefix : forall (p q : bytes) n, len p <= N.of_nat n -> exists z, firstn n (p ++ q) = p ++ z.
Proof.
  intros p q n H. exists (firstn (n - length p) q). rewrite firstn_app. f_equal. apply firstn_all2. unfold len in H. lia.
Qed.

Lemma recording_has_info : forall E cs r, wf_recording E cs r -> has_serverinfo (encode (frames r)) (r_info r).
Proof.
  intros E cs r W. destruct (w_info _ _ _ W) as (NE & NQ & _ & _ & L). split; [exact NE |].
  set (x := [x00; x06] ++ enc32 (len (info_body r)) ++ [x09]).
  exists (len (x ++ serverinfo_mark)).
  destruct (firstn_prefix (x ++ serverinfo_mark ++ r_info r ++ lit """") (after_info r) 1280) as [z Z].
  { rewrite !len_app. change (len serverinfo_mark) with 16. change (len (lit """")) with 1. change (len x) with 7. lia. }
  exists x, z. rewrite data_info. fold x. rewrite <- !app_assoc in Z. rewrite Z.
  split; [reflexivity |]. split; [reflexivity |]. split.
  - split; [eexists; eexists; split; reflexivity |]. intros j O.
    change (x ++ serverinfo_mark ++ r_info r ++ lit """" ++ z) with
      (([x00; x06] ++ enc32 (len (info_body r))) ++ x09 :: serverinfo_mark ++ r_info r ++ lit """" ++ z) in O.
    apply occurs_at_sep in O; [| apply not_in; reflexivity]. change (len serverinfo_mark) with 16 in O.
    rewrite len_app in O. rewrite len_enc32 in O. change (len [x00; x06]) with 2 in O. change (len x) with 7.
    destruct O as [O | [O | O]]; [lia | lia | discriminate].
  - split; [eexists; eexists; split; reflexivity |]. intros j O. apply (occurs_at_not_in (r_info r) _ x22 [] j NQ O).
Qed.

(** ** The userinfo strings *)

Lemma run_app : forall recs a b, run recs (a ++ b) = run recs a ++ b.
Proof.
  induction recs as [| [g s] recs IH]; intros a b; cbn [run]; [reflexivity |].
  rewrite IH, <- !app_assoc. reflexivity.
Qed.

Definition before_users (r : recording) : bytes :=
  encode_frame (to_all x00 (info_body r)) ++ [x00; x06] ++ enc32 (len (users_body r)).
Definition after_users (r : recording) : bytes := encode (map frame_of (timeline r) ++ tail_frames r).

Lemma data_users : forall r, encode (frames r) =
  before_users r ++ spawn_mark ++ run (r_users r) (r_users_rest r ++ after_users r).
Proof.
  intros r. unfold frames, head_frames. rewrite encode_app. change (encode [to_all x00 (info_body r); to_all x00 (users_body r)])
    with (encode_frame (to_all x00 (info_body r)) ++ encode_frame (to_all x00 (users_body r)) ++ []).
  rewrite app_nil_r, (encode_all x00 (users_body r)). unfold before_users, after_users. unfold users_body at 2. rewrite run_app.
  rewrite <- !app_assoc. cbn [app]. rewrite <- !app_assoc. reflexivity.
Qed.

Lemma spawn_first : forall E cs r, wf_recording E cs r ->
  first_at (before_users r ++ spawn_mark ++ run (r_users r) (r_users_rest r ++ after_users r)) spawn_mark (len (before_users r)).
Proof.
  intros E cs r W. split; [eexists; eexists; split; reflexivity |]. intros j O.
  set (post := run (r_users r) (r_users_rest r ++ after_users r)) in *.
  destruct (w_info _ _ _ W) as (_ & _ & _ & N9 & _).
  (* the inner letters do not reach over the tabulator *)
  assert (j + 10 <= len (before_users r) \/ len (before_users r) <= j) as H.
  { assert (occurs_at ((before_users r) ++ x09 :: lit "cmd spawn" ++ post) (lit "cmd spawn") (j + 1)) as O'.
    { destruct O as [a [b [D LA]]]. exists (a ++ [x09]), b. split.
      - change (before_users r ++ x09 :: lit "cmd spawn" ++ post) with (before_users r ++ spawn_mark ++ post). rewrite D, <- !app_assoc. reflexivity.
      - rewrite len_app, LA. reflexivity. }
    apply occurs_at_sep in O'; [| apply not_in; reflexivity]. change (len (lit "cmd spawn")) with 9 in O'.
    destruct O' as [X | [X | X]]; [lia | lia | discriminate]. }
  destruct H as [H | H]; [exfalso | exact H].
  set (mid := lit "ullserverinfo """ ++ r_info r ++ lit """" ++ [x0a; x00; x00; x06]).
  assert (before_users r = ([x00; x06] ++ enc32 (len (info_body r)) ++ [x09]) ++ x66 :: mid ++ enc32 (len (users_body r))) as B.
  { unfold before_users, mid. rewrite encode_all. unfold info_body at 2. rewrite <- !app_assoc. cbn [app]. rewrite <- !app_assoc. cbn [app]. rewrite <- !app_assoc. reflexivity. }
  set (y := enc32 (len (users_body r)) ++ spawn_mark ++ post) in *.
  assert (before_users r ++ spawn_mark ++ post = ([x00; x06] ++ enc32 (len (info_body r)) ++ [x09]) ++ x66 :: mid ++ y) as B'.
  { rewrite B. unfold y. rewrite <- !app_assoc. cbn [app]. rewrite <- !app_assoc. reflexivity. }
  rewrite B' in O. pose proof O as O1.
  apply occurs_at_sep in O1; [| apply not_in; reflexivity]. change (len spawn_mark) with 10 in O1.
  change (len ([x00; x06] ++ enc32 (len (info_body r)) ++ [x09])) with 7 in O1.
  destruct O1 as [O1 | [O1 | O1]]; [lia | | discriminate].
  change (([x00; x06] ++ enc32 (len (info_body r)) ++ [x09]) ++ x66 :: mid ++ y)
    with (([x00; x06] ++ enc32 (len (info_body r)) ++ [x09; x66]) ++ mid ++ y) in O.
  apply occurs_at_right in O; [| change (len ([x00; x06] ++ enc32 (len (info_body r)) ++ [x09; x66])) with 8; lia].
  change (len ([x00; x06] ++ enc32 (len (info_body r)) ++ [x09; x66])) with 8 in O.
  apply occurs_at_not_in in O.
  - rewrite B in H. rewrite len_app in H.
    change (len ([x00; x06] ++ enc32 (len (info_body r)) ++ [x09])) with 7 in H.
    change (x66 :: mid ++ enc32 (len (users_body r))) with ([x66] ++ mid ++ enc32 (len (users_body r))) in H.
    rewrite !len_app, len_enc32 in H. change (len [x66]) with 1 in H. lia.
  - unfold mid. intros I. apply in_app_or in I. destruct I as [I | I]; [vm_compute in I; repeat (destruct I as [I | I]; [discriminate |]); exact I |].
    apply in_app_or in I. destruct I as [I | I]; [contradiction |]. vm_compute in I. repeat (destruct I as [I | I]; [discriminate |]). exact I.
Qed.

Lemma recording_users : forall E cs r, wf_recording E cs r ->
  clientinfo_strings E (encode (frames r)) = Ret (Ok (map (fun u => to_unicode E (snd u)) (r_users r))).
Proof.
  intros E cs r W. rewrite data_users. destruct (w_users _ _ _ W) as (_ & _ & F & G & L). destruct (w_users_rest _ _ _ W) as [L' N].
  apply clientinfo_strings_run_proof; [apply (spawn_first E cs); exact W | exact F | exact G | exact L | rewrite len_app; lia |].
  rewrite firstn_app. replace (511 - length (r_users_rest r))%nat with 0%nat by (unfold len in L'; lia).
  rewrite app_nil_r. exact N.
Qed.

Lemma nth_error_same : forall A (a b : list A), (forall k, nth_error a k = nth_error b k) -> a = b.
Proof.
  induction a as [| x a IH]; intros [| y b] H; [reflexivity | discriminate (H 0%nat) | discriminate (H 0%nat) |].
  f_equal; [injection (H 0%nat); auto | apply IH; intros k; exact (H (S k))].
Qed.

Lemma describes_one : forall n i c d, describes n i c -> describes n i d -> c = d.
Proof.
  assert (forall o a b, text_or_empty o a -> text_or_empty o b -> a = b) as T.
  { intros o a b [-> | [-> ->]] [X | [X ->]]; congruence. }
  assert (forall o a b, low_byte o a -> low_byte o b -> a = b) as B.
  { intros o a b [LA [v [VA MA]]] [LB [w [VB MB]]]. assert (v = w) by (destruct VA as [-> | [-> ->]], VB as [X | [X ->]]; congruence).
    subst. lia. }
  assert (forall (a b : bool) P, (a = true <-> P) -> (b = true <-> P) -> a = b) as Q.
  { intros a b P H1 H2. destruct a, b; try reflexivity; [symmetry; apply H2, H1; reflexivity | apply H1, H2; reflexivity]. }
  intros n i c d [N1 NM1 T1 TC1 BC1 S1 BT1 A1 F1] [N2 NM2 T2 TC2 BC2 S2 BT2 A2 F2].
  destruct c as [cn cm ct [c1 c2] csp cb ca cf], d as [dn dm dt [d1 d2] dsp db da df].
  cbn [c_number c_name c_team c_color c_is_spectator c_is_bot c_auth_username c_auth_cc fst snd] in *.
  f_equal; try congruence; eauto. f_equal; eauto.
Qed.

Lemma recording_clients : forall E cs r, wf_recording E cs r -> clients E (encode (frames r)) = Ret (Ok cs).
Proof.
  intros E cs r W. pose proof (recording_users E cs r W) as U. destruct (clients_numbered_proof E _ _ U) as [ds [C [L D]]].
  rewrite C. do 2 f_equal. destruct (w_roster _ _ _ W) as [LR R]. rewrite map_length in L.
  destruct (w_users _ _ _ W) as (_ & LU & _). apply nth_error_same. intros k.
  destruct (nth_error (r_users r) k) as [[g s] |] eqn:K.
  - destruct (R k g s K) as [c [NC DC]]. rewrite NC.
    destruct (D k (to_unicode E s)) as [d [ND DD]]; [rewrite nth_error_map, K; reflexivity |]. rewrite ND. f_equal.
    apply (describes_one (N.of_nat k) (clientinfo_from E (to_unicode E s))); [| exact DC].
    rewrite N.mod_small in DD; [exact DD |]. assert (k < length (r_users r))%nat by (apply nth_error_Some; congruence). unfold len in LU. lia.
  - apply nth_error_None in K. transitivity (@None Client); [apply nth_error_None; lia | symmetry; apply nth_error_None; lia].
Qed.

Lemma recording_scores : forall E cs r, wf_recording E cs r ->
  exists tbl, frags_per_player_name E (encode (frames r)) = Ret tbl /\ tabulates tbl (all_scores r).
Proof.
  intros E cs r W. destruct (holds_scores _ _ _ _ (frames_hold _ _ _ W)) as [per [F Q]].
  rewrite concat_contents in Q by reflexivity. change (concat per = all_scores r) in Q.
  pose proof (recording_clients _ _ _ W) as C. rewrite <- Q.
  rewrite <- (app_nil_r (encode (frames r))) in *.
  apply (score_table_proof E (frames r) [] (Ok cs) per); [apply (frames_wf _ _ _ W) | apply stops_nil | | exact C | exact F].
  rewrite app_nil_r. apply (w_size _ _ _ W).
Qed.

(** ** The end *)

Lemma recording_finished : forall r, finished (encode (frames r)).
Proof.
  intros r. unfold frames, tail_frames. rewrite !app_assoc, encode_app, encode_one.
  set (p := encode _). exists (p ++ [x00; x06; x0b; x00; x00]). split.
  - destruct p; discriminate.
  - rewrite <- app_assoc. reflexivity.
Qed.

Lemma recording_not_paused : forall r, is_paused (encode (frames r)) = false.
Proof.
  intros r. destruct (is_paused (encode (frames r))) eqn:P; [| reflexivity].
  apply paused_proof in P. pose proof (recording_finished r). tauto.
Qed.

Lemma recording_valid : forall E cs r, wf_recording E cs r -> is_valid E (encode (frames r)) = Ret true.
Proof.
  intros E cs r W. apply is_valid_true_proof. destruct (w_size _ _ _ W) as [S _]. split; [exact S |].
  split; [apply recording_finished |]. split; [eexists; apply (recording_has_info E cs); exact W |].
  rewrite (recording_users E cs r W). destruct (w_users _ _ _ W) as (NE & _). destruct (r_users r) as [| u l]; [contradiction |].
  eexists. eexists. reflexivity.
Qed.

(** ** The statistics *)

Definition block_of (s : N * bytes) : block :=
  mkSblock ([x00; x03; x00; x00; x00; x00] ++ enc32 (len (stats_body s))) (fst s) (snd s).

Lemma encode_block_of : forall s, encode_block (block_of s) = encode_frame (stats_of s).
Proof.
  intros s. unfold encode_block, encode_frame, stats_of. cbn [sb_header sb_number sb_content block_of f_time f_type f_mask f_body].
  change (has_length x03) with true. cbn iota. unfold stats_body at 3. rewrite <- app_assoc. reflexivity.
Qed.

Lemma encode_blocks : forall l, concat (map encode_block (map block_of l)) = encode (map stats_of l).
Proof. intros l. unfold encode. f_equal. rewrite !map_map. apply map_ext. exact encode_block_of. Qed.

Definition before_stats (r : recording) : bytes := encode (head_frames r ++ map frame_of (timeline r)).

Lemma data_stats : forall r, encode (frames r) = before_stats r ++ encode (map stats_of (r_stats r)) ++ encode_frame end_frame.
Proof. intros r. unfold frames, tail_frames, before_stats. rewrite !encode_app, encode_one, <- !app_assoc. reflexivity. Qed.

(** what lies before the end frame is not completed by it *)
Lemma end_clear : forall d p, p <> [] -> ~ In x00 p -> ~ occurs d p -> ~ occurs (tl (encode_frame end_frame)) p ->
  ~ occurs (d ++ encode_frame end_frame) p.
Proof.
  intros d p NE N0 ND NT O. apply occurs_iff in O. destruct O as [j O].
  change (encode_frame end_frame) with (x00 :: tl (encode_frame end_frame)) in O.
  pose proof (occurs_at_sep _ _ _ _ _ N0 O) as [X | [X | X]]; [| | contradiction].
  - apply ND. apply occurs_iff. eexists. apply (occurs_at_left d) in O; [exact O | exact X].
  - apply NT. apply occurs_iff. eexists. change (d ++ x00 :: tl (encode_frame end_frame)) with (d ++ [x00] ++ tl (encode_frame end_frame)) in O.
    rewrite app_assoc in O. apply (occurs_at_right (d ++ [x00])) in O; [exact O |]. rewrite len_app, len_cons, len_nil. lia.
Qed.

(** the last occurrence of a mark whose first letter does not come back *)
Lemma last_here : forall a c p y, ~ In c p -> ~ occurs y (c :: p) -> last_at (a ++ (c :: p) ++ y) (c :: p) (len a).
Proof.
  intros a c p y NC NY. split; [eexists; eexists; split; reflexivity |]. intros j O.
  destruct (N.le_gt_cases j (len a)) as [L | G]; [exact L | exfalso].
  cbn [app] in O. change (a ++ c :: p ++ y) with (a ++ [c] ++ p ++ y) in O. rewrite app_assoc in O.
  apply (occurs_at_right (a ++ [c])) in O; [| rewrite len_app, len_cons, len_nil; lia].
  pose proof (occurs_at_not_in _ _ _ _ _ NC O) as L. apply NY. apply occurs_iff. eexists.
  apply (occurs_at_right p) in O; [exact O | exact L].
Qed.

Lemma recording_stats : forall E cs r, wf_recording E cs r ->
  ktxstats_string E (encode (frames r)) = Ret (Ok (concat (map snd (r_stats r)))).
Proof.
  intros E cs r W. destruct (w_blocks _ _ _ W) as [init [c [S NI]]]. pose proof (w_text _ _ _ W) as U.
  assert (utf8_valid (concat (map snd (r_stats r))) = true) as V by (apply utf8_valid_iff; exact U).
  set (data := encode (frames r)).
  assert (len data < usize_bound) as LB.
  { destruct (w_size _ _ _ W) as [_ B]. eapply N.lt_trans; [exact B |]. reflexivity. }
  assert (last_at data version_mark (len (before_stats r) + 18)) as LA.
  { destruct (w_version _ _ _ W) as [n [more [l [SV NO]]]]. unfold data. rewrite data_stats, SV.
    change (map stats_of ((n, version_mark ++ more) :: l)) with ([stats_of (n, version_mark ++ more)] ++ map stats_of l).
    rewrite encode_app, encode_one.
    assert (exists h, len h = 18 /\ encode_frame (stats_of (n, version_mark ++ more)) = h ++ version_mark ++ more) as [h [LH ->]].
    { exists ([x00; x03; x00; x00; x00; x00] ++ enc32 (len (stats_body (n, version_mark ++ more))) ++
              enc32 (len (version_mark ++ more) + 2) ++ enc16 3 ++ enc16 n). split; [reflexivity |].
      unfold encode_frame, stats_of. cbn [f_time f_type f_mask f_body].
      change (has_length x03) with true. cbn iota. unfold stats_body at 2. cbn [fst snd]. rewrite <- !app_assoc. reflexivity. }
    replace (len (before_stats r) + 18) with (len (before_stats r ++ h)) by (rewrite len_app, LH; reflexivity).
    rewrite <- !app_assoc. rewrite (app_assoc (before_stats r)). change version_mark with (x7b :: lit """version"": ").
    apply last_here; [apply not_in; reflexivity |].
    rewrite app_assoc. apply end_clear; [discriminate | apply not_in; reflexivity | exact NO | apply find_none; reflexivity]. }
  rewrite (ktxstats_embedded_proof E data (len (before_stats r) + 18) (concat (map snd (r_stats r)))); [rewrite V; reflexivity | exact LA | lia | exact LB |].
  replace (len (before_stats r) + 18 - 18) with (len (before_stats r)) by lia. unfold data. rewrite data_stats, skipn_len_app.
  exists (map block_of (r_stats r)), (encode_frame end_frame). split; [rewrite encode_blocks; reflexivity |]. split; [| split].
  - apply Forall_map. eapply Forall_impl; [| apply (w_stats _ _ _ W)]. intros s (H1 & H2 & _).
    split; [reflexivity |]. split; [exact H1 |]. cbn [sb_content block_of]. lia.
  - rewrite map_map. reflexivity.
  - left. exists (map block_of init), (block_of (0, c)). split; [rewrite S, map_app; reflexivity |]. split; [reflexivity |].
    apply Forall_map. exact NI.
Qed.

(** ** The date *)

Definition countdown_frames (r : recording) : list frame := head_frames r ++ map frame_of (r_countdown r).
Definition after_date (r : recording) : list frame := map frame_of (r_match r ++ [over_entry r]) ++ tail_frames r.
Definition date_frame (r : recording) : frame := frame_of (date_entry r).

Lemma frames_date : forall r, frames r = countdown_frames r ++ date_frame r :: after_date r.
Proof.
  intros r. unfold frames, countdown_frames, after_date, timeline, date_frame. rewrite map_app, <- !app_assoc. reflexivity.
Qed.

Lemma date_body_len : forall r, len (f_body (date_frame r)) = len (r_date r) + 15.
Proof.
  intros r. unfold date_frame, frame_of, date_entry. cbn [e_news f_body body]. rewrite PrintFacts.len_encode_message. cbn [m_text].
  rewrite !len_app. change (len (lit "matchdate: ")) with 11. change (len [x0a]) with 1. lia.
Qed.

Lemma data_date : forall r, encode (frames r) =
  (encode (countdown_frames r) ++ [r_date_time r; x06] ++ enc32 (len (f_body (date_frame r)))) ++
  matchdate_mark ++ r_date r ++ [x0a] ++ [x00] ++ encode (after_date r).
Proof.
  intros r. rewrite frames_date, encode_app. change (date_frame r :: after_date r) with ([date_frame r] ++ after_date r).
  rewrite encode_app, encode_one. unfold encode_frame. change (f_time (date_frame r)) with (r_date_time r).
  change (f_type (date_frame r)) with x06. change (f_mask (date_frame r)) with (@nil byte). change (has_length x06) with true. cbn iota.
  assert (f_body (date_frame r) = matchdate_mark ++ r_date r ++ [x0a] ++ [x00]) as ->.
  { unfold date_frame, frame_of, date_entry. cbn [e_news f_body body]. unfold encode_message. cbn [m_level m_text].
    rewrite <- !app_assoc. reflexivity. }
  rewrite <- !app_assoc. cbn [app]. rewrite <- !app_assoc. cbn [app]. reflexivity.
Qed.

Lemma small_enc32 : forall n, n < 256 -> enc32 n = [Mvd.byte_of n; x00; x00; x00].
Proof.
  intros n H. unfold enc32. rewrite (N.div_small n 256) by exact H. rewrite (N.div_small n 65536) by lia. rewrite (N.div_small n 16777216) by lia. reflexivity.
Qed.

Lemma date_first : forall E cs r, wf_recording E cs r ->
  first_at (encode (frames r)) matchdate_mark (len (encode (countdown_frames r)) + 6).
Proof.
  intros E cs r W. rewrite data_date. destruct (w_date _ _ _ W) as ([L1 L2] & _).
  rewrite small_enc32 by (rewrite date_body_len; lia). set (l := Mvd.byte_of _).
  set (P := encode (countdown_frames r)). set (post := r_date r ++ _).
  split.
  - eexists; eexists; split; [reflexivity |]. rewrite len_app. reflexivity.
  - intros j O. 
    assert (j + 13 <= len P + 1 \/ len P + 1 < j) as H1.
    { assert ((P ++ [r_date_time r; x06] ++ [l; x00; x00; x00]) ++ matchdate_mark ++ post =
              (P ++ [r_date_time r]) ++ x06 :: [l; x00; x00; x00] ++ matchdate_mark ++ post) as Q by (rewrite <- !app_assoc; reflexivity).
      rewrite Q in O. apply occurs_at_sep in O; [| apply not_in; reflexivity]. rewrite len_app in O. change (len [r_date_time r]) with 1 in O.
      change (len matchdate_mark) with 13 in O. destruct O as [O | [O | O]]; [left; exact O | right; exact O | discriminate]. }
    destruct H1 as [H1 | H1].
    + exfalso. apply (w_no_date _ _ _ W). fold (countdown_frames r). fold P. apply occurs_iff. exists j.
      assert (occurs_at ((P ++ [r_date_time r; x06] ++ [l; x00; x00; x00]) ++ matchdate_mark ++ post) ([x08; x02] ++ lit "matchdate:") j) as O'.
      { destruct O as [a [b [D LA]]]. exists a, (x20 :: b). split; [rewrite D; reflexivity | exact LA]. }
      rewrite <- app_assoc in O'. apply (occurs_at_left P) in O'; [exact O' |]. change (len ([x08; x02] ++ lit "matchdate:")) with 12. lia.
    + assert ((P ++ [r_date_time r; x06] ++ [l; x00; x00; x00]) ++ matchdate_mark ++ post =
              (P ++ [r_date_time r; x06] ++ [l; x00; x00]) ++ x00 :: matchdate_mark ++ post) as Q by (rewrite <- !app_assoc; reflexivity).
      rewrite Q in O. apply occurs_at_sep in O; [| apply not_in; reflexivity]. rewrite len_app in O.
      change (len ([r_date_time r; x06] ++ [l; x00; x00])) with 5 in O.
      change (len matchdate_mark) with 13 in O. destruct O as [O | [O | O]]; [lia | lia | discriminate].
Qed.

Lemma recording_date : forall E cs r, wf_recording E cs r -> matchdate_string (encode (frames r)) = Ret (Ok (r_date r)).
Proof.
  intros E cs r W. apply matchdate_string_ok_proof. pose proof (date_first _ _ _ W) as F.
  destruct (w_date _ _ _ W) as (L & NL & _ & U & _). split; [| split; [exact L | exact U]].
  eexists. exists (encode (countdown_frames r) ++ [r_date_time r; x06] ++ enc32 (len (f_body (date_frame r)))), ([x00] ++ encode (after_date r)).
  split; [apply data_date |]. split; [reflexivity |]. split.
  - replace (len _) with (len (encode (countdown_frames r)) + 6); [exact F |].
    rewrite len_app. reflexivity.
  - split; [eexists; eexists; split; reflexivity |]. intros j O. apply (occurs_at_not_in (r_date r) _ x0a [] j NL O).
Qed.

(** ** The times *)

Definition total_time (fs : list frame) : N := fold_right N.add 0 (map (fun f => n_of (f_time f)) fs).

Lemma total_time_app : forall a b, total_time (a ++ b) = total_time a + total_time b.
Proof.
  intros a b. unfold total_time. induction a as [| f a IH]; [reflexivity |]. cbn [map fold_right app]. unfold total_time in IH. rewrite IH. lia.
Qed.

Lemma len_frame_pos : forall f, 0 < len (encode_frame f).
Proof. intros f. unfold encode_frame. rewrite len_cons. lia. Qed.

Lemma elapsed_late : forall fs at_ target, target <= at_ ->
  filter (fun x => fst x <? target) (located at_ fs) = [].
Proof.
  induction fs as [| f fs IH]; intros at_ target H; [reflexivity |]. cbn [located filter fst].
  replace (at_ <? target) with false by lia. apply IH. pose proof (len_frame_pos f). lia.
Qed.

Lemma elapsed_in_frame : forall a f b at_ target,
  at_ + len (encode a) < target <= at_ + len (encode a) + len (encode_frame f) ->
  fold_right N.add 0 (map (fun x => n_of (f_time (snd x))) (filter (fun x => fst x <? target) (located at_ (a ++ f :: b)))) =
  total_time a + n_of (f_time f).
Proof.
  induction a as [| g a IH]; intros f b at_ target H.
  - cbn [app located filter fst]. change (len (encode [])) with 0 in H. replace (at_ <? target) with true by lia.
    cbn [map fold_right snd]. rewrite elapsed_late by lia. cbn [map fold_right]. change (total_time []) with 0. lia.
  - cbn [app located filter fst]. change (encode (g :: a)) with (encode_frame g ++ encode a) in H. rewrite len_app in H.
    replace (at_ <? target) with true by lia. cbn [map fold_right snd]. rewrite IH by lia.
    change (total_time (g :: a)) with (n_of (f_time g) + total_time a). lia.
Qed.

Lemma total_time_frames : forall l, total_time (map frame_of l) = lasts l.
Proof. intros l. unfold total_time, lasts. rewrite map_map. reflexivity. Qed.

Lemma total_time_head : forall r, total_time (head_frames r) = 0.
Proof. reflexivity. Qed.

Lemma lasts_app : forall a b, lasts (a ++ b) = lasts a + lasts b.
Proof. intros a b. unfold lasts. induction a as [| f a IH]; [reflexivity |]. cbn [map fold_right app]. unfold lasts in IH. rewrite IH. lia. Qed.

Lemma elapsed_date : forall r, elapsed (len (encode (countdown_frames r)) + 6) (frames r) = lasts (r_countdown r ++ [date_entry r]).
Proof.
  intros r. rewrite frames_date. unfold elapsed. rewrite elapsed_in_frame.
  - unfold countdown_frames. rewrite total_time_app, total_time_head, total_time_frames, lasts_app. unfold lasts at 3. cbn [map fold_right]. change (f_time (date_frame r)) with (e_time (date_entry r)). lia.
  - unfold encode_frame. change (f_type (date_frame r)) with x06. change (has_length x06) with true. cbn iota.
    rewrite !len_cons, !len_app, len_enc32. lia.
Qed.

Definition match_frames (r : recording) : list frame :=
  head_frames r ++ map frame_of (r_countdown r ++ date_entry r :: r_match r).
Definition over_frame (r : recording) : frame := frame_of (over_entry r).

Lemma frames_over : forall r, frames r = match_frames r ++ over_frame r :: tail_frames r.
Proof.
  intros r. unfold frames, match_frames, timeline, over_frame.
  replace (r_countdown r ++ date_entry r :: r_match r ++ [over_entry r])
    with ((r_countdown r ++ date_entry r :: r_match r) ++ [over_entry r]) by (rewrite <- app_assoc; reflexivity).
  rewrite (map_app frame_of _ [over_entry r]), <- !app_assoc. reflexivity.
Qed.

Lemma data_over : forall r, exists h, len h = 8 /\ encode (frames r) =
  (encode (match_frames r) ++ h) ++ match_over ++ [x0a; x00] ++ encode (tail_frames r).
Proof.
  intros r. exists [r_over_time r; x06; x15; x00; x00; x00; x08; x02]. split; [reflexivity |].
  rewrite frames_over, encode_app. change (over_frame r :: tail_frames r) with ([over_frame r] ++ tail_frames r).
  rewrite encode_app, encode_one.
  change (encode_frame (over_frame r)) with ([r_over_time r; x06; x15; x00; x00; x00; x08; x02] ++ match_over ++ [x0a; x00]).
  rewrite <- !app_assoc. reflexivity.
Qed.

Lemma over_last : forall E cs r, wf_recording E cs r ->
  end_marker (encode (frames r)) (len (encode (match_frames r)) + 8).
Proof.
  intros E cs r W. left. destruct (data_over r) as [h [LH ->]].
  replace (len (encode (match_frames r)) + 8) with (len (encode (match_frames r) ++ h)) by (rewrite len_app, LH; reflexivity).
  change match_over with (x54 :: lit "he match is over"). apply last_here; [apply not_in; reflexivity |].
  unfold tail_frames. rewrite encode_app, encode_one. intros O. apply occurs_iff in O. destruct O as [j O].
  assert (~ In x54 [x0a; x00]) as NT by (apply not_in; reflexivity).
  pose proof (occurs_at_not_in _ _ _ _ _ NT O) as G. apply (occurs_at_right [x0a; x00]) in O; [| exact G].
  assert (~ occurs (encode (map stats_of (r_stats r)) ++ encode_frame end_frame) match_over) as N.
  { apply end_clear; [discriminate | apply not_in; reflexivity | apply (w_no_over _ _ _ W) | apply find_none; reflexivity]. }
  apply N. apply occurs_iff. eexists. exact O.
Qed.

Lemma elapsed_over : forall r, elapsed (len (encode (match_frames r)) + 8) (frames r) = lasts (timeline r).
Proof.
  intros r. rewrite frames_over. unfold elapsed. rewrite elapsed_in_frame.
  - unfold match_frames. rewrite total_time_app, total_time_head, total_time_frames. unfold timeline.
    change (date_entry r :: r_match r ++ [over_entry r]) with ((date_entry r :: r_match r) ++ [over_entry r]).
    rewrite app_assoc, (lasts_app _ [over_entry r]). unfold lasts at 3. cbn [map fold_right]. change (f_time (over_frame r)) with (e_time (over_entry r)). lia.
  - change (len (encode_frame (over_frame r))) with 27. lia.
Qed.

Lemma recording_demo_duration : forall E cs r, wf_recording E cs r ->
  exists d, demo_duration E (encode (frames r)) = Ret (Ok d) /\ Z.of_N d = ms_to_ns (lasts (timeline r)).
Proof.
  intros E cs r W. pose proof (over_last _ _ _ W) as M. rewrite <- elapsed_over.
  rewrite <- (app_nil_r (encode (frames r))) in *.
  apply demo_duration_proof; [apply (frames_wf _ _ _ W) | apply stops_nil | exact M |].
  rewrite elapsed_over. apply (w_lasts _ _ _ W).
Qed.

Lemma recording_serverinfo : forall E cs r, wf_recording E cs r ->
  serverinfo E (encode (frames r)) = Ret (Ok (settings_from E (to_utf8 E (r_info r)))).
Proof. intros E cs r W. apply serverinfo_found; [apply (w_size _ _ _ W) | apply (recording_has_info E cs); exact W]. Qed.

Lemma recording_countdown : forall E cs r, wf_recording E cs r ->
  st_mode (settings_from E (to_utf8 E (r_info r))) <> Some (lit "hoonymode") ->
  exists d, countdown_duration E (encode (frames r)) = Ret (Ok d) /\ Z.of_N d = ms_to_ns (lasts (r_countdown r ++ [date_entry r])).
Proof.
  intros E cs r W H. pose proof (date_first _ _ _ W) as F. pose proof (recording_serverinfo _ _ _ W) as S. rewrite <- elapsed_date.
  rewrite <- (app_nil_r (encode (frames r))) in *.
  eapply countdown_proof; [apply (frames_wf _ _ _ W) | apply stops_nil | exact S | | exact F |].
  - intros s Q. inv Q. exact H.
  - rewrite elapsed_date. pose proof (w_lasts _ _ _ W) as L. unfold timeline in L. rewrite !lasts_app in L. rewrite lasts_app.
    change (date_entry r :: r_match r ++ [over_entry r]) with ([date_entry r] ++ r_match r ++ [over_entry r]) in L. rewrite lasts_app in L. lia.
Qed.

Lemma recording_seeking : forall E cs r, wf_recording E cs r ->
  st_mode (settings_from E (to_utf8 E (r_info r))) <> Some (lit "hoonymode") ->
  exists d, match_duration_from_seeking E (encode (frames r)) = Ret (Ok d) /\
    Z.of_N d = (ms_to_ns (lasts (timeline r)) - ms_to_ns (lasts (r_countdown r ++ [date_entry r])))%Z.
Proof.
  intros E cs r W H. pose proof (recording_demo_duration _ _ _ W) as [d [D QD]]. pose proof (recording_countdown _ _ _ W H) as [c [C QC]].
  pose proof (recording_serverinfo _ _ _ W) as S. pose proof (over_last _ _ _ W) as M. pose proof (date_first _ _ _ W) as F.
  rewrite <- (app_nil_r (encode (frames r))) in *.
  destruct (seeking_proof E (frames r) [] _ _ (frames_wf _ _ _ W) (stops_nil _) S M) as [t [k [DT [CT [L R]]]]].
  - rewrite elapsed_over. apply (w_lasts _ _ _ W).
  - intros i I. assert (i = len (encode (countdown_frames r)) + 6) as -> by (eapply first_at_unique; [exact I | exact F]).
    unfold match_frames, countdown_frames. rewrite !encode_app, map_app, encode_app, !len_app. lia.
  - rewrite D in DT. injection DT as <-. exists (d - k). split; [exact R |].
    destruct CT as [CT | [e [CT _]]]; rewrite C in CT; [| discriminate]. injection CT as <-. rewrite <- QD, <- QC. lia.
Qed.

(** ** The players *)

Lemma total_none : forall name l, ~ In name (map fst l) -> Score.total name l = 0%Z.
Proof.
  intros name l. unfold Score.total. induction l as [| [n v] l IH]; intros H; [reflexivity |]. cbn [filter fst].
  destruct (beq n name) eqn:B.
  - exfalso. apply H. left. apply beq_eq. exact B.
  - apply IH. intros I. apply H. right. exact I.
Qed.

Lemma pings_of_none : forall p l, ~ In p (map fst l) -> pings_of p l = [].
Proof.
  intros p l. unfold pings_of. induction l as [| [n v] l IH]; intros H; [reflexivity |]. cbn [filter fst].
  destruct (n =? p) eqn:B.
  - exfalso. apply H. left. apply N.eqb_eq. exact B.
  - apply IH. intros I. apply H. right. exact I.
Qed.

Lemma pings_of_some : forall p l, In p (map fst l) -> is_empty (pings_of p l) = false.
Proof.
  intros p l. unfold pings_of. induction l as [| [n v] l IH]; intros H; [contradiction |]. cbn [filter fst].
  destruct (n =? p) eqn:B; [reflexivity |]. destruct H as [H | H]; [cbn [fst] in H; lia | apply IH; exact H].
Qed.

Lemma entry_portrait : forall r scores pings c p, tabulates scores (all_scores r) -> averages pings (pings_reported r) ->
  Teams.entry scores pings c p -> portrait r c p.
Proof.
  intros r scores pings c p (_ & TI & TV) (_ & PI & PV) [H1 H2 H3 HF HP H4 H5 H6]. constructor; try assumption.
  - destruct HF as [I | [N D]]; [apply TV; exact I |]. rewrite D, total_none; [reflexivity |].
    intros I. apply TI in I. contradiction.
  - destruct HP as [I | [N D]].
    + cbv zeta. rewrite pings_of_some; [apply PV; exact I |]. apply PI. apply in_map_iff. eexists. split; [| exact I]. reflexivity.
    + rewrite D. cbv zeta. rewrite pings_of_none; [reflexivity |]. intros I. apply PI in I. contradiction.
Qed.

Lemma recording_players_parsed : forall E cs r, wf_recording E cs r -> iterates (players_order E) -> pings_reported r <> [] ->
  exists es l, players_from_parsing E (encode (frames r)) = Ret (Ok l) /\
    Forall2 (portrait r) (filter (fun c => negb (c_is_spectator c)) cs) es /\
    Permutation es l /\ in_order_of better l.
Proof.
  intros E cs r W IT NE. pose proof (recording_pings _ _ _ W) as P. destruct (pings_reported r) as [| x y] eqn:Q; [contradiction |].
  cbn [is_empty] in P. destruct P as [pings [P A]]. rewrite <- Q in A. destruct (recording_scores _ _ _ W) as [scores [S T]].
  pose proof (recording_clients _ _ _ W) as C.
  destruct (players_parsed_all E (encode (frames r)) _ (filter (fun c => negb (c_is_spectator c)) cs) pings scores IT (recording_users _ _ _ W)) as (es & l & F & EN & PM & O).
  - destruct (w_users _ _ _ W) as (_ & L & _). unfold len. rewrite map_length. exact L.
  - unfold player_clients. rewrite C. reflexivity.
  - exact P.
  - exact S.
  - exists es, l. split; [exact F |]. split; [| split; assumption].
    eapply Forall2_impl; [| exact EN]. intros c p. apply entry_portrait; assumption.
Qed.

Lemma recording_players_listed : forall E cs r m, wf_recording E cs r -> iterates (players_order E) -> pings_reported r <> [] ->
  ktxstats_from E (concat (map snd (r_stats r))) = Err m ->
  exists es l, players E (encode (frames r)) = Ret (Ok l) /\
    Forall2 (portrait r) (filter (fun c => negb (c_is_spectator c)) cs) es /\
    Permutation es l /\ in_order_of better l.
Proof.
  intros E cs r m W IT NE K. destruct (recording_players_parsed _ _ _ W IT NE) as (es & l & F & H). exists es, l.
  split; [| exact H]. unfold players, ktxstats_v3. rewrite (recording_stats _ _ _ W). cbn [bind]. rewrite K. exact F.
Qed.
