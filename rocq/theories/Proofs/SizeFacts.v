(** Sizes of results: C65 *)
From Coq Require Import Lia ZifyN ZifyNat ZifyBool.
From Verif.Model Require Import Base Env Prot Message Prints Serverinfo Clientinfo Clients Ktxstats Matchdate Float Duration.
From Verif.Spec Require Import Occ Mvd Messages Texts Userinfo Stats Lax Times Clock.
From Verif.Proofs Require Import BaseFacts FrameFacts PrintFacts PrintProps TextFacts ClientFacts StatsFacts UserinfoFacts LaxFacts TimeFacts ClockFacts.

(** Prints *)
Lemma collapse_size : forall l,
  len (concat (map pr_content (collapse print_dec l))) + 3 * len (collapse print_dec l) <= len (concat (map pr_content l)) + 3 * len l.
Proof.
  induction l as [| x l IH]; [reflexivity |]. destruct l as [| y l]; [reflexivity |].
  rewrite collapse_cons2. remember (y :: l) as l'. clear Heql' l.
  cbn [map concat]. rewrite len_app. rewrite (len_cons _ x). destruct (print_dec x y).
  - lia.
  - cbn [map concat]. rewrite len_app, len_cons. lia.
Qed.

Lemma messages_size : forall body,
  len (concat (map m_text (messages body))) + 3 * len (messages body) <= len body.
Proof.
  intros body. destruct (proj2 (opens_with_messages body (messages body)) eq_refl) as [W [tail [EQ _]]].
  rewrite EQ at 3. generalize (messages body) as ms. clear. intros ms. rewrite len_app.
  assert (len (concat (map m_text ms)) + 3 * len ms <= len (concat (map encode_message ms))); [| lia].
  induction ms as [| m ms IH]; [reflexivity |]. cbn [map concat]. rewrite !len_app, len_cons.
  unfold encode_message at 1. rewrite !len_cons, len_app. change (len [x00]) with 1. lia.
Qed.

Lemma encode_frame_size : forall f, 2 + len (f_body f) <= len (encode_frame f).
Proof. intros f. unfold encode_frame. rewrite !len_cons, !len_app. lia. Qed.

Lemma filter_size : forall ms : list message,
  len (concat (map m_text (filter has_text ms))) + 3 * len (filter has_text ms) <= len (concat (map m_text ms)) + 3 * len ms.
Proof.
  induction ms as [| m ms IH]; [reflexivity |]. cbn [filter map concat]. rewrite len_app, len_cons.
  destruct (has_text m); cbn [map concat]; rewrite ?len_app, ?len_cons; lia.
Qed.

Lemma demo_messages_size : forall fs, demo_messages fs <> [] ->
  len (concat (map m_text (demo_messages fs))) + 3 * len (demo_messages fs) + 2 <= len (encode fs).
Proof.
  induction fs as [| f fs IH]; intros N; [contradiction N; reflexivity |].
  change (f :: fs) with ([f] ++ fs) in *. rewrite demo_messages_app in *. rewrite map_app, concat_app, !len_app.
  change (encode ([f] ++ fs)) with (encode_frame f ++ encode fs). rewrite len_app.
  assert (len (concat (map m_text (demo_messages [f]))) + 3 * len (demo_messages [f]) <= len (f_body f)) as F.
  { unfold demo_messages. cbn [map concat flat_map]. rewrite ?app_nil_r.
    pose proof (filter_size (messages (f_body f))). pose proof (messages_size (f_body f)). lia. }
  pose proof (encode_frame_size f).
  destruct (demo_messages fs) eqn:D.
  - cbn [map concat]. change (len (@nil byte)) with 0. change (len (@nil message)) with 0. lia.
  - specialize (IH ltac:(discriminate)). lia.
Qed.

Lemma prints_size_proof : forall E data ps, prints E data = Ret ps -> ps <> [] ->
  len (concat (map pr_content ps)) + 3 * len ps + 2 <= len data.
Proof.
  intros E data ps H N. destruct (prints_cases E data) as [fs [rest [D [W [NF [[S P] | [O P]]]]]]]; rewrite P in H; inv H.
  rewrite len_app. pose proof (collapse_size (map as_print (demo_messages fs))) as C.
  rewrite map_map in C. change (map (fun x => pr_content (as_print x))) with (map m_text) in C.
  unfold len at 4 in C. rewrite map_length in C. fold (len (demo_messages fs)) in C.
  assert (demo_messages fs <> []) as M. { intros M. rewrite M in N. apply N. reflexivity. }
  pose proof (demo_messages_size fs M). lia.
Qed.

(** The statistics *)
Lemma blocks_size : forall bs, Forall wf_block bs ->
  len (concat (map encode_block bs)) = len (concat (map sb_content bs)) + 18 * len bs.
Proof.
  induction 1 as [| b bs W F IH]; [reflexivity |]. cbn [map concat]. rewrite !len_app, len_cons, len_encode_block, IH by exact W. lia.
Qed.

Lemma skipn_size : forall (data : bytes) k, len (skipn (N.to_nat k) data) = len data - k.
Proof. intros. unfold len. rewrite skipn_length. lia. Qed.

Lemma ktxstats_size_proof : forall E data text, len data < 9223372036854775808 ->
  ktxstats_string E data = Ret (Ok text) -> len text + 8 <= len data.
Proof.
  intros E data text LD H. destruct (rfind data version_mark) as [k |] eqn:F.
  - apply rfind_some in F. pose proof F as [O _]. apply occurs_at_le in O. change (len version_mark) with 12 in O.
    destruct (checked E) eqn:C.
    + assert (len data < usize_bound) as B by (unfold usize_bound; lia).
      destruct (ktxstats_returns_proof E data k _ C B F H) as [K [t EM]].
      rewrite (ktxstats_embedded_proof E data k t F K B EM) in H. destruct (utf8_valid t); inv H.
      destruct EM as [bs [rest [D [W [-> _]]]]]. pose proof (skipn_size data (k - 18)) as L. rewrite D, len_app, blocks_size in L by exact W.
      destruct bs; [cbn [map concat]; change (len (@nil byte)) with 0; lia | rewrite len_cons in L; lia].
    + destruct (ktxstats_unchecked_inv E data k _ C LD F H) as [K [t EM]].
      rewrite (ktxstats_unchecked_proof E data k t C LD F K EM) in H. destruct (utf8_valid t); inv H.
      destruct EM as [bs [rest [D [W [-> _]]]]]. pose proof (skipn_size data (k - 8)) as L.
      apply (f_equal len) in D. unfold from_block in D. rewrite !len_app, blocks_size in D by exact W. rewrite L in D.
      change (len (repeat x00 10)) with 10 in D.
      destruct bs; [cbn [map concat]; change (len (@nil byte)) with 0; lia | rewrite len_cons in D; lia].
  - assert (~ occurs data version_mark) as N. { intros [a [b O]]. apply rfind_none in F. apply F. exists a, b. exact O. }
    apply (ktxstats_missing_proof E) in N. rewrite N in H. discriminate.
Qed.

(** The serverinfo *)
Lemma serverinfo_size_proof : forall E data s, serverinfo_string E data = Ret (Ok s) ->
  exists raw, s = to_utf8 E raw /\ 1 <= len raw <= 1263 /\ occurs data raw.
Proof.
  intros E data s H. destruct (N.lt_ge_cases (len data) 1280) as [L | L]; [rewrite serverinfo_string_short in H by exact L; discriminate |].
  destruct (has_serverinfo_dec data) as [[info I] | N].
  - rewrite (serverinfo_string_found E data info L I) in H. inv H. exists info. split; [reflexivity |].
    destruct I as [NE [from [x [z [D [_ _]]]]]]. pose proof (firstn_le_length 1280 data) as FL. rewrite D in FL.
    rewrite !app_length in FL. change (length serverinfo_mark) with 16%nat in FL. change (length (lit """")) with 1%nat in FL.
    split; [unfold len; destruct info; [contradiction | cbn [length] in *; lia] |].
    exists (x ++ serverinfo_mark), (lit """" ++ z ++ skipn 1280 data). rewrite <- (firstn_skipn 1280 data) at 1. rewrite D, <- !app_assoc. reflexivity.
  - rewrite (serverinfo_string_missing E data L N) in H. discriminate.
Qed.

(** Durations *)
Lemma elapsed_size : forall target fs, elapsed target fs <= 255 * len fs.
Proof.
  intros target fs. unfold elapsed. generalize 0 at 2 as o. induction fs as [| f fs IH]; intros o; [reflexivity |].
  cbn [located filter map]. rewrite len_cons. specialize (IH (o + len (encode_frame f))). pose proof (Byte.to_N_bounded (f_time f)).
  unfold n_of at 1. cbn [fst snd]. destruct (o <? target); cbn [map fold_right snd]; unfold n_of in *; lia.
Qed.

Lemma frames_size : forall fs, 2 * len fs <= len (encode fs).
Proof.
  induction fs as [| f fs IH]; [reflexivity |]. change (encode (f :: fs)) with (encode_frame f ++ encode fs).
  rewrite len_cons, len_app. pose proof (encode_frame_size f). lia.
Qed.

Lemma until_size : forall E data target d, duration_until_offset E data target = Ret d ->
  (Z.of_N d <= ms_to_ns (255 * (len data / 2)) /\ Z.of_N d <= ms_to_ns 4294967295)%Z.
Proof.
  intros E data target d H. destruct (decompose data) as [fs [rest [-> [W N]]]].
  destruct (until_clock E fs rest target W N) as [r [C R]]. rewrite H in R. cbn [bind] in R.
  destruct r as [ms | |]; inversion R. subst. destruct (ms_to_ns_value ms (clock_small _ _ _ _ _ C)) as [_ P].
  rewrite Z2N.id by exact P. split; apply ms_to_ns_mono_proof; [| pose proof (clock_small _ _ _ _ _ C); lia].
  inversion C. subst ms. pose proof (elapsed_size target fs). pose proof (frames_size fs). rewrite len_app.
  pose proof (N.mod_le (elapsed target fs) 4294967296 ltac:(discriminate)).
  assert (len fs <= (len (encode fs) + len rest) / 2); [| lia]. apply N.div_le_lower_bound; lia.
Qed.

Lemma durations_size_proof : forall E data d,
  demo_duration E data = Ret (Ok d) \/ countdown_duration E data = Ret (Ok d) \/ match_duration_from_seeking E data = Ret (Ok d) ->
  (Z.of_N d <= ms_to_ns (255 * (len data / 2)) /\ Z.of_N d <= ms_to_ns 4294967295)%Z.
Proof.
  intros E data d.
  assert (forall d, demo_duration E data = Ret (Ok d) -> (Z.of_N d <= ms_to_ns (255 * (len data / 2)) /\ Z.of_N d <= ms_to_ns 4294967295)%Z) as DD.
  { clear d. intros d H. unfold demo_duration in H. apply bind_ret_inv in H. destruct H as [x [H R]]. inv R. exact (until_size _ _ _ _ H). }
  intros [H | [H | H]].
  - exact (DD d H).
  - unfold countdown_duration in H. apply bind_ret_inv in H. destruct H as [s [_ H]].
    destruct (is_hoonymode s).
    + inv H. assert (0 <= ms_to_ns 0)%Z by (apply ms_to_ns_value; reflexivity).
      split; (apply Z.le_trans with (ms_to_ns 0); [assumption | apply ms_to_ns_mono_proof; lia]).
    + destruct (find data MATCHDATE_NEEDLE); [| discriminate]. apply bind_ret_inv in H. destruct H as [x [H R]]. inv R. exact (until_size _ _ _ _ H).
  - unfold match_duration_from_seeking in H. apply bind_ret_inv in H. destruct H as [r [D H]]. destruct r as [e |]; [| discriminate].
    apply bind_ret_inv in H. destruct H as [c [_ H]]. apply bind_ret_inv in H. destruct H as [x [S R]]. inv R.
    specialize (DD e D). unfold duration_sub in S. destruct (_ <=? _) eqn:L in S; [| discriminate]. inv S. lia.
Qed.

(** The longest duration: a bit less than fifty days *)
Lemma longest : ms_to_ns 4294967295 = 4294967500000000%Z.
Proof.
  assert (duration_of_ms 4294967295 = Ret 4294967500000000) as V by (vm_compute; reflexivity).
  destruct (ms_to_ns_value 4294967295 ltac:(reflexivity)) as [D P]. rewrite V in D. injection D as D.
  rewrite <- (Z2N.id (ms_to_ns 4294967295)) by exact P. rewrite <- D. reflexivity.
Qed.

(** Clients *)
Lemma step_bounds : forall data offset from text, step data offset from text ->
  offset < from + len text <= offset + 762.
Proof.
  intros data offset from text [_ [i [[OI [N _]] [[a [b [_ [_ [_ [FI IL]]]]]] [L1 L2]]]]]. split; [lia |].
  apply occurs_at_le in N. change (len name_key) with 6 in N.
  assert (len (firstn 512 (skipn (N.to_nat offset) data)) <= 512) by (unfold len; pose proof (firstn_le_length 512 (skipn (N.to_nat offset) data)); lia).
  lia.
Qed.

Lemma step_after_nul : forall data offset from text p q, step data offset from text -> data = p ++ x00 :: q -> len p = offset -> offset < from.
Proof.
  intros data offset from text p q [_ [i [[OI N] [[a [b [D [-> [NI [FI IL]]]]]] _]]]] DP LP.
  destruct (N.lt_ge_cases offset (len a + 1)) as [| G]; [assumption |]. exfalso.
  apply NI. assert (nth_error data (length p) = Some x00) as X by (rewrite DP; apply nth_error_mid).
  rewrite D in X. rewrite nth_error_app2 in X by (unfold len in *; lia).
  destruct (length p - length a)%nat as [| k] eqn:K; [unfold len in *; lia |]. cbn [nth_error] in X.
  rewrite nth_error_app1 in X by (unfold len in *; lia). exact (nth_error_In _ _ X).
Qed.

Lemma stretch_end : forall data offset from text, step data offset from text -> exists p q, data = p ++ x00 :: q /\ len p = from + len text.
Proof.
  intros data offset from text [_ [i [_ [[a [b [D [-> _]]]] _]]]]. exists (a ++ x00 :: text), b.
  split; [rewrite D, <- app_assoc; reflexivity | rewrite len_app, len_cons; lia].
Qed.

Lemma search_size : forall data limit offset st, search data limit offset st -> offset < limit ->
  forall p q, data = p ++ x00 :: q -> len p = offset ->
  offset + len (concat st) + len st <= limit + 761.
Proof.
  induction 1 as [offset L N | offset from text S L | offset from text l S L R IH]; intros B p q D LP.
  - cbn [concat]. change (len (@nil byte)) with 0. change (len (@nil bytes)) with 0. lia.
  - cbn [concat]. rewrite app_nil_r. change (len [text]) with 1. pose proof (step_bounds _ _ _ _ S). pose proof (step_after_nul _ _ _ _ _ _ S D LP). lia.
  - cbn [concat]. rewrite len_app, len_cons. pose proof (step_after_nul _ _ _ _ _ _ S D LP).
    destruct (stretch_end _ _ _ _ S) as [p' [q' [D' LP']]]. specialize (IH L p' q' D' LP'). lia.
Qed.

Lemma search_total : forall data limit offset st, search data limit offset st -> offset < limit ->
  Forall (fun s => 7 <= len s <= 256) st /\ offset + len (concat st) + len st <= limit + 1018.
Proof.
  intros data limit offset st S B. split.
  - clear B. induction S as [| offset from text S | offset from text l S L R IH]; constructor; try (destruct S as [_ [i [_ [_ L']]]]; exact L'); auto.
  - inversion S as [o L N | o from text ST L | o from text l ST L R]; subst.
    + cbn [concat]. change (len (@nil byte)) with 0. change (len (@nil bytes)) with 0. lia.
    + cbn [concat]. rewrite app_nil_r. change (len [text]) with 1. destruct ST as [_ [i [_ [_ L']]]]. lia.
    + cbn [concat]. rewrite len_app, len_cons. destruct (stretch_end _ _ _ _ ST) as [p' [q' [D' LP']]].
      pose proof (search_size _ _ _ _ R L p' q' D' LP'). pose proof (step_bounds _ _ _ _ ST). destruct ST as [_ [i [_ [_ L']]]]. lia.
Qed.

Lemma search_within : forall data limit offset st, search data limit offset st ->
  forall p q, data = p ++ x00 :: q -> len p = offset -> offset + len (concat st) + len st < len data.
Proof.
  induction 1 as [offset L N | offset from text S L | offset from text l S L R IH]; intros p q D LP.
  - cbn [concat]. change (len (@nil byte)) with 0. change (len (@nil bytes)) with 0. lia.
  - cbn [concat]. rewrite app_nil_r. change (len [text]) with 1. pose proof (step_after_nul _ _ _ _ _ _ S D LP).
    destruct (stretch_end _ _ _ _ S) as [p' [q' [D' LP']]]. rewrite D', len_app, len_cons, LP'. lia.
  - cbn [concat]. rewrite len_app, len_cons. pose proof (step_after_nul _ _ _ _ _ _ S D LP).
    destruct (stretch_end _ _ _ _ S) as [p' [q' [D' LP']]]. specialize (IH p' q' D' LP'). lia.
Qed.

Lemma search_data : forall data limit offset st, search data limit offset st -> len (concat st) + len st < len data.
Proof.
  intros data limit offset st S. inversion S as [o L N | o from text ST L | o from text l ST L R]; subst; cbn [concat].
  - change (len (@nil byte)) with 0. change (len (@nil bytes)) with 0. lia.
  - rewrite app_nil_r. change (len [text]) with 1. destruct ST as [_ [i [_ [[a [b [D [_ _]]]] _]]]].
    rewrite D, len_app, len_cons, len_app, len_cons. lia.
  - rewrite len_app, len_cons. destruct (stretch_end _ _ _ _ ST) as [p' [q' [D' LP']]].
    pose proof (search_within _ _ _ _ R p' q' D' LP'). destruct ST as [_ [i [_ [[a [b [D [F _]]]] _]]]]. lia.
Qed.

Lemma concat_size : forall st : list bytes, Forall (fun s => 7 <= len s <= 256) st -> 7 * len st <= len (concat st).
Proof. induction 1 as [| s st P F IH]; [reflexivity |]. cbv beta in P. unfold bytes in *. cbn [concat]. rewrite len_cons, len_app. lia. Qed.

Lemma clientinfo_size_proof : forall E data l, clientinfo_strings E data = Ret (Ok l) ->
  exists raw, l = map (to_unicode E) raw /\ Forall (fun s => 7 <= len s <= 256) raw /\
    len (concat raw) + len raw < len data /\ len (concat raw) + len raw <= 13306 /\ len raw <= 1663.
Proof.
  intros E data l H. destruct (clientinfo_strings_shape_proof E data l H) as [spawn [_ [F _]]].
  apply (proj1 (clientinfo_exact_proof E data spawn F)) in H. destruct H as [st [S ->]]. exists st. split; [reflexivity |].
  destruct (search_total _ _ _ _ S) as [FA T]; [lia |]. split; [exact FA |]. split; [exact (search_data _ _ _ _ S) |].
  pose proof (concat_size st FA). lia.
Qed.

Lemma clients_size_proof : forall E data cs, clients E data = Ret (Ok cs) -> len cs <= 1663.
Proof.
  intros E data cs H. destruct (clients_inv E data cs H) as [l [S ->]].
  destruct (clientinfo_size_proof E data l S) as [raw [-> [_ [_ [_ L]]]]]. unfold len in *. rewrite number_clients_length, ?map_length. lia.
Qed.
