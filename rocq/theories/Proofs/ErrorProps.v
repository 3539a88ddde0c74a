(** The exact texts of the errors. *)
From Coq Require Import Lia ZifyN ZifyNat ZifyBool.
From Verif.Model Require Import Base Utf8Error Env Serverinfo Clientinfo Clients Timezone Matchdate FragEvent FlagEvent Ktxstats.
From Verif.Spec Require Import Occ Mvd Texts Times Utf8 Dates Obituary Flags Stats Faults.
From Verif.Proofs Require Import BaseFacts FrameFacts Utf8Facts FaultFacts TextFacts DateFacts ServerFacts StatsFacts ObituaryFacts FlagFacts.
Open Scope N_scope.

Lemma lit_append : forall a b, lit (a ++ b)%string = lit a ++ lit b.
Proof. induction a as [| c a IH]; intros b; [reflexivity |]. cbn. f_equal. apply IH. Qed.

Lemma decimal_proof : forall n, exists ds, lit (decimal n) = numeral ds /\ decimal_of ds n.
Proof. intros n. destruct (display_N_proof n) as [ds [D P]]. exists ds. split; [exact D | exact P]. Qed.

Lemma error_text_fault : forall d i n, utf8_fault d i n -> fault_message (utf8_error_text d) i n.
Proof.
  intros d i n F. apply scan_fault in F. unfold utf8_error_text. rewrite F.
  destruct (decimal_proof i) as [di [Li Di]]. exists di. split; [exact Di |]. destruct n as [n |].
  - destruct (decimal_proof n) as [dn [Ln Dn]]. exists dn. split; [exact Dn |].
    rewrite !lit_append, Li, Ln. reflexivity.
  - rewrite lit_append, Li. reflexivity.
Qed.

Lemma fault_exists : forall d, ~ utf8_text d -> exists i n, utf8_fault d i n.
Proof.
  intros d H. destruct (utf8_scan d 0) as [[i n] |] eqn:S.
  - exists i, n. apply scan_fault. exact S.
  - exfalso. apply H. apply scan_none. exact S.
Qed.

Lemma fault_unique : forall d i n j m, utf8_fault d i n -> utf8_fault d j m -> i = j /\ n = m.
Proof. intros d i n j m H K. apply scan_fault in H, K. rewrite H in K. injection K as <- <-. auto. Qed.

Lemma fault_no_text : forall d i n, utf8_fault d i n -> ~ utf8_text d.
Proof. intros d i n H T. apply scan_fault in H. apply scan_none in T. congruence. Qed.

Lemma lit_bytes : forall s, lit (string_of_list_byte s) = s.
Proof. intros s. unfold lit. apply list_byte_of_string_of_list_byte. Qed.

(** ** matchdate_string() *)
Lemma matchdate_string_errors_proof : forall data,
  (~ occurs data matchdate_mark -> matchdate_string data = Ret (Err "Matchdate not found")) /\
  (occurs data matchdate_mark ->
   (forall text from, stands_between data matchdate_mark [x0a] text from -> ~ 22 <= len text <= 25) ->
   matchdate_string data = Ret (Err "Invalid matchdate")) /\
  (forall text from i n, stands_between data matchdate_mark [x0a] text from -> 22 <= len text <= 25 ->
   utf8_fault text i n ->
   exists m, matchdate_string data = Ret (Err m) /\ fault_message m i n).
Proof.
  intros data. unfold matchdate_string. rewrite matchdate_mark_needle. split; [| split].
  - intros H. apply find_none in H. rewrite H. reflexivity.
  - intros O H. destruct (find data matchdate_mark) as [k |] eqn:F; [| apply find_none in F; contradiction].
    apply find_some in F. pose proof F as F0. destruct F as [[x [r [D <-]]] F].
    assert (slice_from data (len x + len matchdate_mark) = Ret r) as -> by (rewrite D; apply slice_from_mid).
    cbn [bind]. unfold find_byte. destruct (find r [x0a]) as [j |] eqn:G; [| reflexivity].
    apply find_some in G. pose proof G as G0. destruct G as [[y [z [R <-]]] G].
    replace (len y + (len x + len matchdate_mark) - (len x + len matchdate_mark)) with (len y) by lia.
    assert (S : stands_between data matchdate_mark [x0a] y (len x + len matchdate_mark)).
    { exists x, z. subst r. rewrite len_app. repeat split; auto; try apply F0; apply G0. }
    specialize (H y _ S). unfold MD_MIN_LEN, MD_MAX_LEN.
    replace ((22 <=? len y) && (len y <=? 25)) with false by lia. reflexivity.
  - intros text from i n S L U. pose proof S as [x [z [D [Fr [F G]]]]]. subst from.
    apply find_some in F. rewrite F. 
    assert (slice_from data (len x + len matchdate_mark) = Ret (text ++ [x0a] ++ z)) as -> by (rewrite D; apply slice_from_mid).
    cbn [bind]. unfold find_byte.
    apply find_some in G. rewrite G.
    replace (len text + (len x + len matchdate_mark) - (len x + len matchdate_mark)) with (len text) by lia.
    unfold MD_MIN_LEN, MD_MAX_LEN. replace ((22 <=? len text) && (len text <=? 25)) with true by lia.
    assert (slice data (len x + len matchdate_mark) (len text + (len x + len matchdate_mark)) = Ret text) as ->.
    { rewrite D. rewrite (app_assoc x). replace (len text + (len x + len matchdate_mark)) with (len (x ++ matchdate_mark) + len text) by (rewrite len_app; lia).
      rewrite <- len_app. apply slice_app. }
    cbn [bind]. destruct (utf8_valid text) eqn:V.
    + exfalso. apply utf8_valid_iff in V. apply (fault_no_text _ _ _ U V).
    + eexists. split; [reflexivity |]. apply error_text_fault. exact U.
Qed.

(** ** matchdate(), timestamp_from_epoch(), filename() *)
Lemma matchdate_errors_proof : forall E data,
  (forall m, matchdate_string data = Ret (Err m) -> matchdate E data = Ret (Err m)) /\
  (forall text, has_matchdate data text -> ~ inside_char text 20 -> utc_offset (skipn 20 text) = Ret None ->
     matchdate E data = Ret (Err "Invalid timezone abbreviation")).
Proof.
  intros E data. unfold matchdate. split.
  - intros m ->. reflexivity.
  - intros text T NI U. pose proof T as [_ [L V]]. apply matchdate_string_ok_proof in T. rewrite T. cbn [bind].
    unfold replace_tz_abbr_with_offset. change (DATETIME_LEN + 1) with 20. unfold str_from.
    pose proof (is_char_boundary_iff text 20 V ltac:(lia)) as B.
    replace (20 <=? len text) with true by lia. cbn [andb].
    destruct (is_char_boundary text 20); [| exfalso; apply NI, B; reflexivity].
    change (N.to_nat 20) with 20%nat. cbn [bind]. rewrite U. reflexivity.
Qed.

Lemma serverinfo_errors_proof : forall E data, 1280 <= len data ->
  ((forall info, ~ has_serverinfo data info) ->
     serverinfo E data = Ret (Err "Serverinfo not found") /\
     timestamp_from_epoch E data = Ret (Err "Serverinfo not found") /\
     filename E data = Ret (Err "Serverinfo not found")) /\
  (forall info, has_serverinfo data info ->
     (st_epoch (settings_from E (to_utf8 E info)) = None ->
        timestamp_from_epoch E data = Ret (Err "Epoch not found in serverinfo")) /\
     (st_serverdemo (settings_from E (to_utf8 E info)) = None ->
        filename E data = Ret (Err "Filename not found"))).
Proof.
  intros E data L. unfold timestamp_from_epoch, filename. split.
  - intros H. rewrite (serverinfo_missing E data L H). auto.
  - intros info H. rewrite (serverinfo_found E data info L H). cbn [bind]. split; intros ->; reflexivity.
Qed.

(** ** messages *)
Lemma obituary_error_proof : forall msg, (forall p x y, In p phrases -> ~ fits p msg x y) ->
  exists m, frag_event_from msg = Err m /\ lit m = lit "Unable to parse message: """ ++ msg ++ lit """".
Proof.
  intros msg H. apply reads_none in H. destruct H as [m H]. exists m. split; [exact H |].
  rewrite frag_event_try in H. destruct (find_map (try msg) phrases); [discriminate |]. injection H as <-.
  unfold quoting. rewrite !lit_append, lit_bytes. reflexivity.
Qed.

Lemma flag_error_proof : forall msg, (forall q, In q flag_phrases -> ~ occurs msg (snd q)) ->
  exists m, flag_event_from msg = Err m /\ lit m = lit "Unable to parse as flag event: """ ++ msg ++ lit """".
Proof.
  intros msg H. apply tells_not in H. destruct H as [m H]. exists m. split; [exact H |].
  rewrite flag_event_from_table in H. destruct (find_map (try_phrase msg) flag_phrases); [discriminate |]. injection H as <-.
  unfold quoting. rewrite !lit_append, lit_bytes. reflexivity.
Qed.

Lemma ktxstats_fault_proof : forall E data k text i n, last_at data version_mark k -> 18 <= k ->
  len data < usize_bound -> embeds (skipn (N.to_nat (k - 18)) data) text -> utf8_fault text i n ->
  exists m, ktxstats_string E data = Ret (Err m) /\ fault_message m i n.
Proof.
  intros E data k text i n L K B S U. rewrite (ktxstats_embedded_proof E data k text L K B S).
  destruct (utf8_valid text) eqn:V.
  - exfalso. apply utf8_valid_iff in V. apply (fault_no_text _ _ _ U V).
  - eexists. split; [reflexivity |]. apply error_text_fault. exact U.
Qed.
