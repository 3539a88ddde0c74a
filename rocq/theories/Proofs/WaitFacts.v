(** Proofs for Properties/Waits.v *)
From Coq Require Import Lia ZifyN ZifyNat ZifyBool.
From Verif.Model Require Import Base Env Prot Message Serverinfo Clientinfo Clients FragEvent Frags Flags Ping Matchdate Ktxstats Duration Players Validate Prints Float.
From Verif.Spec Require Import Occ Mvd Messages Texts Times Stats Clock Splice Obituary Score Flags Pings Join Chat Wait.
From Verif.Proofs Require Import BaseFacts TextFacts ClientFacts FrameFacts PrintFacts TimeFacts ClockFacts TailFacts GrowFacts LocalFacts SpliceFacts
  JoinFacts ChatFacts.
Open Scope N_scope.

Lemma wait_bytes : forall t, encode_frame (wait t) = [t; x06; x00; x00; x00] ++ [x00].
Proof. reflexivity. Qed.
Lemma marks_long : forall m, In m marks -> 8 <= len m.
Proof.
  intros m I. unfold marks in I. cbn [In] in I.
  repeat (destruct I as [<- | I]; [vm_compute; discriminate |]). destruct I.
Qed.
Lemma wait_no_mark : forall t m, In m marks -> ~ occurs (encode_frame (wait t)) m.
Proof.
  intros t m I O. apply occurs_iff in O. destruct O as [i [p [q [H L]]]]. apply (f_equal len) in H. rewrite !len_app in H.
  change (len (encode_frame (wait t))) with 6 in H. pose proof (marks_long m I). lia.
Qed.
Lemma wait_cut : forall t m, In m marks -> cut (encode_frame (wait t)) m.
Proof.
  intros t m I. rewrite wait_bytes. apply cut_marks; [| exact I]. intros b H. apply (f_equal len) in H. rewrite len_app in H.
  change (len (lit "4status")) with 7 in H. change (len [t; x06; x00; x00; x00]) with 5 in H. lia.
Qed.

Section Wait.
  Context (fs gs : list frame) (t : byte) (P : place fs gs).
  Local Notation A := (encode fs).
  Local Notation B := (encode gs).
  Local Notation C := (encode_frame (wait t)).
  Local Notation data := (encode (fs ++ gs)).
  Local Notation data' := (encode (fs ++ wait t :: gs)).

  Lemma with_wait : data' = A ++ C ++ B.
  Proof. rewrite encode_both, encode_cons. reflexivity. Qed.
  Lemma wait_wf : wf (fs ++ wait t :: gs).
  Proof. destruct P as [W [V _]]. apply wf_both; [exact W |]. constructor; [| exact V]. repeat split. Qed.
  Lemma place_wf : wf (fs ++ gs).
  Proof. destruct P as [W [V _]]. apply wf_both; assumption. Qed.

  Lemma wait_occurs : forall m, In m marks -> (occurs (A ++ C ++ B) m <-> occurs (A ++ B) m).
  Proof.
    intros m I. apply moved_occurs; [apply (place_cut fs gs P); exact I | apply wait_cut; exact I | apply wait_no_mark; exact I | apply mark_full; exact I].
  Qed.
  Lemma wait_last : forall m i, In m marks -> last_at (A ++ B) m i -> last_at (A ++ C ++ B) m (moved A C i).
  Proof.
    intros m i I. apply moved_last; [apply (place_cut fs gs P); exact I | apply wait_cut; exact I | apply wait_no_mark; exact I | apply mark_full; exact I].
  Qed.
  Lemma wait_first : forall m i, In m marks -> first_at (A ++ B) m i -> first_at (A ++ C ++ B) m (moved A C i).
  Proof.
    intros m i I. apply moved_first; [apply (place_cut fs gs P); exact I | apply wait_cut; exact I | apply wait_no_mark; exact I | apply mark_full; exact I].
  Qed.

  (** the clock *)
  Definition later (i : N) : N := if i <? len A then 0 else n_of t.
  Lemma wait_elapsed : forall i, elapsed (moved A C i) (fs ++ wait t :: gs) = elapsed i (fs ++ gs) + later i.
  Proof.
    intros i. unfold moved, later. destruct (N.ltb_spec i (len A)) as [L | L].
    - rewrite !elapsed_first by lia. lia.
    - replace (i + len C) with (len A + (len C + (i - len A))) by lia. replace i with (len A + (i - len A)) at 2 by lia.
      rewrite !elapsed_second. change (wait t :: gs) with ([wait t] ++ gs).
      replace (len C) with (len (encode [wait t])) by (unfold encode; cbn [map concat]; rewrite app_nil_r; reflexivity).
      rewrite elapsed_second.
      replace (all_time [wait t]) with (n_of t) by (unfold all_time; cbn [map fold_right wait f_time]; lia). lia.
  Qed.
  Lemma wait_marker : forall i, end_marker (A ++ B) i -> end_marker (A ++ C ++ B) (moved A C i).
  Proof.
    assert (I : In match_over marks) by (left; reflexivity). assert (I' : In standby marks) by (right; left; reflexivity).
    intros i [M | [[N M] | [N [N' ->]]]].
    - left. apply wait_last; assumption.
    - right. left. split; [rewrite wait_occurs; assumption | apply wait_last; assumption].
    - right. right. split; [rewrite wait_occurs; assumption |]. split; [rewrite wait_occurs; assumption |].
      unfold moved. rewrite !len_app. replace (len A + len B <? len A) with false by lia. lia.
  Qed.

  (** the end of the demo *)
  Lemma wait_finished : has_end_of_demo_print (A ++ C ++ B) = has_end_of_demo_print (A ++ B).
  Proof.
    destruct P as [_ [_ [NE [a [EA _]]]]].
    assert (NB : B <> []).
    { destruct gs as [| g gs']; [destruct (NE eq_refl) |]. rewrite encode_cons. intros X. apply (f_equal len) in X. rewrite len_app in X.
      pose proof (encode_pos g). change (len []) with 0 in X. lia. }
    assert (NA : a <> []).
    { intros ->. destruct fs as [| f fs']; [discriminate EA |]. rewrite encode_cons in EA. apply (f_equal len) in EA.
      unfold encode_frame in EA. rewrite len_app, !len_cons in EA. change (len ([] ++ [x00])) with 1 in EA. lia. }
    apply eq_true_iff_eq. rewrite !finished_proof, EA, wait_bytes.
    set (h := [t; x06; x00; x00; x00]).
    replace ((a ++ [x00]) ++ (h ++ [x00]) ++ B) with ((a ++ [x00] ++ h) ++ x00 :: B) by (rewrite <- !app_assoc; reflexivity).
    replace ((a ++ [x00]) ++ B) with (a ++ x00 :: B) by (rewrite <- !app_assoc; reflexivity).
    split; apply finished_before; try exact NB; [exact NA |]. destruct a; discriminate.
  Qed.
  Lemma wait_marks_proof : has_end_of_demo_print data' = has_end_of_demo_print data /\ is_paused data' = is_paused data /\
    is_aborted data' = is_aborted data.
  Proof.
    assert (I1 : In (lit "Server is paused") marks) by (do 3 right; left; reflexivity).
    assert (I2 : In (lit "paused the game") marks) by (do 4 right; left; reflexivity).
    rewrite with_wait, encode_both. split; [exact wait_finished |]. split; apply eq_true_iff_eq.
    - rewrite !paused_proof, <- !finished_proof, wait_finished, !(wait_occurs _ I1), !(wait_occurs _ I2). reflexivity.
    - rewrite !aborted_proof. apply wait_occurs. do 5 right. left. reflexivity.
  Qed.

  (** what stands on one side *)
  Lemma wait_bots : rfind (A ++ C ++ B) BOT_NEEDLE = None <-> rfind (A ++ B) BOT_NEEDLE = None.
  Proof. rewrite !rfind_none. change BOT_NEEDLE with bot_mark. rewrite wait_occurs; [reflexivity |]. do 6 right. left. reflexivity. Qed.
  Lemma wait_date : date_beside_place fs gs -> matchdate_string (A ++ C ++ B) = matchdate_string (A ++ B).
  Proof.
    assert (I : In matchdate_marker marks) by (do 2 right; left; reflexivity).
    intros [D | [N [D | N']]].
    - destruct D as [a [l [x [EQ [NL F]]]]].
      assert (K : forall y, matchdate_string (A ++ y) = matchdate_string (matchdate_marker ++ l ++ [x0a])).
      { intros y. apply (date_line _ a l (x ++ y)); [| exact NL | apply first_at_extend; exact F].
        rewrite EQ, <- !app_assoc. cbn [app]. rewrite <- ?app_assoc. reflexivity. }
      rewrite !K. reflexivity.
    - destruct D as [a [l [x [EQ [NL F]]]]].
      assert (K : first_at (A ++ B) matchdate_marker (len (A ++ a))).
      { rewrite len_app. split; [apply occurs_at_app_r; apply F |]. intros j J. destruct (place_cut fs gs P _ I _ _ J) as [X | X].
        - exfalso. apply N, occurs_iff. exists j. eapply occurs_at_left; [exact J | exact X].
        - apply occurs_at_right in J; [| exact X]. apply F in J. lia. }
      pose proof (wait_first _ _ I K) as K'. unfold moved in K'. rewrite len_app in K'. replace (len A + len a <? len A) with false in K' by lia.
      replace (len A + len a + len C) with (len (A ++ C ++ a)) in K' by (rewrite !len_app; lia).
      rewrite (date_line (A ++ B) (A ++ a) l x), (date_line (A ++ C ++ B) (A ++ C ++ a) l x); auto;
        rewrite EQ, <- !app_assoc; reflexivity.
    - rewrite encode_both in N'. assert (K : find (A ++ B) matchdate_marker = None) by (apply find_none; exact N').
      assert (K' : find (A ++ C ++ B) matchdate_marker = None) by (apply find_none; rewrite wait_occurs; assumption).
      unfold matchdate_string. change MATCHDATE_NEEDLE with matchdate_marker. rewrite K, K'. reflexivity.
  Qed.
  Lemma wait_stats : forall E, stats_after_place fs gs -> len (A ++ C ++ B) < 9223372036854775808 ->
    ktxstats_string E (A ++ C ++ B) = ktxstats_string E (A ++ B).
  Proof.
    intros E [N | [a [d [EQ D]]]] L.
    - rewrite encode_both in N. assert (K : rfind (A ++ B) version_mark = None) by (apply rfind_none; exact N).
      assert (K' : rfind (A ++ C ++ B) version_mark = None)
        by (apply rfind_none; rewrite wait_occurs; [exact N | do 7 right; left; reflexivity]).
      unfold ktxstats_string. change VERSION with version_mark. rewrite K, K'. reflexivity.
    - rewrite EQ in *. rewrite !app_assoc in *. rewrite !(ktxstats_before E _ d 18 D); auto; try discriminate.
      rewrite !len_app in *. lia.
  Qed.

  Lemma wait_bodies : bodies (fs ++ wait t :: gs) = bodies (fs ++ gs).
  Proof. unfold bodies. rewrite !filter_app. reflexivity. Qed.
End Wait.

Section Everything.
  Context (E : env) (fs gs : list frame) (t : byte) (P : place fs gs).
  Local Notation data := (encode (fs ++ gs)).
  Local Notation data' := (encode (fs ++ wait t :: gs)).

  Lemma wait_clients_proof : clients_before_place fs ->
    clientinfo_strings E data' = clientinfo_strings E data /\ clientinfo E data' = clientinfo E data /\
    clients E data' = clients E data /\ player_clients E data' = player_clients E data /\
    spectator_clients E data' = spectator_clients E data /\ player_names E data' = player_names E data /\
    spectator_names E data' = spectator_names E data /\ team_names E data' = team_names E data /\
    has_human_players E data' = has_human_players E data /\ has_bot_players E data' = has_bot_players E data /\
    is_valid E data' = is_valid E data.
  Proof.
    intros L. rewrite with_wait, encode_both.
    assert (S : clientinfo_strings E (encode fs ++ encode_frame (wait t) ++ encode gs) = clientinfo_strings E (encode fs ++ encode gs) /\
      clients E (encode fs ++ encode_frame (wait t) ++ encode gs) = clients E (encode fs ++ encode gs)).
    { destruct L as [s [F L]]. rewrite !(clientinfo_strings_extend E _ _ s F L), !(clients_extend E _ _ s F L). auto. }
    destruct S as [S K].
    assert (I : clientinfo E (encode fs ++ encode_frame (wait t) ++ encode gs) = clientinfo E (encode fs ++ encode gs))
      by (unfold clientinfo; rewrite S; reflexivity).
    unfold has_bot_players, has_human_players, team_names, spectator_names, player_names, player_clients, spectator_clients. rewrite S, K, I.
    do 9 (split; [reflexivity |]). split.
    - destruct (clients E (encode fs ++ encode gs)) as [[cs |] | |]; try reflexivity. cbn [bind].
      destruct (existsb c_is_bot _); [reflexivity |]. do 2 f_equal.
      destruct (wait_bots fs gs t P) as [X Y].
      destruct (rfind (encode fs ++ encode_frame (wait t) ++ encode gs) BOT_NEEDLE), (rfind (encode fs ++ encode gs) BOT_NEEDLE); try reflexivity.
      + discriminate (Y eq_refl).
      + discriminate (X eq_refl).
    - unfold is_valid, has_clients. rewrite I, wait_finished by assumption. destruct L as [s [F L]].
      rewrite !len_app, !serverinfo_head by lia. change MIN_SIZE with 1024.
      replace (1024 <=? len (encode fs) + _) with true by lia. replace (1024 <=? len (encode fs) + len (encode gs)) with true by lia. reflexivity.
  Qed.

  Lemma wait_counts_proof :
    prints E data' = prints E data /\
    flag_events_per_player_name E data' = flag_events_per_player_name E data /\
    ping_per_player_number E data' = ping_per_player_number E data /\
    (all_named E (fs ++ gs) \/ clients_before_place fs -> frags_per_player_name E data' = frags_per_player_name E data).
  Proof.
    destruct (bodies_only_proof E (fs ++ gs) (fs ++ wait t :: gs) (place_wf fs gs P) (wait_wf fs gs t P) (eq_sym (wait_bodies fs gs t)))
      as [H1 [H2 [H3 H4]]].
    split; [symmetry; exact H1 |]. split; [symmetry; exact H2 |]. split; [symmetry; exact H3 |].
    intros [N | C]; symmetry; apply H4; [left; exact N | right]. destruct (wait_clients_proof C) as [_ [_ [K _]]]. symmetry. exact K.
  Qed.

  Lemma wait_head_proof : 1280 <= len (encode fs) ->
    serverinfo_string E data' = serverinfo_string E data /\ serverinfo E data' = serverinfo E data /\
    filename E data' = filename E data /\ timestamp_from_epoch E data' = timestamp_from_epoch E data.
  Proof.
    intros L. rewrite with_wait, encode_both, !serverinfo_string_head, !serverinfo_head, !filename_head, !epoch_head by lia. repeat split; reflexivity.
  Qed.
  Lemma wait_date_proof : 1280 <= len (encode fs) -> date_beside_place fs gs ->
    matchdate_string data' = matchdate_string data /\ matchdate E data' = matchdate E data /\ timestamp E data' = timestamp E data.
  Proof.
    intros L D. assert (S : matchdate_string data' = matchdate_string data) by (rewrite with_wait, encode_both; apply wait_date; assumption).
    pose proof (matchdate_alike E _ _ S) as K. split; [exact S |]. split; [exact K |]. unfold timestamp. rewrite K.
    destruct (wait_head_proof L) as [_ [_ [_ ->]]]. reflexivity.
  Qed.
  Lemma wait_stats_proof : stats_after_place fs gs -> len data' < 9223372036854775808 ->
    ktxstats_string E data' = ktxstats_string E data /\ ktxstats_v3 E data' = ktxstats_v3 E data /\ server E data' = server E data /\
    match_duration_from_ktxstats E data' = match_duration_from_ktxstats E data.
  Proof.
    intros S L. assert (K : ktxstats_string E data' = ktxstats_string E data).
    { rewrite with_wait in *. rewrite encode_both. apply wait_stats; assumption. }
    unfold server, ktxstats_v3, match_duration_from_ktxstats. rewrite K. repeat split; reflexivity.
  Qed.
  Lemma wait_players_proof : clients_before_place fs -> stats_after_place fs gs -> len data' < 9223372036854775808 ->
    players_from_parsing E data' = players_from_parsing E data /\ players E data' = players E data /\ teams E data' = teams E data.
  Proof.
    intros C S L. destruct (wait_clients_proof C) as [_ [_ [K _]]]. destruct wait_counts_proof as [_ [_ [G F]]]. specialize (F (or_intror C)).
    destruct (wait_stats_proof S L) as [_ [V _]].
    assert (X : players_from_parsing E data' = players_from_parsing E data) by (unfold players_from_parsing; rewrite K, G, F; reflexivity).
    assert (Y : players E data' = players E data) by (unfold players; rewrite V, X; reflexivity).
    split; [exact X |]. split; [exact Y |]. unfold teams. rewrite Y. reflexivity.
  Qed.

  (** the times *)
  Lemma wait_demo_proof : forall i, end_marker data i -> elapsed i (fs ++ gs) + n_of t < 4294967296 ->
    exists d d', demo_duration E data = Ret (Ok d) /\ demo_duration E data' = Ret (Ok d') /\
      Z.of_N d = ms_to_ns (elapsed i (fs ++ gs)) /\ Z.of_N d' = ms_to_ns (elapsed i (fs ++ gs) + later fs t i).
  Proof.
    intros i M L. assert (LT : later fs t i <= n_of t) by (unfold later; destruct (i <? _); lia).
    pose proof M as M'. rewrite encode_both in M'. apply (wait_marker fs gs t P) in M'. rewrite <- with_wait in M'.
    destruct (demo_duration_proof E (fs ++ gs) [] i (place_wf fs gs P) Logic.I) as [d [D1 D2]]; [rewrite app_nil_r; exact M | lia |].
    rewrite app_nil_r in D1.
    destruct (demo_duration_proof E (fs ++ wait t :: gs) [] (moved (encode fs) (encode_frame (wait t)) i) (wait_wf fs gs t P) Logic.I) as [d' [D1' D2']];
      [rewrite app_nil_r; exact M' | rewrite wait_elapsed; lia |].
    rewrite app_nil_r in D1'. rewrite wait_elapsed in D2'. exists d, d'. auto.
  Qed.
  Lemma wait_countdown_proof : forall r c, 1280 <= len (encode fs) -> serverinfo E data = Ret r ->
    (forall s, r = Ok s -> st_mode s <> Some (lit "hoonymode")) ->
    first_at data matchdate_marker c -> elapsed c (fs ++ gs) + n_of t < 4294967296 ->
    exists d d', countdown_duration E data = Ret (Ok d) /\ countdown_duration E data' = Ret (Ok d') /\
      Z.of_N d = ms_to_ns (elapsed c (fs ++ gs)) /\ Z.of_N d' = ms_to_ns (elapsed c (fs ++ gs) + later fs t c).
  Proof.
    intros r c H R NH M L. assert (LT : later fs t c <= n_of t) by (unfold later; destruct (c <? _); lia).
    assert (R' : serverinfo E data' = Ret r) by (destruct (wait_head_proof H) as [_ [-> _]]; exact R).
    assert (I : In matchdate_marker marks) by (do 2 right; left; reflexivity).
    pose proof M as M'. rewrite encode_both in M'. apply (wait_first fs gs t P _ _ I) in M'. rewrite <- with_wait in M'.
    destruct (countdown_proof E (fs ++ gs) [] r c (place_wf fs gs P) Logic.I) as [d [D1 D2]];
      try rewrite app_nil_r; try assumption; [lia |]. rewrite app_nil_r in D1.
    destruct (countdown_proof E (fs ++ wait t :: gs) [] r (moved (encode fs) (encode_frame (wait t)) c) (wait_wf fs gs t P) Logic.I) as [d' [D1' D2']];
      try rewrite app_nil_r; try assumption; [rewrite wait_elapsed; lia |].
    rewrite app_nil_r in D1'. rewrite wait_elapsed in D2'. exists d, d'. auto.
  Qed.
End Everything.

Lemma wait_match_proof : forall E fs gs t r i c, place fs gs -> 1280 <= len (encode fs) ->
  serverinfo E (encode (fs ++ gs)) = Ret r -> (forall s, r = Ok s -> st_mode s <> Some (lit "hoonymode")) ->
  end_marker (encode (fs ++ gs)) i -> first_at (encode (fs ++ gs)) matchdate_marker c -> c <= i ->
  elapsed i (fs ++ gs) + n_of t < 16384000 ->
  exists m m', match_duration_from_seeking E (encode (fs ++ gs)) = Ret (Ok m) /\
    match_duration_from_seeking E (encode (fs ++ wait t :: gs)) = Ret (Ok m') /\
    (len (encode fs) <= c -> (Z.abs (Z.of_N m' - Z.of_N m) < 2000000)%Z) /\
    (c < len (encode fs) <= i -> (Z.abs (Z.of_N m' - Z.of_N m - 1000000 * Z.of_N (n_of t)) < 1000000)%Z) /\
    (i < len (encode fs) -> m' = m).
Proof.
  intros E fs gs t r i c P H R NH M D CI L.
  assert (MO : elapsed c (fs ++ gs) <= elapsed i (fs ++ gs)) by (apply elapsed_mono; exact CI).
  destruct (wait_demo_proof E fs gs t P i M) as [d [d' [D1 [D1' [D2 D2']]]]]; [lia |].
  destruct (wait_countdown_proof E fs gs t P r c H R NH D) as [k [k' [K1 [K1' [K2 K2']]]]]; [lia |].
  assert (LI : later fs t i <= n_of t) by (unfold later; destruct (i <? _); lia).
  assert (LC : later fs t c <= later fs t i) by (unfold later; destruct (N.ltb_spec i (len (encode fs))), (N.ltb_spec c (len (encode fs))); lia).
  assert (S : k <= d) by (apply N2Z.inj_le; rewrite D2, K2; apply ms_to_ns_mono_proof; exact MO).
  assert (S' : k' <= d') by (apply N2Z.inj_le; rewrite D2', K2'; apply ms_to_ns_mono_proof; lia).
  exists (d - k), (d' - k').
  assert (Q : forall x y, y <= x -> duration_sub x y = Ret (x - y)).
  { intros x y Y. unfold duration_sub. destruct (N.leb_spec y x); [reflexivity | lia]. }
  unfold match_duration_from_seeking. rewrite D1, D1', K1, K1'. cbn [bind]. rewrite !Q by assumption. cbn [bind].
  split; [reflexivity |]. split; [reflexivity |].
  pose proof (ms_to_ns_close_proof (elapsed i (fs ++ gs))) as C1. pose proof (ms_to_ns_close_proof (elapsed c (fs ++ gs))) as C2.
  pose proof (ms_to_ns_close_proof (elapsed i (fs ++ gs) + later fs t i)) as C3.
  pose proof (ms_to_ns_close_proof (elapsed c (fs ++ gs) + later fs t c)) as C4.
  rewrite <- D2 in C1. rewrite <- K2 in C2. rewrite <- D2' in C3. rewrite <- K2' in C4.
  unfold later in *.
  destruct (N.ltb_spec i (len (encode fs))) as [X | X], (N.ltb_spec c (len (encode fs))) as [Y | Y].
  - rewrite N.add_0_r in *. assert (d' = d) by (apply N2Z.inj; rewrite D2, D2'; reflexivity). assert (k' = k) by (apply N2Z.inj; rewrite K2, K2'; reflexivity).
    subst. split; [lia |]. split; [lia |]. reflexivity.
  - lia.
  - rewrite N.add_0_r in *. assert (k' = k) by (apply N2Z.inj; rewrite K2, K2'; reflexivity). subst k'. clear D2 D2' K2 K2' C2 C4.
    split; [lia |]. split; [| lia]. intros _. lia.
  - clear D2 D2' K2 K2'. split; [| split; lia]. intros _. lia.
Qed.
