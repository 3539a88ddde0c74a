(** Proofs for Properties/Chat.v *)
From Coq Require Import Lia ZifyN ZifyNat ZifyBool.
From Verif.Model Require Import Base Env Prot Message Serverinfo Clientinfo Clients FragEvent Frags Flags Ping Matchdate Ktxstats Duration Players Validate.
From Verif.Spec Require Import Occ Mvd Messages Texts Times Stats Clock Splice Obituary Score Flags Pings Join Thin Chat.
From Verif.Proofs Require Import BaseFacts TextFacts ClientFacts FrameFacts PrintFacts TimeFacts ClockFacts TailFacts GrowFacts LocalFacts SpliceFacts
  ObituaryFacts ScoreFacts FlagFacts PingFacts JoinFacts ThinFacts.
Open Scope N_scope.

(** No occurrence of [m] crosses the end of [a]. *)
Definition cut (a m : bytes) : Prop := forall r i, occurs_at (a ++ r) m i -> i + len m <= len a \/ len a <= i.

Lemma cut_nul : forall a m l, ~ In x00 m -> cut (a ++ [x00]) (m ++ [l]).
Proof.
  intros a m l N r i [p [q [H L]]]. rewrite <- app_assoc in H. cbn [app] in H.
  assert (O : occurs_at (a ++ x00 :: r) m i) by (exists p, (l :: q); split; [rewrite H, <- app_assoc; reflexivity | exact L]).
  rewrite !len_app. change (len [l]) with 1. change (len [x00]) with 1.
  destruct (occurs_at_sep a x00 r m i N O) as [X | [X | ->]]; [lia | lia |]. change (len []) with 0. lia.
Qed.

Lemma cut_standby : forall a, (forall b, a <> b ++ lit "4status") -> cut (a ++ [x00]) standby.
Proof.
  intros a N r i [p [q [H L]]]. rewrite <- app_assoc in H. cbn [app] in H.
  assert (O1 : occurs_at (a ++ x00 :: r) (lit "4status") i).
  { exists p, (x00 :: lit "Standby" ++ [x00] ++ q). split; [rewrite H; unfold standby; rewrite <- !app_assoc; reflexivity | exact L]. }
  assert (O2 : occurs_at (a ++ x00 :: r) (lit "Standby") (i + 8)).
  { exists (p ++ lit "4status" ++ [x00]), (x00 :: q). split; [rewrite H; unfold standby; rewrite <- !app_assoc; reflexivity |].
    rewrite !len_app, L. reflexivity. }
  rewrite len_app. change (len [x00]) with 1. change (len standby) with 16.
  apply occurs_at_sep in O1; [| vm_compute; intuition discriminate]. apply occurs_at_sep in O2; [| vm_compute; intuition discriminate].
  change (len (lit "4status")) with 7 in O1. change (len (lit "Standby")) with 7 in O2.
  destruct O1 as [O1 | [O1 | O1]]; [| lia | discriminate]. destruct O2 as [O2 | [O2 | O2]]; [lia | | discriminate].
  exfalso. apply (N p). assert (LA : len a = len (p ++ lit "4status")) by (rewrite len_app; change (len (lit "4status")) with 7; lia).
  unfold standby in H. rewrite <- !app_assoc, app_assoc in H. unfold len in LA.
  apply (f_equal (firstn (length a))) in H. rewrite firstn_app, Nat.sub_diag, firstn_all, firstn_O, app_nil_r in H.
  replace (length a) with (length (p ++ lit "4status")) in H by lia.
  rewrite firstn_app, Nat.sub_diag, firstn_all, firstn_O, app_nil_r in H. exact H.
Qed.

Lemma cut_marks : forall a m, (forall b, a <> b ++ lit "4status") -> In m marks -> cut (a ++ [x00]) m.
Proof.
  intros a m N I. unfold marks in I. cbn [In] in I.
  repeat (destruct I as [<- | I];
    [first [ apply cut_standby; exact N
           | match goal with |- cut _ ?m => let u := eval vm_compute in m in change m with u;
               let w := eval vm_compute in (removelast u) in let l := eval vm_compute in (last u x00) in
               change u with (w ++ [l]); apply cut_nul; cbn [In]; intuition discriminate end ] |]).
  destruct I.
Qed.

Lemma chat_bytes : forall t, encode_frame (chat t) = ([x00; x06] ++ enc32 (len (encode_message (mkMessage x03 t))) ++ [x08; x03] ++ t) ++ [x00].
Proof. intros t. unfold encode_frame, chat, encode_message. cbn [f_time f_type f_mask f_body m_level m_text app]. rewrite <- !app_assoc. reflexivity. Qed.

Lemma chat_no_mark : forall t m, innocent t -> In m marks -> ~ occurs (encode_frame (chat t)) m.
Proof.
  intros t m [_ [_ [N _]]] I O. apply occurs_iff in O. destruct O as [i O].
  assert (H : ~ In x03 m /\ 8 <= len m).
  { clear - I. unfold marks in I. cbn [In] in I.
    repeat (destruct I as [<- | I]; [split; [vm_compute; intuition discriminate | vm_compute; discriminate] |]). destruct I. }
  destruct H as [H3 H8].
  assert (EQ : encode_frame (chat t) = ([x00; x06] ++ enc32 (len (encode_message (mkMessage x03 t))) ++ [x08]) ++ x03 :: (t ++ [x00]))
    by (rewrite chat_bytes, <- !app_assoc; reflexivity).
  rewrite EQ in O. pose proof (occurs_at_sep _ _ _ _ _ H3 O) as S. rewrite len_app in S. change (len [x00; x06]) with 2 in S.
  rewrite len_app in S. change (len (enc32 _)) with 4 in S. change (len [x08]) with 1 in S.
  destruct S as [S | [S | ->]]; [lia | | change (len []) with 0 in H8; lia].
  apply (N m I). apply occurs_iff. exists (i - 8).
  rewrite (app_assoc _ [x03] (t ++ [x00]) : _ ++ x03 :: (t ++ [x00]) = _) in O.
  apply occurs_at_right in O.
  - rewrite !len_app in O. exact O.
  - rewrite !len_app. change (len [x00; x06]) with 2. change (len (enc32 _)) with 4. change (len [x08]) with 1. change (len [x03]) with 1. lia.
Qed.

Lemma chat_end : forall t b, innocent t -> [x00; x06] ++ enc32 (len (encode_message (mkMessage x03 t))) ++ [x08; x03] ++ t <> b ++ lit "4status".
Proof.
  intros t b [_ [_ [_ N]]] H.
  destruct (N.le_gt_cases 7 (len t)) as [L | G].
  - assert (X : exists e, b = ([x00; x06] ++ enc32 (len (encode_message (mkMessage x03 t))) ++ [x08; x03]) ++ e /\ t = e ++ lit "4status").
    { assert (H' : ([x00; x06] ++ enc32 (len (encode_message (mkMessage x03 t))) ++ [x08; x03]) ++ t = b ++ lit "4status")
        by (rewrite <- H, <- !app_assoc; reflexivity).
      apply app_eq_prefix in H'; [destruct H' as [e [X Y]]; exists e; split; [exact X | exact Y] |].
      apply (f_equal len) in H'. rewrite (len_app _ _ t), (len_app _ b) in H'. change (len (lit "4status")) with 7 in H'. lia. }
    destruct X as [e [_ T]]. exact (N e T).
  - assert (X : exists e, lit "4status" = e ++ x03 :: t).
    { assert (H' : ([x00; x06] ++ enc32 (len (encode_message (mkMessage x03 t))) ++ [x08]) ++ (x03 :: t) = b ++ lit "4status")
        by (rewrite <- H, <- !app_assoc; reflexivity).
      symmetry in H'. apply app_eq_prefix in H'.
      - destruct H' as [e [_ T]]. exists e. exact T.
      - apply (f_equal len) in H'. rewrite (len_app _ _ (x03 :: t)), (len_app _ b), len_cons in H'. change (len (lit "4status")) with 7 in H'. lia. }
    destruct X as [e X]. assert (I : In x03 (lit "4status")) by (rewrite X; apply in_or_app; right; left; reflexivity).
    vm_compute in I. intuition discriminate.
Qed.

Lemma chat_cut : forall t m, innocent t -> In m marks -> cut (encode_frame (chat t)) m.
Proof. intros t m T I. rewrite chat_bytes. apply cut_marks; [| exact I]. intros b. apply chat_end. exact T. Qed.

(** occurrences before and after *)
Section Moved.
  Context (a c b m : bytes) (CA : cut a m) (CC : cut c m) (NC : ~ occurs c m).
  Definition moved (i : N) : N := if i <? len a then i else i + len c.

  Lemma moved_to : forall i, m <> [] -> occurs_at (a ++ b) m i -> occurs_at (a ++ c ++ b) m (moved i).
  Proof.
    intros i NE O. assert (P : 0 < len m) by (destruct m; [destruct (NE eq_refl) | rewrite len_cons; lia]).
    unfold moved. destruct (N.ltb_spec i (len a)) as [L | L].
    - apply occurs_at_app_l. eapply occurs_at_left; [exact O |]. destruct (CA _ _ O); lia.
    - apply occurs_at_right in O; [| exact L]. apply (occurs_at_app_r c) in O. apply (occurs_at_app_r a) in O.
      replace (i + len c) with (len a + (len c + (i - len a))) by lia. exact O.
  Qed.
  Lemma moved_from : forall j, m <> [] -> occurs_at (a ++ c ++ b) m j -> exists i, occurs_at (a ++ b) m i /\ j = moved i.
  Proof.
    intros j NE O. assert (P : 0 < len m) by (destruct m; [destruct (NE eq_refl) | rewrite len_cons; lia]).
    destruct (CA _ _ O) as [L | L].
    - exists j. split; [apply occurs_at_app_l; eapply occurs_at_left; [exact O | exact L] |]. unfold moved. replace (j <? len a) with true by lia. reflexivity.
    - apply occurs_at_right in O; [| exact L]. destruct (CC _ _ O) as [L' | L'].
      + exfalso. apply NC, occurs_iff. eexists. eapply occurs_at_left; [exact O | exact L'].
      + apply occurs_at_right in O; [| exact L']. exists (len a + (j - len a - len c)). split; [apply occurs_at_app_r; exact O |].
        unfold moved. replace (len a + (j - len a - len c) <? len a) with false by lia. lia.
  Qed.
  Lemma moved_mono : forall i j, i <= j -> moved i <= moved j.
  Proof. intros i j L. unfold moved. destruct (N.ltb_spec i (len a)), (N.ltb_spec j (len a)); lia. Qed.

  Lemma moved_occurs : m <> [] -> (occurs (a ++ c ++ b) m <-> occurs (a ++ b) m).
  Proof.
    intros NE. rewrite !occurs_iff. split; intros [i O].
    - apply moved_from in O; [| exact NE]. destruct O as [k [O _]]. eauto.
    - apply moved_to in O; [| exact NE]. eauto.
  Qed.
  Lemma moved_last : forall i, m <> [] -> last_at (a ++ b) m i -> last_at (a ++ c ++ b) m (moved i).
  Proof.
    intros i NE [O M]. split; [apply moved_to; assumption |]. intros j J. apply moved_from in J; [| exact NE].
    destruct J as [k [K ->]]. apply moved_mono, M, K.
  Qed.
  Lemma moved_first : forall i, m <> [] -> first_at (a ++ b) m i -> first_at (a ++ c ++ b) m (moved i).
  Proof.
    intros i NE [O M]. split; [apply moved_to; assumption |]. intros j J. apply moved_from in J; [| exact NE].
    destruct J as [k [K ->]]. apply moved_mono, M, K.
  Qed.
End Moved.

Lemma mark_full : forall m, In m marks -> m <> [].
Proof. intros m I ->. unfold marks in I. cbn [In] in I. intuition discriminate. Qed.

Lemma clock_same : forall ck fs x gs y r, elapsed x fs = elapsed y gs -> clock ck fs [] x r -> clock ck gs [] y r.
Proof.
  intros ck fs x gs y r EQ H. destruct H as [S O | Ck O | [s [X _]] | [s [X _]]]; try discriminate X; rewrite EQ in *.
  - apply clock_reads; [left; exact Logic.I | exact O].
  - apply clock_overflows; assumption.
Qed.

Lemma chat_thinned : forall (Q : frame -> Prop) t fs gs, Q (chat t) -> thinned Q (fs ++ chat t :: gs) (fs ++ gs).
Proof.
  intros Q t fs gs q. induction fs as [| f l IH]; cbn [app]; [apply thin_drop; [exact q |] | apply thin_keep; exact IH].
  induction gs as [| g l IH]; [constructor | apply thin_keep; exact IH].
Qed.

Lemma named_thin : forall E fs gs, thinned no_obituary fs gs -> all_named E gs -> all_named E fs.
Proof.
  intros E fs gs T N. pose proof (thin_obituaries _ _ T) as O. intros m s x v I1 X Y. apply (in_map fst) in I1. rewrite O in I1.
  apply in_map_iff in I1. destruct I1 as [[m' s'] [Q I1]]. cbn [fst] in Q. subst m'. exact (N m s' x v I1 X Y).
Qed.

Lemma date_line : forall data a t x, data = a ++ matchdate_marker ++ t ++ x0a :: x -> ~ In x0a t -> first_at data matchdate_marker (len a) ->
  matchdate_string data = matchdate_string (matchdate_marker ++ t ++ [x0a]).
Proof. intros data a t x -> N F. apply (matchdate_between a t x N F). Qed.

Section Chat.
  Context (fs gs : list frame) (t : bytes) (P : place fs gs) (T : innocent t).
  Local Notation A := (encode fs).
  Local Notation B := (encode gs).
  Local Notation C := (encode_frame (chat t)).

  Lemma with_chat : encode (fs ++ chat t :: gs) = A ++ C ++ B.
  Proof. rewrite encode_both, encode_cons. reflexivity. Qed.
  Lemma place_cut : forall m, In m marks -> cut A m.
  Proof. intros m I. destruct P as [_ [_ [_ [a [-> N]]]]]. apply cut_marks; assumption. Qed.
  Lemma chat_wf : wf (fs ++ chat t :: gs).
  Proof.
    destruct P as [W [V _]]. destruct T as [_ [L _]]. apply wf_both; [exact W |]. constructor; [| exact V].
    split; [reflexivity |]. cbn [f_type chat]. change (has_length x06) with true. cbn iota. unfold chat, encode_message. cbn [f_body m_level m_text].
    rewrite !len_cons, len_app. change (len [x00]) with 1. lia.
  Qed.

  Lemma chat_occurs : forall m, In m marks -> (occurs (A ++ C ++ B) m <-> occurs (A ++ B) m).
  Proof.
    intros m I. apply moved_occurs; [apply place_cut; exact I | apply chat_cut; assumption | apply chat_no_mark; assumption | apply mark_full; exact I].
  Qed.
  Lemma chat_last : forall m i, In m marks -> last_at (A ++ B) m i -> last_at (A ++ C ++ B) m (moved A C i).
  Proof.
    intros m i I. apply moved_last; [apply place_cut; exact I | apply chat_cut; assumption | apply chat_no_mark; assumption | apply mark_full; exact I].
  Qed.
  Lemma chat_first : forall m i, In m marks -> first_at (A ++ B) m i -> first_at (A ++ C ++ B) m (moved A C i).
  Proof.
    intros m i I. apply moved_first; [apply place_cut; exact I | apply chat_cut; assumption | apply chat_no_mark; assumption | apply mark_full; exact I].
  Qed.

  (** the clock *)
  Lemma chat_elapsed : forall i, elapsed (moved A C i) (fs ++ chat t :: gs) = elapsed i (fs ++ gs).
  Proof.
    intros i. unfold moved. destruct (N.ltb_spec i (len A)) as [L | L].
    - rewrite !elapsed_first by lia. reflexivity.
    - replace (i + len C) with (len A + (len C + (i - len A))) by lia. replace i with (len A + (i - len A)) at 2 by lia.
      rewrite !elapsed_second. change (chat t :: gs) with ([chat t] ++ gs).
      replace (len C) with (len (encode [chat t])) by (unfold encode; cbn [map concat]; rewrite app_nil_r; reflexivity).
      rewrite elapsed_second. reflexivity.
  Qed.
  Lemma chat_until : forall E i, duration_until_offset E (A ++ C ++ B) (moved A C i) = duration_until_offset E (A ++ B) i.
  Proof.
    intros E i. unfold duration_until_offset. f_equal.
    destruct P as [W [V _]].
    pose proof (total_clock E (fs ++ gs) [] i (wf_both _ _ W V) I) as K. rewrite app_nil_r, encode_both in K.
    pose proof (total_clock E (fs ++ chat t :: gs) [] (moved A C i) chat_wf I) as K'. rewrite app_nil_r, with_chat in K'.
    destruct (clock_one_proof (checked E) (fs ++ gs) [] i I) as [z [_ U]].
    rewrite (U _ K). apply U. eapply clock_same; [| exact K']. apply chat_elapsed.
  Qed.

  Lemma chat_marker : forall i, end_marker (A ++ B) i -> end_marker (A ++ C ++ B) (moved A C i).
  Proof.
    assert (I : In match_over marks) by (left; reflexivity). assert (I' : In standby marks) by (right; left; reflexivity).
    intros i [M | [[N M] | [N [N' ->]]]].
    - left. apply chat_last; assumption.
    - right. left. split; [rewrite chat_occurs; assumption | apply chat_last; assumption].
    - right. right. split; [rewrite chat_occurs; assumption |]. split; [rewrite chat_occurs; assumption |].
      unfold moved. rewrite !len_app. replace (len A + len B <? len A) with false by lia. lia.
  Qed.
  Lemma chat_demo_duration : forall E, demo_duration E (A ++ C ++ B) = demo_duration E (A ++ B).
  Proof.
    intros E. pose proof (end_marker_offset (A ++ B)) as M.
    rewrite (demo_duration_offset E _ _ M), (demo_duration_offset E _ _ (chat_marker _ M)), chat_until. reflexivity.
  Qed.

  (** the end of the demo *)
  Lemma finished_before : forall x y b, y <> [] -> b <> [] -> finished (x ++ x00 :: b) -> finished (y ++ x00 :: b).
  Proof.
    intros x y b NY NB [a [NA H]].
    assert (R : rev b ++ x00 :: rev x = rev end_of_demo ++ rev a).
    { apply (f_equal (@rev byte)) in H. rewrite !rev_app_distr in H. cbn [rev] in H. rewrite <- app_assoc in H. exact H. }
    assert (LE : forall w, rev b = rev end_of_demo ++ w -> finished (y ++ x00 :: b)).
    { intros w W. apply (f_equal (@rev byte)) in W. rewrite rev_app_distr, !rev_involutive in W. exists (y ++ x00 :: rev w).
      split; [destruct y; discriminate |]. rewrite W, <- app_assoc. reflexivity. }
    assert (EX : rev b = removelast (rev end_of_demo) -> finished (y ++ x00 :: b)).
    { intros W. apply (f_equal (@rev byte)) in W. rewrite rev_involutive in W. exists y. split; [exact NY |]. rewrite W. reflexivity. }
    assert (NR : rev b <> []) by (intros X; apply NB; apply (f_equal (@rev byte)) in X; rewrite rev_involutive in X; exact X).
    revert R LE EX NR. generalize (rev b) as w. clear. intros w R LE EX NR.
    let u := eval vm_compute in (rev end_of_demo) in change (rev end_of_demo) with u in *.
    cbn [app removelast] in *.
    destruct w as [| c w]; [destruct (NR eq_refl) |]. injection R as -> R.
    do 10 (destruct w as [| c w]; [discriminate R | injection R as -> R]).
    destruct w as [| c w]; [apply EX; reflexivity |]. injection R as -> R. apply (LE w). reflexivity.
  Qed.
  Lemma chat_finished : has_end_of_demo_print (A ++ C ++ B) = has_end_of_demo_print (A ++ B).
  Proof.
    destruct P as [_ [_ [NE [a [EA _]]]]].
    assert (NB : B <> []).
    { destruct gs as [| g gs']; [destruct (NE eq_refl) |]. rewrite encode_cons. intros X. apply (f_equal len) in X. rewrite len_app in X.
      pose proof (encode_pos g). change (len []) with 0 in X. lia. }
    assert (NA : a <> []).
    { intros ->. destruct fs as [| f fs']; [discriminate EA |]. rewrite encode_cons in EA. apply (f_equal len) in EA.
      unfold encode_frame in EA. rewrite len_app, !len_cons in EA. change (len ([] ++ [x00])) with 1 in EA. lia. }
    apply eq_true_iff_eq. rewrite !finished_proof, EA, chat_bytes.
    set (h := [x00; x06] ++ enc32 (len (encode_message (mkMessage x03 t))) ++ [x08; x03] ++ t).
    replace ((a ++ [x00]) ++ (h ++ [x00]) ++ B) with ((a ++ [x00] ++ h) ++ x00 :: B) by (rewrite <- !app_assoc; reflexivity).
    replace ((a ++ [x00]) ++ B) with (a ++ x00 :: B) by (rewrite <- !app_assoc; reflexivity).
    split; apply finished_before; try exact NB; [exact NA |]. destruct a; discriminate.
  Qed.
  Lemma chat_paused : is_paused (A ++ C ++ B) = is_paused (A ++ B).
  Proof.
    assert (I1 : In (lit "Server is paused") marks) by (do 3 right; left; reflexivity).
    assert (I2 : In (lit "paused the game") marks) by (do 4 right; left; reflexivity).
    apply eq_true_iff_eq. rewrite !paused_proof, <- !finished_proof, chat_finished, !(chat_occurs _ I1), !(chat_occurs _ I2). reflexivity.
  Qed.
  Lemma chat_aborted : is_aborted (A ++ C ++ B) = is_aborted (A ++ B).
  Proof.
    apply eq_true_iff_eq. rewrite !aborted_proof. apply chat_occurs. do 5 right. left. reflexivity.
  Qed.

  (** the counts *)
  Lemma chat_pings : forall E, ping_per_player_number E (A ++ C ++ B) = ping_per_player_number E (A ++ B).
  Proof.
    intros E. rewrite <- with_chat, <- encode_both. apply thin_pings; [exact chat_wf | apply chat_thinned]. intros tail X. discriminate X.
  Qed.
  Lemma chat_no_obituary : no_obituary (chat t).
  Proof. intros x tail _ X. discriminate X. Qed.
  Lemma chat_frags : forall E, all_named E (fs ++ gs) -> frags_per_player_name E (A ++ C ++ B) = frags_per_player_name E (A ++ B).
  Proof.
    intros E N. rewrite <- with_chat, <- encode_both.
    assert (T' : thinned no_obituary (fs ++ chat t :: gs) (fs ++ gs)) by (apply chat_thinned, chat_no_obituary).
    apply thin_frags; [exact chat_wf | | exact T'].
    exact (named_thin E _ _ T' N).
  Qed.
  Lemma chat_announces : forall E, announces E (chat t) [].
  Proof.
    intros E. destruct (find (f_body (chat t)) (lit "flag")) eqn:F.
    - right. split; [apply occurs_iff; exists n; apply find_some in F; apply F |].
      exists [mkMessage x03 t]. split; [| constructor].
      cbn [chat f_body]. rewrite <- (app_nil_r (encode_message _)). apply scans_message; [| constructor]. destruct T as [N _]. exact N.
    - left. split; [apply find_none in F; exact F | reflexivity].
  Qed.
  Lemma chat_flags : forall E, flag_events_per_player_name E (A ++ C ++ B) = flag_events_per_player_name E (A ++ B).
  Proof.
    intros E. rewrite <- with_chat, <- encode_both. destruct P as [W [V _]]. pose proof (wf_both _ _ W V) as WV. pose proof chat_wf as WC.
    unfold flag_events_per_player_name.
    destruct (announces_all E fs) as [a HA]. destruct (announces_all E gs) as [b HB].
    rewrite (whole_eq (fs ++ gs)), (whole_eq (fs ++ chat t :: gs)).
    rewrite (flag_prints_quiet E (fs ++ gs) [] (a ++ b)); [| exact WV | exact Logic.I | apply Forall2_app; assumption].
    rewrite (flag_prints_quiet E (fs ++ chat t :: gs) [] (a ++ [] :: b));
      [| exact WC | exact Logic.I | apply Forall2_app; [exact HA | constructor; [apply chat_announces | exact HB]]].
    rewrite !concat_app. reflexivity.
  Qed.

  (** what stands on one side *)
  Lemma chat_clients : forall E, clients_before_place fs -> clientinfo_strings E (A ++ C ++ B) = clientinfo_strings E (A ++ B) /\
    clients E (A ++ C ++ B) = clients E (A ++ B).
  Proof.
    intros E [s [F L]]. rewrite !(clientinfo_strings_extend E A _ s F L), !(clients_extend E A _ s F L). auto.
  Qed.
  Lemma chat_bots : rfind (A ++ C ++ B) BOT_NEEDLE = None <-> rfind (A ++ B) BOT_NEEDLE = None.
  Proof. rewrite !rfind_none. change BOT_NEEDLE with bot_mark. rewrite chat_occurs; [reflexivity |]. do 6 right. left. reflexivity. Qed.

  Lemma chat_date : date_beside_place fs gs -> matchdate_string (A ++ C ++ B) = matchdate_string (A ++ B).
  Proof.
    assert (I : In matchdate_marker marks) by (do 2 right; left; reflexivity).
    intros [D | [N [D | N']]].
    - destruct D as [a [l [x [EQ [NL F]]]]].
      assert (K : forall y, matchdate_string (A ++ y) = matchdate_string (matchdate_marker ++ l ++ [x0a])).
      { intros y. apply (date_line _ a l (x ++ y)); [| exact NL | apply first_at_extend; exact F].
        rewrite EQ, <- !app_assoc. cbn [app]. rewrite <- ?app_assoc. reflexivity. }
      rewrite !K. reflexivity.
    - destruct D as [a [l [x [EQ [NL F]]]]].
      assert (K : first_at (A ++ B) matchdate_marker (len (A ++ a))).
      { rewrite len_app. split; [apply occurs_at_app_r; apply F |]. intros j J. destruct (place_cut _ I _ _ J) as [X | X].
        - exfalso. apply N, occurs_iff. exists j. eapply occurs_at_left; [exact J | exact X].
        - apply occurs_at_right in J; [| exact X]. apply F in J. lia. }
      pose proof (chat_first _ _ I K) as K'. unfold moved in K'. rewrite len_app in K'. replace (len A + len a <? len A) with false in K' by lia.
      replace (len A + len a + len C) with (len (A ++ C ++ a)) in K' by (rewrite !len_app; lia).
      rewrite (date_line (A ++ B) (A ++ a) l x), (date_line (A ++ C ++ B) (A ++ C ++ a) l x); auto;
        rewrite EQ, <- !app_assoc; reflexivity.
    - rewrite encode_both in N'. assert (K : find (A ++ B) matchdate_marker = None) by (apply find_none; exact N').
      assert (K' : find (A ++ C ++ B) matchdate_marker = None) by (apply find_none; rewrite chat_occurs; assumption).
      unfold matchdate_string. change MATCHDATE_NEEDLE with matchdate_marker. rewrite K, K'. reflexivity.
  Qed.

  Lemma chat_stats : forall E, stats_after_place fs gs -> len (A ++ C ++ B) < 9223372036854775808 ->
    ktxstats_string E (A ++ C ++ B) = ktxstats_string E (A ++ B).
  Proof.
    intros E [N | [a [d [EQ D]]]] L.
    - rewrite encode_both in N. assert (K : rfind (A ++ B) version_mark = None) by (apply rfind_none; exact N).
      assert (K' : rfind (A ++ C ++ B) version_mark = None)
        by (apply rfind_none; rewrite chat_occurs; [exact N | do 7 right; left; reflexivity]).
      unfold ktxstats_string. change VERSION with version_mark. rewrite K, K'. reflexivity.
    - rewrite EQ in *. rewrite !app_assoc in *. rewrite !(ktxstats_before E _ d 18 D); auto; try discriminate.
      rewrite !len_app in *. lia.
  Qed.
End Chat.

(** all of it *)
Section Everything.
  Context (E : env) (fs gs : list frame) (t : bytes) (P : place fs gs) (T : innocent t).
  Local Notation data := (encode (fs ++ gs)).
  Local Notation data' := (encode (fs ++ chat t :: gs)).

  Lemma marks_proof : has_end_of_demo_print data' = has_end_of_demo_print data /\ is_paused data' = is_paused data /\
    is_aborted data' = is_aborted data /\ demo_duration E data' = demo_duration E data.
  Proof. rewrite with_chat, encode_both. rewrite chat_finished, chat_paused, chat_aborted, chat_demo_duration by assumption. auto. Qed.
  Lemma counts_proof : flag_events_per_player_name E data' = flag_events_per_player_name E data /\
    ping_per_player_number E data' = ping_per_player_number E data /\
    (all_named E (fs ++ gs) -> frags_per_player_name E data' = frags_per_player_name E data).
  Proof.
    rewrite with_chat, encode_both. rewrite chat_flags, chat_pings by assumption. split; [reflexivity |]. split; [reflexivity |].
    intros N. apply chat_frags; assumption.
  Qed.

  Lemma head_proof : 1280 <= len (encode fs) ->
    serverinfo_string E data' = serverinfo_string E data /\ serverinfo E data' = serverinfo E data /\
    filename E data' = filename E data /\ timestamp_from_epoch E data' = timestamp_from_epoch E data /\
    countdown_duration E data' = countdown_duration E data /\ match_duration_from_seeking E data' = match_duration_from_seeking E data.
  Proof.
    intros L. assert (S : serverinfo E data' = serverinfo E data) by (rewrite with_chat, encode_both, !serverinfo_head by lia; reflexivity).
    assert (K : countdown_duration E data' = countdown_duration E data).
    { unfold countdown_duration. rewrite S. destruct (serverinfo E data) as [s | |]; [cbn [bind] | reflexivity | reflexivity].
      destruct (is_hoonymode s); [reflexivity |]. rewrite with_chat, encode_both. change MATCHDATE_NEEDLE with matchdate_marker.
      assert (I : In matchdate_marker marks) by (do 2 right; left; reflexivity).
      destruct (find (encode fs ++ encode gs) matchdate_marker) as [i |] eqn:F.
      - apply find_some in F. apply (chat_first fs gs t P T _ _ I) in F. apply find_some in F. rewrite F, chat_until by assumption. reflexivity.
      - apply find_none in F. rewrite <- (chat_occurs fs gs t P T _ I) in F. apply find_none in F. rewrite F. reflexivity. }
    rewrite K, S. unfold match_duration_from_seeking. rewrite K. destruct marks_proof as [_ [_ [_ ->]]].
    rewrite with_chat, encode_both, !serverinfo_string_head, !filename_head, !epoch_head by lia. repeat split; reflexivity.
  Qed.

  Lemma clients_proof : clients_before_place fs ->
    clientinfo_strings E data' = clientinfo_strings E data /\ clientinfo E data' = clientinfo E data /\
    clients E data' = clients E data /\ player_clients E data' = player_clients E data /\
    spectator_clients E data' = spectator_clients E data /\ player_names E data' = player_names E data /\
    spectator_names E data' = spectator_names E data /\ team_names E data' = team_names E data /\
    has_human_players E data' = has_human_players E data /\ has_bot_players E data' = has_bot_players E data /\
    is_valid E data' = is_valid E data.
  Proof.
    intros L. rewrite with_chat, encode_both. destruct (chat_clients fs gs t E L) as [S K].
    assert (I : clientinfo E (encode fs ++ encode_frame (chat t) ++ encode gs) = clientinfo E (encode fs ++ encode gs))
      by (unfold clientinfo; rewrite S; reflexivity).
    unfold has_bot_players, has_human_players, team_names, spectator_names, player_names, player_clients, spectator_clients. rewrite S, K, I.
    do 9 (split; [reflexivity |]). split.
    - destruct (clients E (encode fs ++ encode gs)) as [[cs |] | |]; try reflexivity. cbn [bind].
      destruct (existsb c_is_bot _); [reflexivity |]. do 2 f_equal.
      destruct (chat_bots fs gs t P T) as [X Y].
      destruct (rfind (encode fs ++ encode_frame (chat t) ++ encode gs) BOT_NEEDLE), (rfind (encode fs ++ encode gs) BOT_NEEDLE); try reflexivity.
      + discriminate (Y eq_refl).
      + discriminate (X eq_refl).
    - unfold is_valid, has_clients. rewrite I, chat_finished by assumption. destruct L as [s [F L]].
      rewrite !len_app, !serverinfo_head by lia. change MIN_SIZE with 1024.
      replace (1024 <=? len (encode fs) + _) with true by lia. replace (1024 <=? len (encode fs) + len (encode gs)) with true by lia. reflexivity.
  Qed.

  Lemma date_proof : 1280 <= len (encode fs) -> date_beside_place fs gs ->
    matchdate_string data' = matchdate_string data /\ matchdate E data' = matchdate E data /\ timestamp E data' = timestamp E data.
  Proof.
    intros L D. assert (S : matchdate_string data' = matchdate_string data) by (rewrite with_chat, encode_both; apply chat_date; assumption).
    pose proof (matchdate_alike E _ _ S) as K. split; [exact S |]. split; [exact K |]. unfold timestamp. rewrite K.
    destruct (head_proof L) as [_ [_ [_ [-> _]]]]. reflexivity.
  Qed.

  Lemma stats_proof : stats_after_place fs gs -> len data' < 9223372036854775808 ->
    ktxstats_string E data' = ktxstats_string E data /\ ktxstats_v3 E data' = ktxstats_v3 E data /\ server E data' = server E data /\
    match_duration_from_ktxstats E data' = match_duration_from_ktxstats E data /\
    (1280 <= len (encode fs) -> match_duration E data' = match_duration E data).
  Proof.
    intros S L. assert (K : ktxstats_string E data' = ktxstats_string E data).
    { rewrite with_chat in *. rewrite encode_both. apply chat_stats; assumption. }
    assert (M : match_duration_from_ktxstats E data' = match_duration_from_ktxstats E data) by (unfold match_duration_from_ktxstats; rewrite K; reflexivity).
    unfold server, ktxstats_v3. rewrite K. split; [reflexivity |]. split; [reflexivity |]. split; [reflexivity |]. split; [exact M |].
    intros H. destruct (head_proof H) as [_ [X [_ [_ [_ Y]]]]]. unfold match_duration. rewrite X, Y, M. reflexivity.
  Qed.

  Lemma players_proof : clients_before_place fs -> stats_after_place fs gs -> len data' < 9223372036854775808 -> all_named E (fs ++ gs) ->
    players_from_parsing E data' = players_from_parsing E data /\ players E data' = players E data /\ teams E data' = teams E data.
  Proof.
    intros C S L N. destruct (clients_proof C) as [_ [_ [K _]]]. destruct counts_proof as [_ [G F]]. specialize (F N).
    destruct (stats_proof S L) as [_ [V _]].
    assert (X : players_from_parsing E data' = players_from_parsing E data) by (unfold players_from_parsing; rewrite K, G, F; reflexivity).
    assert (Y : players E data' = players E data) by (unfold players; rewrite V, X; reflexivity).
    split; [exact X |]. split; [exact Y |]. unfold teams. rewrite Y. reflexivity.
  Qed.
End Everything.

(** tests for the examples *)
Lemma innocent_test : forall t, forallb (fun b => negb (Byte.eqb b x00)) t = true -> len t < 4294967293 ->
  forallb (fun m => negb (is_some (find (t ++ [x00]) m))) (lit "4status" :: marks) = true -> innocent t.
Proof.
  intros t Z L F. rewrite forallb_forall in Z, F.
  assert (K : forall m, In m (lit "4status" :: marks) -> ~ occurs (t ++ [x00]) m).
  { intros m I. apply F in I. apply find_none. destruct (find (t ++ [x00]) m); [discriminate I | reflexivity]. }
  split; [intros I; apply Z in I; discriminate I |]. split; [exact L |]. split; [intros m I; apply K; right; exact I |].
  intros a ->. apply (K (lit "4status") (or_introl eq_refl)). exists a, [x00]. rewrite <- app_assoc. reflexivity.
Qed.
Lemma status_last : forall a, last (a ++ lit "4status") x00 = "s"%byte.
Proof. intros a. rewrite (app_assoc a (lit "4statu") ["s"%byte] : a ++ lit "4status" = _). apply last_last. Qed.
Lemma place_test : forall fs gs c l, wf fs -> wf gs -> gs <> [] -> rev (encode fs) = x00 :: c :: l -> c <> "s"%byte -> place fs gs.
Proof.
  intros fs gs c l W V NE R NC. split; [exact W |]. split; [exact V |]. split; [exact NE |]. exists (rev l ++ [c]).
  apply (f_equal (@rev byte)) in R. rewrite rev_involutive in R. split; [exact R |].
  intros b X. apply (f_equal (fun l => last l x00)) in X. rewrite last_last, status_last in X. exact (NC X).
Qed.
