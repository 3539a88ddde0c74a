(** Reading back a recording *)
From Coq Require Import Lia ZifyN ZifyNat ZifyBool.
From Verif.Model Require Import Base Env Prot Frame Message Prints Serverinfo Clientinfo
  Clients FragEvent FlagEvent Frags Flags Ping Ktxstats Matchdate Duration Validate.
From Verif.Spec Require Import Occ Mvd Messages Obituary Score Flags Pings Stats Texts Utf8 Dates Clientlist Times Recording.
From Verif.Proofs Require Import BaseFacts FrameFacts PrintFacts PrintProps TextFacts PingFacts StatsFacts ClientFacts
  ObituaryFacts ScoreFacts ScoreProps FlagFacts DateFacts TimeFacts WalkProps Utf8Facts.
From Verif.Proofs Require NameFacts.
Open Scope N_scope.

Definition obit (f : frame) (later : list frame) : list (message * list frame) :=
  match messages (f_body f) with
  | m :: _ => if has_text m && (n_of (m_level m) =? 1) then [(m, f :: later)] else []
  | [] => []
  end.

Record conveys (E : env) (cs : list Client) (f : frame) (ms : list message) (sc : list (str * Z))
  (ds : list (deed * str)) (pr : list (N * N)) : Prop := {
  cv_messages : messages (f_body f) = ms;
  cv_scores : forall later,
    Forall2 (fun '(m, s) l => scored cs (nearby_updates m s) (to_unicode E (m_text m)) l)
            (obit f later) (map (fun x => [x]) sc);
  cv_deeds : exists texts per, announces E f texts /\
    Forall2 (fun t l => tells_all (to_unicode E t) l) texts per /\ concat per = ds;
  cv_pings : ping_records (f_body f) = pr;
}.

Lemma messages_one : forall m, wf_message m -> messages (encode_message m) = [m].
Proof.
  intros m W. rewrite <- (app_nil_r (encode_message m)), messages_cons by exact W.
  rewrite messages_nil by reflexivity. reflexivity.
Qed.

Lemma message_at_other : forall t r, n_of t <> 8 -> message_at (t :: r) = None.
Proof.
  intros t r H. unfold message_at. destruct r as [| l r]; [reflexivity |].
  destruct (Byte.eqb t x08) eqn:B; [| reflexivity]. apply byte_eqb_true in B. subst t. exfalso. apply H. reflexivity.
Qed.

Lemma ping_records_other : forall t r, n_of t <> 36 -> ping_records (t :: r) = [].
Proof.
  intros t r H. unfold ping_records. cbn [length ping_records_n].
  destruct r as [| a [| b [| c [| d r]]]]; try reflexivity.
  apply N.eqb_neq in H. rewrite H. reflexivity.
Qed.

Lemma ping_records_nil : ping_records [] = [].
Proof. reflexivity. Qed.

Lemma ping_records_message : forall m r, ping_records (encode_message m ++ r) = [].
Proof. intros m r. unfold encode_message. cbn [app]. apply ping_records_other. discriminate. Qed.

Lemma obit_of : forall f later ms, messages (f_body f) = ms ->
  obit f later = match ms with
                 | m :: _ => if has_text m && (n_of (m_level m) =? 1) then [(m, f :: later)] else []
                 | [] => [] end.
Proof. intros f later ms H. unfold obit. rewrite H. reflexivity. Qed.

(** a frame that is silent on everything but prints *)
Lemma conveys_quiet : forall E cs f, message_at (f_body f) = None -> ping_records (f_body f) = [] ->
  announces E f [] -> conveys E cs f [] [] [] [].
Proof.
  intros E cs f M P A. pose proof (messages_nil _ M) as MN. split.
  - exact MN.
  - intros later. rewrite (obit_of f later [] MN). constructor.
  - exists [], []. split; [exact A |]. split; [constructor | reflexivity].
  - exact P.
Qed.

Lemma announces_silent : forall E f, ~ occurs (f_body f) flag_word -> announces E f [].
Proof. intros E f H. left. split; [exact H | reflexivity]. Qed.

Lemma scans_clear : forall d, ~ In x08 d -> scans d [].
Proof.
  induction d as [| b d IH]; intros H; [constructor |]. apply scans_over.
  - intros ->. apply H. left. reflexivity.
  - apply IH. intros I. apply H. right. exact I.
Qed.

Lemma occurs_dec : forall d p, occurs d p \/ ~ occurs d p.
Proof.
  intros d p. destruct (find d p) eqn:F.
  - left. apply is_some_find. rewrite F. reflexivity.
  - right. apply find_none. exact F.
Qed.

Lemma announces_scan : forall E f ms, scans (f_body f) ms -> filter high ms = [] -> announces E f [].
Proof.
  intros E f ms S H. destruct (occurs_dec (f_body f) (lit "flag")) as [O | O].
  - right. split; [exact O |]. exists ms. split; [exact S |]. rewrite H. constructor.
  - left. split; [exact O | reflexivity].
Qed.

(** text in a single message *)
Lemma occurs_in_message : forall level text p, ~ In x00 p -> ~ In x08 p -> ~ In level p -> p <> [] ->
  occurs (encode_message (mkMessage level text)) p -> occurs text p.
Proof.
  intros level text p N0 N8 NL NE O. apply occurs_iff in O. destruct O as [j O].
  unfold encode_message in O. cbn [m_level m_text] in O.
  pose proof (occurs_at_sep [] x08 _ p j N8 O) as [H | [H | H]]; [rewrite len_nil in H; pose proof (len_pos _ _ NE); lia | | contradiction].
  pose proof (occurs_at_right [x08] _ p j O) as O1. rewrite len_cons, len_nil in O1. specialize (O1 ltac:(rewrite len_nil in H; lia)).
  pose proof (occurs_at_sep [] level _ p _ NL O1) as [H1 | [H1 | H1]]; [rewrite len_nil in H1; pose proof (len_pos _ _ NE); lia | | contradiction].
  pose proof (occurs_at_right [level] _ p _ O1) as O2. rewrite len_cons, len_nil in O2. specialize (O2 ltac:(rewrite len_nil in H1; lia)).
  apply occurs_iff. exists (j - (1 + 0) - (1 + 0)).
  apply (occurs_at_left text [x00]); [exact O2 |].
  pose proof (occurs_at_sep text x00 [] p _ N0 O2) as [X | [X | X]]; [exact X | | contradiction].
  pose proof (occurs_at_le _ _ _ O2) as L. rewrite len_app, len_cons, len_nil in L. pose proof (len_pos _ _ NE). lia.
Qed.

Lemma not_in_flag : forall b, existsb (Byte.eqb b) flag_word = false -> ~ In b flag_word.
Proof. intros b H I. assert (existsb (Byte.eqb b) flag_word = true); [| congruence]. apply existsb_exists. exists b. split; [exact I | apply byte_eqb_refl]. Qed.

(** one print that is no obituary and announces nothing *)
Lemma conveys_print : forall E cs time type mask level text, ~ In x00 text -> n_of level <> 1 ->
  (n_of level <> 2 \/ ~ occurs text flag_word) ->
  let m := mkMessage level text in
  conveys E cs (mkFrame time type mask (encode_message m)) [m] [] [] [].
Proof.
  intros E cs time type mask level text W L D m.
  assert (messages (encode_message m) = [m]) as M by (apply messages_one; exact W).
  split; cbn [f_body].
  - exact M.
  - intros later. rewrite (obit_of _ _ [m]) by exact M. cbn [m_level m]. apply N.eqb_neq in L. rewrite L, Bool.andb_false_r. constructor.
  - exists [], []. split; [| split; [constructor | reflexivity]]. destruct D as [D | D].
    + apply (announces_scan E _ [m]); cbn [f_body]; [apply scans_one; exact W |]. cbn [filter]. unfold high. cbn [m_level m].
      apply N.eqb_neq in D. rewrite D. reflexivity.
    + destruct (N.eq_dec (n_of level) 2) as [L2 | L2].
      * apply announces_silent. cbn [f_body]. intros O. apply D. apply (occurs_in_message level); try exact O; try discriminate; apply not_in_flag.
        1, 2: reflexivity. assert (level = x02) as -> by (apply n_of_inj; exact L2). reflexivity.
      * apply (announces_scan E _ [m]); cbn [f_body]; [apply scans_one; exact W |]. cbn [filter]. unfold high. cbn [m_level m].
        apply N.eqb_neq in L2. rewrite L2. reflexivity.
  - rewrite <- (app_nil_r (encode_message m)). apply ping_records_message.
Qed.

Lemma has_text_true : forall level text, text <> [] -> has_text (mkMessage level text) = true.
Proof. intros level text H. unfold has_text. cbn [m_text]. destruct text; [contradiction | reflexivity]. Qed.

Lemma announces_medium : forall E f text tail, ~ In x00 text ->
  f_body f = encode_message (mkMessage x01 text) ++ tail -> (forall ms, scans tail ms -> filter high ms = []) ->
  announces E f [].
Proof.
  intros E f text tail W B T. destruct (scans_exists_proof tail) as [ms S].
  apply (announces_scan E f (mkMessage x01 text :: ms)).
  - rewrite B. apply scans_message; [exact W | exact S].
  - cbn [filter]. unfold high at 1. cbn [m_level]. change (n_of x01 =? 2) with false. cbn [andb]. apply T. exact S.
Qed.

Lemma scans_short : forall a b c ms, scans [x0e; a; b; c] ms -> filter high ms = [].
Proof.
  assert (forall d ms, scans d ms -> (length d <= 3)%nat -> filter high ms = []) as G.
  { intros d ms S. induction S as [| b r ms N S IH | m r ms W S IH | r N]; intros L; try reflexivity.
    - apply IH. cbn [length] in L. lia.
    - unfold encode_message in L. cbn [app length] in L. rewrite !app_length in L. cbn [length] in L.
      destruct m as [lv tx]. cbn [m_level m_text] in *. assert (tx = []) as -> by (destruct tx; [reflexivity | cbn [length] in L; lia]).
      cbn [filter]. unfold high at 1, has_text. cbn [m_level m_text is_empty negb]. rewrite Bool.andb_false_r. apply IH. cbn [length] in L. lia. }
  intros a b c ms S. inversion S as [| x r ms' N S' | m r ms' W S' E1 E2 | r N]; subst.
  apply (G [a; b; c]); [exact S' | cbn [length]; lia].
Qed.

Lemma conveys_killed : forall E cs time type mask wire p x y, wf_news E cs (Killed wire p x y) ->
  conveys E cs (mkFrame time type mask (body (Killed wire p x y))) (said (Killed wire p x y)) (scores (Killed wire p x y)) [] [].
Proof.
  intros E cs time type mask wire p x y (NE & W & P & NK & NX & ONE & T).
  cbn [body said]. set (m := mkMessage x01 wire).
  assert (messages (encode_message m) = [m]) as M by (apply messages_one; exact W).
  split; cbn [f_body].
  - exact M.
  - intros later. rewrite (obit_of _ _ [m]) by exact M. cbn [m_level m].
    unfold m. rewrite has_text_true by exact NE. cbn [andb]. change (n_of x01 =? 1) with true. cbn iota.
    pose proof (NameFacts.readable_reads p x y P NX ONE) as R.
    assert (exists e, map (fun z : str * Z => [z]) (scores (Killed wire p x y)) = [[e]] /\
                      forall nums, entries cs nums (Ok (event (ph_kind p) x y)) [e]) as [e [-> EN]].
    { cbn [scores]. destruct (ph_kind p); try contradiction; eexists; (split; [reflexivity | intros; reflexivity]). }
    constructor; [| constructor]. cbn [m_text]. exists (obituary p x y). split; [exact T |]. left.
    eexists. split; [exact R | apply EN].
  - exists [], []. split; [| split; [constructor | reflexivity]].
    apply (announces_medium E _ wire []); cbn [f_body]; [exact W | rewrite app_nil_r; reflexivity |].
    intros ms S. apply (scans_unique _ _ []) in S; [| constructor]. subst. reflexivity.
  - rewrite <- (app_nil_r (encode_message m)). apply ping_records_message.
Qed.

Lemma first_with_head : forall A (P : A -> Prop) a l, P a -> first_with P (a :: l) a.
Proof. intros A P a l H. exists [], l. split; [reflexivity |]. split; [exact H | constructor]. Qed.

Lemma conveys_killed_by_mate : forall E cs time type mask wire p v k n lo hi,
  wf_news E cs (KilledByMate wire p v k n lo hi) ->
  conveys E cs (mkFrame time type mask (body (KilledByMate wire p v k n lo hi)))
    (said (KilledByMate wire p v k n lo hi)) (scores (KilledByMate wire p v k n lo hi)) [] [].
Proof.
  intros E cs time type mask wire p v k n lo hi (NE & W & P & K & NX & T & vc & kc & FV & FK & TM & KN & KV).
  cbn [body said scores]. set (m := mkMessage x01 wire).
  assert (messages (encode_message m ++ [x0e; n; lo; hi]) = [m]) as M.
  { rewrite messages_cons by exact W. rewrite messages_nil by (apply message_at_other; discriminate). reflexivity. }
  split; cbn [f_body].
  - exact M.
  - intros later. rewrite (obit_of _ _ [m]) by exact M. cbn [m_level m].
    unfold m. rewrite has_text_true by exact NE. cbn [andb]. change (n_of x01 =? 1) with true. cbn iota.
    constructor; [| constructor]. cbn [m_text nearby_updates f_body].
    rewrite skipn_app_exact. cbn [score_update]. change (n_of x0e =? 14) with true. cbn iota.
    exists (obituary p v []). split; [exact T |]. left.
    exists (TeamkillByUnknown v). split.
    + replace (TeamkillByUnknown v) with (event (ph_kind p) v []) by (rewrite K; reflexivity).
      apply NameFacts.readable_reads; try assumption.
      intros _. reflexivity.
    + cbn [entries]. left. exists k. split; [| reflexivity].
      exists vc. split; [exact FV |]. exists (n_of n), kc. split; [| split; [exact FK | exact KN]].
      apply first_with_head. exists kc. split; [exact FK |]. split; [exact TM |]. rewrite KN. exact KV.
  - exists [], []. split; [| split; [constructor | reflexivity]].
    apply (announces_medium E _ wire [x0e; n; lo; hi]); cbn [f_body]; [exact W | reflexivity |].
    intros ms S. apply scans_short in S. exact S.
  - apply ping_records_message.
Qed.

Lemma conveys_flag : forall E cs time type mask wire k s name, wf_news E cs (FlagNews wire k s name) ->
  conveys E cs (mkFrame time type mask (body (FlagNews wire k s name))) (said (FlagNews wire k s name)) [] [(k, name)] [].
Proof.
  intros E cs time type mask wire k s name (NE & W & O & P & NN & U).
  cbn [body said]. set (m := mkMessage x02 wire).
  assert (messages (encode_message m) = [m]) as M by (apply messages_one; exact W).
  split; cbn [f_body].
  - exact M.
  - intros later. rewrite (obit_of _ _ [m]) by exact M. cbn [m_level m]. change (n_of x02 =? 1) with false. rewrite Bool.andb_false_r. constructor.
  - destruct (carries_announces E (mkFrame time type mask (encode_message m)) k name) as [t [A TL]].
    { exists s. split; [exact P |]. split; [exact NN |]. cbn [f_body]. split.
      - destruct O as [a [b ->]]. exists (x08 :: x02 :: a), (b ++ [x00]). unfold encode_message, m. cbn [m_text m_level app]. rewrite <- !app_assoc. reflexivity.
      - left. exists m. split; [reflexivity |]. split; [exact W |]. split; [| exact U].
        unfold high. unfold m. rewrite has_text_true by exact NE. reflexivity. }
    exists [t], [[(k, name)]]. split; [exact A |]. split; [constructor; [exact TL | constructor] | reflexivity].
  - rewrite <- (app_nil_r (encode_message m)). apply ping_records_message.
Qed.

Lemma conveys_flag_two : forall E cs time type mask a b k s name, wf_news E cs (FlagNewsInTwo a b k s name) ->
  conveys E cs (mkFrame time type mask (body (FlagNewsInTwo a b k s name))) (said (FlagNewsInTwo a b k s name)) [] [(k, name)] [].
Proof.
  intros E cs time type mask a b k s name (NA & NB & WA & WB & O & P & NN & SH & U).
  cbn [body said]. set (ma := mkMessage x02 a). set (mb := mkMessage x02 b).
  assert (messages (encode_message ma ++ encode_message mb) = [ma; mb]) as M.
  { rewrite messages_cons by exact WA. rewrite messages_one by exact WB. reflexivity. }
  split; cbn [f_body].
  - exact M.
  - intros later. rewrite (obit_of _ _ [ma; mb]) by exact M. cbn [m_level ma]. change (n_of x02 =? 1) with false. rewrite Bool.andb_false_r. constructor.
  - destruct (carries_announces E (mkFrame time type mask (encode_message ma ++ encode_message mb)) k name) as [t [A TL]].
    { exists s. split; [exact P |]. split; [exact NN |]. cbn [f_body]. split.
      - apply occurs_app_r. destruct O as [u [v ->]]. exists (x08 :: x02 :: u), (v ++ [x00]). unfold encode_message, mb. cbn [m_text m_level app]. rewrite <- !app_assoc. reflexivity.
      - right. exists ma, mb. split; [reflexivity |]. split; [exact WA |]. split; [exact WB |].
        split; [unfold high, ma; rewrite has_text_true by exact NA; reflexivity |].
        split; [unfold high, mb; rewrite has_text_true by exact NB; reflexivity |]. split; [exact SH | exact U]. }
    exists [t], [[(k, name)]]. split; [exact A |]. split; [constructor; [exact TL | constructor] | reflexivity].
  - apply ping_records_message.
Qed.

(** ping updates never spell the word *)
Lemma pings_silent : forall us, ~ occurs (concat (map encode_ping us)) flag_word.
Proof.
  induction us as [| u us IH]; intros O.
  - apply occurs_iff in O. destruct O as [j O]. apply occurs_at_nil in O. destruct O. discriminate.
  - apply IH. clear IH. apply occurs_iff in O. destruct O as [j O]. cbn [map concat] in O.
    assert (7 <= j) as G.
    { change (encode_ping u) with ([x24; pu_player u; Mvd.byte_of (pu_ping u); Mvd.byte_of (pu_ping u / 256)] ++ x35 :: [pu_player u; pu_loss u]) in O.
      rewrite <- app_assoc in O. cbn [app] in O.
      assert (~ In x24 flag_word) as N24 by (apply not_in_flag; reflexivity).
      assert (~ In x35 flag_word) as N35 by (apply not_in_flag; reflexivity).
      pose proof (occurs_at_sep [] x24 _ flag_word j N24 O) as H0.
      pose proof (occurs_at_sep [x24; pu_player u; Mvd.byte_of (pu_ping u); Mvd.byte_of (pu_ping u / 256)] x35 (pu_player u :: pu_loss u :: concat (map encode_ping us)) flag_word j N35 O) as H1.
      change (len flag_word) with 4 in *. rewrite !len_cons, len_nil in *.
      destruct H0 as [H0 | [H0 | H0]]; [lia | | discriminate]. destruct H1 as [H1 | [H1 | H1]]; [lia | | discriminate].
      destruct us as [| u' us].
      - pose proof (occurs_at_le _ _ _ O) as L. change (len flag_word) with 4 in L. cbn [map concat] in L. rewrite !len_cons, len_nil in L. lia.
      - pose proof (occurs_at_sep [x24; pu_player u; Mvd.byte_of (pu_ping u); Mvd.byte_of (pu_ping u / 256); x35; pu_player u; pu_loss u] x24
          (pu_player u' :: Mvd.byte_of (pu_ping u') :: Mvd.byte_of (pu_ping u' / 256) :: x35 :: pu_player u' :: pu_loss u' :: concat (map encode_ping us)) flag_word j N24 O) as H2.
        change (len flag_word) with 4 in *. rewrite !len_cons, len_nil in H2. destruct H2 as [H2 | [H2 | H2]]; [lia | lia | discriminate]. }
    apply (occurs_at_right (encode_ping u)) in O; [| exact G]. apply occurs_iff. eexists. exact O.
Qed.

Lemma conveys_pings : forall E cs time type mask us, Forall wf_ping us ->
  conveys E cs (mkFrame time type mask (body (PingNews us))) [] [] [] (reported (PingNews us)).
Proof.
  intros E cs time type mask us W. cbn [body reported].
  assert (message_at (concat (map encode_ping us)) = None) as M.
  { destruct us as [| u us]; [reflexivity |]. cbn [map concat]. unfold encode_ping. cbn [app]. apply message_at_other. discriminate. }
  pose proof (messages_nil _ M) as MN. split; cbn [f_body].
  - exact MN.
  - intros later. rewrite (obit_of _ later []) by exact MN. constructor.
  - exists [], []. split; [apply announces_silent; apply pings_silent |]. split; [constructor | reflexivity].
  - rewrite <- (app_nil_r (concat (map encode_ping us))). apply ping_records_encode; [exact W | discriminate].
Qed.

Lemma conveys_entry : forall E cs e, wf_entry E cs e ->
  conveys E cs (frame_of e) (said (e_news e)) (scores (e_news e)) (deeds (e_news e)) (reported (e_news e)).
Proof.
  intros E cs [t ty mk n] [_ W]. unfold frame_of. cbn [e_time e_type e_mask e_news] in *.
  destruct n; try (cbn [scores deeds reported said]).
  - apply conveys_quiet; cbn [f_body body]; [reflexivity | reflexivity |]. apply (announces_scan E _ []); [constructor | reflexivity].
  - destruct W as [L1 [L2 W]]. apply conveys_print; auto.
  - destruct W as [W O]. apply conveys_print; [exact W | discriminate | right; exact O].
  - apply conveys_killed. exact W.
  - apply conveys_killed_by_mate. exact W.
  - apply (conveys_flag E cs t ty mk _ _ _ _ W).
  - apply (conveys_flag_two E cs t ty mk _ _ _ _ _ W).
  - apply conveys_pings. exact W.
  - destruct W as [A [B O]]. apply conveys_quiet; cbn [f_body body].
    + apply message_at_other. exact A.
    + apply ping_records_other. exact B.
    + apply announces_silent. exact O.
Qed.

(** ** Lists of frames *)

Definition content := (list message * list (str * Z) * list (deed * str) * list (N * N))%type.
Definition c_said (c : content) := fst (fst (fst c)).
Definition c_scores (c : content) := snd (fst (fst c)).
Definition c_deeds (c : content) := snd (fst c).
Definition c_pings (c : content) := snd c.
Definition nothing : content := ([], [], [], []).
Definition content_of (e : entry) : content :=
  (said (e_news e), scores (e_news e), deeds (e_news e), reported (e_news e)).
Definition holds (E : env) (cs : list Client) (f : frame) (c : content) : Prop :=
  conveys E cs f (c_said c) (c_scores c) (c_deeds c) (c_pings c).

Lemma holds_messages : forall E cs fs qs, Forall2 (holds E cs) fs qs ->
  concat (map (fun f => messages (f_body f)) fs) = concat (map c_said qs).
Proof.
  intros E cs fs qs F. induction F as [| f c fs qs H F IH]; [reflexivity |].
  cbn [map concat]. rewrite IH. f_equal. exact (cv_messages _ _ _ _ _ _ _ H).
Qed.

Lemma concat_singles : forall A (l : list A), concat (map (fun x => [x]) l) = l.
Proof. intros A l. induction l as [| x l IH]; [reflexivity |]. cbn [map concat app]. rewrite IH. reflexivity. Qed.

Lemma holds_scores : forall E cs fs qs, Forall2 (holds E cs) fs qs ->
  exists per, Forall2 (fun '(m, s) l => scored cs (nearby_updates m s) (to_unicode E (m_text m)) l) (obituaries fs) per /\
    concat per = concat (map c_scores qs).
Proof.
  intros E cs fs qs F. induction F as [| f c fs qs H F IH].
  - exists []. split; [constructor | reflexivity].
  - destruct IH as [per [FP Q]]. exists (map (fun x => [x]) (c_scores c) ++ per). split.
    + change (obituaries (f :: fs)) with (obit f fs ++ obituaries fs). apply Forall2_app; [| exact FP].
      exact (cv_scores _ _ _ _ _ _ _ H fs).
    + rewrite concat_app, concat_singles, Q. reflexivity.
Qed.

Lemma holds_deeds : forall E cs fs qs, Forall2 (holds E cs) fs qs ->
  exists texts per, Forall2 (announces E) fs texts /\
    Forall2 (fun t l => tells_all (to_unicode E t) l) (concat texts) per /\ concat per = concat (map c_deeds qs).
Proof.
  intros E cs fs qs F. induction F as [| f c fs qs H F IH].
  - exists [], []. split; [constructor |]. split; [constructor | reflexivity].
  - destruct IH as [texts [per [FA [FT Q]]]]. destruct (cv_deeds _ _ _ _ _ _ _ H) as [t [p [A [T QD]]]].
    exists (t :: texts), (p ++ per). split; [constructor; assumption |].
    split; [cbn [concat]; apply Forall2_app; assumption |]. cbn [map concat]. rewrite concat_app, Q, QD. reflexivity.
Qed.

Lemma holds_pings : forall E cs fs qs, Forall2 (holds E cs) fs qs ->
  map (fun f => ping_records (f_body f)) fs = map c_pings qs.
Proof.
  intros E cs fs qs F. induction F as [| f c fs qs H F IH]; [reflexivity |].
  cbn [map]. rewrite IH. f_equal. exact (cv_pings _ _ _ _ _ _ _ H).
Qed.

(** ** The frames of a recording *)

Definition contents (r : recording) : list content :=
  [nothing; nothing] ++ map content_of (timeline r) ++ map (fun _ => nothing) (tail_frames r).

Lemma concat_nothing : forall A B (f : content -> list A) (l : list B), f nothing = [] ->
  concat (map f (map (fun _ => nothing) l)) = [].
Proof. intros A B f l H. induction l as [| x l IH]; [reflexivity |]. cbn [map concat]. rewrite H, IH. reflexivity. Qed.

Lemma concat_contents : forall A (f : content -> list A) r, f nothing = [] ->
  concat (map f (contents r)) = concat (map (fun e => f (content_of e)) (timeline r)).
Proof.
  intros A f r H. unfold contents. rewrite !map_app, !concat_app. cbn [map concat]. rewrite H.
  rewrite concat_nothing by exact H. cbn [app]. rewrite app_nil_r, map_map. reflexivity.
Qed.

Lemma filter_nothing : forall B (l : list B),
  filter (fun l => negb (is_empty l)) (map c_pings (map (fun _ => nothing) l)) = [].
Proof. intros B l. induction l as [| x l IH]; [reflexivity |]. cbn [map filter]. exact IH. Qed.

Lemma wf_all : forall t b, len b < 4294967296 -> wf_frame (to_all t b).
Proof. intros t b H. split; [reflexivity | exact H]. Qed.

Lemma date_silent : forall E cs r, wf_recording E cs r -> wf_entry E cs (date_entry r).
Proof.
  intros E cs r W. destruct (w_date _ _ _ W) as ([L1 L2] & NL & N0 & U & F). split.
  - apply wf_all. unfold body. cbn [e_news date_entry]. rewrite len_encode_message. cbn [m_text].
    rewrite !len_app. change (len (lit "matchdate: ")) with 11. rewrite len_cons, len_nil. lia.
  - cbn [e_news date_entry wf_news]. split.
    + intros I. apply in_app_or in I. destruct I as [I | I].
      * vm_compute in I. repeat (destruct I as [I | I]; [discriminate |]). exact I.
      * apply in_app_or in I. destruct I as [I | [I | []]]; [contradiction | discriminate].
    + intros O. apply F. apply occurs_iff in O. destruct O as [j O].
      change (lit "matchdate: " ++ r_date r ++ [x0a]) with (lit "matchdate:" ++ x20 :: r_date r ++ [x0a]) in O.
      assert (~ In x20 flag_word) as N20 by (apply not_in_flag; reflexivity).
      assert (~ In x0a flag_word) as N0a by (apply not_in_flag; reflexivity).
      pose proof (occurs_at_sep _ x20 _ _ j N20 O) as [X | [X | X]]; [| | discriminate].
      * exfalso. apply (occurs_at_left (lit "matchdate:")) in O; [| exact X].
        assert (~ occurs (lit "matchdate:") flag_word) as Z by (apply find_none; reflexivity). apply Z. apply occurs_iff. eauto.
      * change (x20 :: r_date r ++ [x0a]) with ([x20] ++ r_date r ++ [x0a]) in O. rewrite app_assoc in O.
        apply (occurs_at_right (lit "matchdate:" ++ [x20])) in O;
          [| assert (10 < j) by exact X; change (len (lit "matchdate:" ++ [x20])) with 11; lia].
        revert O. generalize (j - len (lit "matchdate:" ++ [x20])). clear j X. intros j O.
        pose proof (occurs_at_sep _ x0a _ _ _ N0a O) as [Y | [Y | Y]]; [| | discriminate].
        -- apply occurs_iff. eexists. apply (occurs_at_left (r_date r)) in O; [exact O | exact Y].
        -- apply occurs_at_le in O. change (len flag_word) with 4 in O. rewrite len_app, len_cons, len_nil in O. lia.
Qed.

Lemma over_silent : forall E cs r, wf_entry E cs (over_entry r).
Proof.
  intros E cs r. split.
  - apply wf_all. vm_compute. reflexivity.
  - cbn [e_news over_entry wf_news]. split.
    + intros I. vm_compute in I. repeat (destruct I as [I | I]; [discriminate |]). exact I.
    + apply find_none. reflexivity.
Qed.

Lemma timeline_wf : forall E cs r, wf_recording E cs r -> Forall (wf_entry E cs) (timeline r).
Proof.
  intros E cs r W. destruct (w_timeline _ _ _ W) as [C M]. unfold timeline. apply Forall_app. split; [exact C |].
  constructor; [apply (date_silent _ _ _ W) |]. apply Forall_app. split; [exact M |]. constructor; [apply over_silent | constructor].
Qed.

Lemma frame_of_wf : forall E cs l, Forall (wf_entry E cs) l -> wf (map frame_of l).
Proof. intros E cs l H. induction H as [| e l [W _] _ IH]; constructor; assumption. Qed.

Lemma stats_wf : forall l, Forall wf_stats l -> wf (map stats_of l).
Proof.
  intros l H. induction H as [| s l [W1 [W2 _]] _ IH]; constructor; [| exact IH].
  split; [reflexivity |]. cbn [has_length stats_of f_type f_body]. change (has_length x03) with true. cbn iota.
  unfold stats_body. rewrite !len_app. unfold enc32, enc16. rewrite !len_cons, !len_nil. lia.
Qed.

Lemma info_body_len : forall r, len (info_body r) = len (r_info r) + 20.
Proof.
  intros r. unfold info_body. rewrite len_cons, !len_app. change (len serverinfo_mark) with 16. change (len (lit """")) with 1.
  change (len [x0a; x00]) with 2. lia.
Qed.

Lemma frames_wf : forall E cs r, wf_recording E cs r -> wf (frames r).
Proof.
  intros E cs r W. unfold frames. apply Forall_app. split.
  - constructor; [apply wf_all; rewrite info_body_len; destruct (w_info _ _ _ W) as (_ & _ & _ & _ & L); lia |].
    constructor; [apply wf_all; apply (w_users_body _ _ _ W) | constructor].
  - apply Forall_app. split; [apply (frame_of_wf E cs), timeline_wf; exact W |].
    unfold tail_frames. apply Forall_app. split; [apply stats_wf, (w_stats _ _ _ W) |].
    constructor; [apply wf_all; vm_compute; reflexivity | constructor].
Qed.

Lemma n_of_byte_of : forall n, n_of (Mvd.byte_of n) = n mod 256.
Proof.
  intros n. unfold Mvd.byte_of, n_of. assert (n mod 256 < 256) as L by (apply N.mod_lt; discriminate).
  destruct (Byte.of_N (n mod 256)) eqn:B.
  - apply Byte.to_of_N in B. exact B.
  - exfalso. apply Byte.of_N_None_iff in B. lia.
Qed.

Lemma holds_other : forall E cs f t b, f_body f = t :: b -> n_of t <> 8 -> n_of t <> 36 -> announces E f [] -> holds E cs f nothing.
Proof.
  intros E cs f t b B N8 N36 A. apply conveys_quiet; [rewrite B; apply message_at_other; exact N8 | rewrite B; apply ping_records_other; exact N36 | exact A].
Qed.

Lemma frames_hold : forall E cs r, wf_recording E cs r -> Forall2 (holds E cs) (frames r) (contents r).
Proof.
  intros E cs r W. unfold frames, contents. apply Forall2_app; [| apply Forall2_app].
  - constructor.
    + eapply holds_other; [reflexivity | discriminate | discriminate |].
      apply (announces_scan E _ []); [| reflexivity]. apply scans_clear. cbn [f_body to_all]. unfold info_body.
      destruct (w_info _ _ _ W) as (_ & _ & N8 & _). intros [I | I]; [discriminate |].
      apply in_app_or in I. destruct I as [I | I]; [vm_compute in I; repeat (destruct I as [I | I]; [discriminate |]); exact I |].
      apply in_app_or in I. destruct I as [I | I]; [contradiction |]. vm_compute in I. repeat (destruct I as [I | I]; [discriminate |]). exact I.
    + constructor; [| constructor]. eapply holds_other; [reflexivity | discriminate | discriminate |].
      apply (announces_scan E _ []); [| reflexivity]. apply scans_clear. apply (w_users_body _ _ _ W).
  - pose proof (timeline_wf _ _ _ W) as T. induction T as [| e l H T IH]; constructor; [| exact IH]. apply conveys_entry. exact H.
  - unfold tail_frames. rewrite map_app. apply Forall2_app.
    + pose proof (w_stats _ _ _ W) as T. induction T as [| s l H T IH]; constructor; [| exact IH].
      destruct H as (_ & _ & S & N8 & N36). eapply holds_other; [reflexivity | rewrite n_of_byte_of; exact N8 | rewrite n_of_byte_of; exact N36 |].
      apply announces_silent. exact S.
    + constructor; [| constructor]. eapply holds_other; [reflexivity | discriminate | discriminate |].
      apply announces_silent. apply find_none. reflexivity.
Qed.

Lemma stops_nil : forall total, stops total [].
Proof. intros total. exact I. Qed.

Lemma recording_prints : forall E cs r, wf_recording E cs r ->
  prints E (encode (frames r)) = Ret (collapse print_dec (map as_print (filter has_text (all_said r)))).
Proof.
  intros E cs r W. rewrite <- (app_nil_r (encode (frames r))). rewrite prints_quiet; [| apply (frames_wf _ _ _ W) | apply stops_nil].
  unfold demo_messages. rewrite (holds_messages _ _ _ _ (frames_hold _ _ _ W)), concat_contents by reflexivity. reflexivity.
Qed.

Lemma recording_deeds : forall E cs r, wf_recording E cs r ->
  exists tbl, flag_events_per_player_name E (encode (frames r)) = Ret tbl /\ counts tbl (all_deeds r).
Proof.
  intros E cs r W. destruct (holds_deeds _ _ _ _ (frames_hold _ _ _ W)) as [texts [per [A [T Q]]]].
  rewrite concat_contents in Q by reflexivity. change (concat per = all_deeds r) in Q.
  rewrite <- (app_nil_r (encode (frames r))), <- Q.
  apply (flags_counted_proof E (frames r) [] texts per); [apply (frames_wf _ _ _ W) | apply stops_nil | exact A | exact T |].
  right. rewrite Q. apply (w_deeds _ _ _ W).
Qed.

Lemma recording_sampled : forall E cs r, wf_recording E cs r -> sampled (frames r) = pings_reported r.
Proof.
  intros E cs r W. unfold sampled, ping_frames. rewrite (holds_pings _ _ _ _ (frames_hold _ _ _ W)).
  unfold contents. rewrite !map_app, !filter_app. rewrite filter_nothing, app_nil_r. cbn [map filter c_pings nothing snd is_empty negb app].
  rewrite map_map. reflexivity.
Qed.

Lemma recording_pings : forall E cs r, wf_recording E cs r ->
  if is_empty (pings_reported r) then ping_per_player_number E (encode (frames r)) = Ret (Err "Unable to read pings")
  else exists tbl, ping_per_player_number E (encode (frames r)) = Ret (Ok tbl) /\ averages tbl (pings_reported r).
Proof.
  intros E cs r W. pose proof (recording_sampled _ _ _ W) as S. pose proof (w_pings _ _ _ W) as B. rewrite <- S in *.
  rewrite <- (app_nil_r (encode (frames r))). destruct (is_empty (sampled (frames r))) eqn:X.
  - apply is_empty_true in X. apply pings_none_proof; [apply (frames_wf _ _ _ W) | left; apply stops_nil | exact X].
  - apply is_empty_false in X. apply pings_average_proof; [apply (frames_wf _ _ _ W) | left; apply stops_nil | exact X | exact B].
Qed.
