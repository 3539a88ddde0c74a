(** Counting the flag messages from the list of prints *)
From Coq Require Import Lia ZifyN ZifyNat ZifyBool.
From Verif.Model Require Import Base Env Prot Message Prints FlagEvent Flags.
From Verif.Spec Require Import Occ Mvd Messages Flags FlagTale.
From Verif.Proofs Require Import BaseFacts PrintFacts PrintProps FlagFacts.
Open Scope N_scope.

Lemma loud_iff : forall p, loud p = true <-> pr_id p = PiHigh.
Proof. intros p. unfold loud. destruct (print_id_dec (pr_id p) PiHigh); split; intros H; congruence. Qed.

Lemma level_high : forall b, level_of b = PiHigh <-> n_of b = 2.
Proof. intros b. destruct b; vm_compute; split; intros H; try reflexivity; discriminate H. Qed.

Lemma high_collapse : forall l,
  (forall a p q b, l = a ++ p :: q :: b -> pr_id p = PiHigh -> p <> q) ->
  filter loud (collapse print_dec l) = filter loud l.
Proof.
  induction l as [| x l IH]; intros H; [reflexivity |].
  assert (IH' : filter loud (collapse print_dec l) = filter loud l).
  { apply IH. intros a p q b E. apply (H (x :: a) p q b). rewrite E. reflexivity. }
  destruct l as [| y l]; [reflexivity |]. rewrite collapse_cons2. destruct (print_dec x y) as [-> | NE].
  - rewrite IH'. cbn [filter]. destruct (loud y) eqn:M; [| reflexivity]. exfalso.
    apply loud_iff in M. exact (H [] y y l eq_refl M eq_refl).
  - cbn [filter] in *. rewrite IH'. reflexivity.
Qed.

(** the high-level texts of a frame *)
Definition high_texts (f : frame) : list bytes := map m_text (filter high (messages (f_body f))).

Lemma high_of_prints : forall l,
  map pr_content (filter loud (map as_print (filter has_text l))) = map m_text (filter high l).
Proof.
  induction l as [| m l IH]; [reflexivity |]. cbn [filter]. unfold high at 1. destruct (has_text m); [| rewrite andb_false_r; exact IH].
  rewrite andb_true_r. cbn [map filter]. destruct (n_of (m_level m) =? 2) eqn:L.
  - replace (loud (as_print m)) with true; [cbn [map]; rewrite IH; reflexivity |].
    symmetry. apply loud_iff, level_high. lia.
  - replace (loud (as_print m)) with false; [exact IH |]. symmetry. apply Bool.not_true_iff_false.
    intros M. apply loud_iff in M. apply level_high in M. lia.
Qed.

Lemma high_texts_all : forall fs,
  map m_text (filter high (concat (map (fun f => messages (f_body f)) fs))) = concat (map high_texts fs).
Proof.
  induction fs as [| f fs IH]; [reflexivity |]. cbn [map concat]. rewrite filter_app, map_app, IH. reflexivity.
Qed.

Lemma high_prints : forall E fs rest ps, wf fs -> stops (len (encode fs ++ rest)) rest -> no_high_echo fs ->
  prints E (encode fs ++ rest) = Ret ps -> map pr_content (filter loud ps) = concat (map high_texts fs).
Proof.
  intros E fs rest ps W S R P. rewrite (prints_quiet E fs rest W S) in P. injection P as <-.
  rewrite high_collapse by exact R. unfold demo_messages. rewrite high_of_prints. apply high_texts_all.
Qed.

Lemma scans_no_print : forall r, ~ In x08 r -> scans r [].
Proof.
  induction r as [| b r IH]; intros N; [constructor |].
  apply scans_over; [intros ->; apply N; left; reflexivity |]. apply IH. intros I. apply N. right. exact I.
Qed.

Lemma scans_all : forall ms r, Forall wf_message ms -> ~ In x08 r -> scans (concat (map encode_message ms) ++ r) ms.
Proof.
  induction ms as [| m ms IH]; intros r F N; cbn [map concat app]; [apply scans_no_print; exact N |].
  inversion F; subst. rewrite <- app_assoc. apply scans_message; [assumption | apply IH; assumption].
Qed.

Lemma messages_all : forall ms r, Forall wf_message ms -> ~ In x08 r -> messages (concat (map encode_message ms) ++ r) = ms.
Proof.
  induction ms as [| m ms IH]; intros r F N; cbn [map concat app].
  - apply messages_nil. destruct r as [| b [| c r]]; try reflexivity. cbn [message_at].
    destruct (Byte.eqb b x08) eqn:B; [| reflexivity]. apply Byte.byte_dec_bl in B. subst b. exfalso. apply N. left. reflexivity.
  - inversion F; subst. rewrite <- app_assoc, messages_cons by assumption. rewrite IH by assumption. reflexivity.
Qed.

Lemma phrase_has_flag : forall q, In q flag_phrases -> occurs (snd q) (lit "flag").
Proof.
  intros q Q. apply occurs_iff. revert q Q. apply Forall_forall.
  repeat (apply Forall_cons || apply Forall_nil); cbn [snd]; eexists; apply find_some; vm_compute; reflexivity.
Qed.

Lemma occurs_trans : forall a b c : bytes, occurs a b -> occurs b c -> occurs a c.
Proof. intros a b c [x [y ->]] [u [v ->]]. exists (x ++ u), (v ++ y). rewrite <- !app_assoc. reflexivity. Qed.

Lemma tells_flag : forall msg k name, tells msg k name -> occurs msg (lit "flag").
Proof.
  intros msg k name [l1 [s [l2 [r [T [M _]]]]]]. apply (occurs_trans msg s).
  - exists name, r. exact M.
  - apply (phrase_has_flag (k, s)). rewrite T. apply in_or_app. right. left. reflexivity.
Qed.

Lemma text_in_body : forall ms m r, In m ms -> occurs (concat (map encode_message ms) ++ r) (m_text m).
Proof.
  intros ms m r I. apply in_split in I. destruct I as [a [b ->]].
  exists (concat (map encode_message a) ++ [x08; m_level m]), (x00 :: concat (map encode_message b) ++ r).
  rewrite map_app, concat_app. cbn [map concat]. unfold encode_message. cbn [app]. rewrite <- !app_assoc. cbn [app].
  rewrite <- app_assoc. reflexivity.
Qed.

Lemma tells_all_nothing : forall msg l, tells_all msg l -> ~ occurs msg (lit "flag") -> l = [].
Proof. intros msg l [[k [name [T _]]] | [_ H]] N; [destruct (N (tells_flag _ _ _ T)) | exact H]. Qed.

(** one frame *)
Lemma frame_tale : forall E f, keeps_flag E -> plain_flags E f ->
  (high_texts f = [] /\ announces E f []) \/
  (exists a, high_texts f = [a] /\ ~ second_half E a /\
     (announces E f [a] \/ announces E f [] /\ forall l, tells_all (to_unicode E a) l -> l = [])) \/
  (exists a b, high_texts f = [a; b] /\ ~ second_half E a /\ second_half E b /\ announces E f [a ++ b]).
Proof.
  intros E f K [ms [r [B [W [N M]]]]].
  assert (SC : scans (f_body f) ms) by (rewrite B; apply scans_all; assumption).
  assert (MS : messages (f_body f) = ms) by (rewrite B; apply messages_all; assumption).
  assert (TB : forall t, In t (map m_text (filter high ms)) -> occurs (f_body f) t).
  { intros t I. apply in_map_iff in I. destruct I as [m [<- I]]. apply filter_In in I. rewrite B. apply text_in_body. exact (proj1 I). }
  unfold high_texts. rewrite MS.
  assert (D : occurs (f_body f) (lit "flag") \/ ~ occurs (f_body f) (lit "flag")).
  { destruct (find (f_body f) (lit "flag")) as [i |] eqn:F.
    - left. apply BaseFacts.find_some in F. destruct F as [[x [y [E' _]]] _]. exists x, y. exact E'.
    - right. apply find_none. exact F. }
  destruct (map m_text (filter high ms)) as [| a [| b [| c l]]] eqn:H; [| | | destruct M].
  - left. split; [reflexivity |]. destruct D as [D | D]; [right | left; auto]. split; [exact D |].
    exists ms. split; [exact SC |]. rewrite H. constructor.
  - right. left. exists a. split; [reflexivity |]. split; [exact M |]. destruct D as [D | D].
    + left. right. split; [exact D |]. exists ms. split; [exact SC |]. rewrite H. constructor.
    + right. split; [left; auto |]. intros l T. apply (tells_all_nothing _ _ T). intros O. apply D.
      apply (occurs_trans _ a); [apply TB; left; reflexivity | apply K; exact O].
  - right. right. exists a, b. destruct M as [MA MB]. split; [reflexivity |]. split; [exact MA |]. split; [exact MB |].
    right. split.
    + apply (occurs_trans _ b); [apply TB; right; left; reflexivity |]. apply K.
      destruct MB as [k [s [z [P [_ U]]]]]. rewrite U. apply (occurs_trans _ s); [exists z, []; rewrite app_nil_r; reflexivity |].
      exact (phrase_has_flag (k, s) P).
    + exists ms. split; [exact SC |]. rewrite H. apply pairs_joined; [exact MB | constructor].
Qed.

Lemma head_not_half : forall E fs, keeps_flag E -> Forall (plain_flags E) fs ->
  match concat (map high_texts fs) with [] => True | a :: _ => ~ second_half E a end.
Proof.
  intros E fs K F. induction F as [| f fs P F IH]; [exact Logic.I |]. cbn [map concat].
  destruct (frame_tale E f K P) as [[-> _] | [[a [-> [N _]]] | [a [b [-> [N _]]]]]]; [exact IH | exact N | exact N].
Qed.

Lemma tale_frames : forall E fs, keeps_flag E -> Forall (plain_flags E) fs -> forall texts deeds,
  pieced E (concat (map high_texts fs)) texts ->
  Forall2 (fun t l => tells_all (to_unicode E t) l) texts deeds ->
  exists tss ds, Forall2 (announces E) fs tss /\
    Forall2 (fun t l => tells_all (to_unicode E t) l) (concat tss) ds /\ concat ds = concat deeds.
Proof.
  intros E fs K F. induction F as [| f fs P F IH]; intros texts deeds PC T.
  - cbn [map concat] in PC. inversion PC; subst. inversion T; subst. exists [], []. repeat constructor.
  - cbn [map concat] in PC. destruct (frame_tale E f K P) as [[H A] | [[a [H [N A]]] | [a [b [H [N [S A]]]]]]]; rewrite H in PC; cbn [app] in PC.
    + destruct (IH _ _ PC T) as [tss [ds [X [Y Z]]]]. exists ([] :: tss), ds. split; [constructor; assumption |]. split; assumption.
    + assert (Q : exists k, texts = a :: k /\ pieced E (concat (map high_texts fs)) k).
      { pose proof (head_not_half E fs K F) as HN. destruct (concat (map high_texts fs)) as [| c l].
        - inversion PC; subst. exists []. split; [reflexivity | constructor].
        - inversion PC; subst; [contradiction |]. eexists. split; [reflexivity | assumption]. }
      destruct Q as [k [-> PK]]. inversion T as [| ? d ? ds0 TA TR]; subst.
      destruct (IH _ _ PK TR) as [tss [ds [X [Y Z]]]]. destruct A as [A | [A Q]].
      * exists ([a] :: tss), (d :: ds). split; [constructor; assumption |]. split; [cbn [concat app]; constructor; assumption |].
        cbn [concat]. rewrite Z. reflexivity.
      * exists ([] :: tss), ds. split; [constructor; assumption |]. split; [exact Y |]. cbn [concat]. rewrite (Q d TA). exact Z.
    + assert (Q : exists k, texts = (a ++ b) :: k /\ pieced E (concat (map high_texts fs)) k).
      { inversion PC; subst; [eauto | contradiction]. }
      destruct Q as [k [-> PK]]. inversion T as [| ? d ? ds0 TA TR]; subst.
      destruct (IH _ _ PK TR) as [tss [ds [X [Y Z]]]].
      exists ([a ++ b] :: tss), (d :: ds). split; [constructor; assumption |]. split; [cbn [concat app]; constructor; assumption |].
      cbn [concat]. rewrite Z. reflexivity.
Qed.

Lemma flag_tale_proof : forall E fs rest ps texts deeds, keeps_flag E ->
  wf fs -> stops (len (encode fs ++ rest)) rest -> Forall (plain_flags E) fs -> no_high_echo fs ->
  prints E (encode fs ++ rest) = Ret ps -> pieced E (map pr_content (filter loud ps)) texts ->
  Forall2 (fun t l => tells_all (to_unicode E t) l) texts deeds ->
  (checked E = false \/ forall k name, times k name (concat deeds) < 256) ->
  exists tbl, flag_events_per_player_name E (encode fs ++ rest) = Ret tbl /\ counts tbl (concat deeds).
Proof.
  intros E fs rest ps texts deeds K W S F R P PC T H. rewrite (high_prints E fs rest ps W S R P) in PC.
  destruct (tale_frames E fs K F texts deeds PC T) as [tss [ds [A [B C]]]]. rewrite <- C in *.
  exact (flags_counted_proof E fs rest tss ds W S A B H).
Qed.

Lemma second_half_dec : forall E t, second_half E t \/ ~ second_half E t.
Proof.
  intros E t. destruct (suffix_of_flag E t) eqn:H; [left; apply suffix_iff; exact H | right; intros X].
  apply suffix_iff in X. congruence.
Qed.

Lemma pieced_exists_proof : forall E l, exists k, pieced E l k.
Proof.
  intros E l. assert (H : forall n l, (length l <= n)%nat -> exists k, pieced E l k).
  { induction n as [| n IH]; intros [| a [| b l']] L; cbn [length] in L;
      try (exists []; exact (pieced_none E)); try (exists [a]; exact (pieced_last E a)); try lia.
    destruct (second_half_dec E b) as [S | S].
    - destruct (IH l') as [k Hk]; [lia |]. exists ((a ++ b) :: k). constructor; assumption.
    - destruct (IH (b :: l')) as [k Hk]; [cbn [length]; lia |]. exists (a :: k). constructor; assumption. }
  exact (H (length l) l (le_n _)).
Qed.

Lemma flag_tables_equal : forall a b l, counts a l -> counts b l -> forall x, In x a <-> In x b.
Proof.
  assert (H : forall a b l, counts a l -> counts b l -> forall x, In x a -> In x b).
  { intros a b l [_ [KA VA]] [_ [KB VB]] [n v] I.
    assert (K : In n (map fst b)) by (apply KB, KA; apply (in_map fst) in I; exact I).
    apply in_map_iff in K. destruct K as [[n' v'] [E J]]. cbn [fst] in E. subst n'.
    assert (v = v') as ->; [| exact J].
    assert (Q : forall k, counter k v = counter k v') by (intros k; rewrite (VA n v k I), (VB n v' k J); reflexivity).
    pose proof (Q Captures); pose proof (Q Defends); pose proof (Q DefendsCarrierHard); pose proof (Q DefendsCarrier);
    pose proof (Q Takes); pose proof (Q Returns); pose proof (Q Assists). destruct v, v'. cbn in *. congruence. }
  intros a b l A B x. split; [exact (H a b l A B x) | exact (H b a l B A x)].
Qed.

Lemma same_flags_proof : forall E fs gs rest rest' ps, keeps_flag E -> checked E = false ->
  wf fs -> stops (len (encode fs ++ rest)) rest -> Forall (plain_flags E) fs -> no_high_echo fs ->
  wf gs -> stops (len (encode gs ++ rest')) rest' -> Forall (plain_flags E) gs -> no_high_echo gs ->
  prints E (encode fs ++ rest) = Ret ps -> prints E (encode gs ++ rest') = Ret ps ->
  exists a b, flag_events_per_player_name E (encode fs ++ rest) = Ret a /\
    flag_events_per_player_name E (encode gs ++ rest') = Ret b /\ forall x, In x a <-> In x b.
Proof.
  intros E fs gs rest rest' ps K C W S F R W' S' F' R' P P'.
  destruct (pieced_exists_proof E (map pr_content (filter loud ps))) as [texts PC].
  assert (X : exists deeds, Forall2 (fun t l => tells_all (to_unicode E t) l) texts deeds).
  { clear PC. induction texts as [| t l [ds IH]]; [exists []; constructor |].
    destruct (tells_all_exists_proof (to_unicode E t)) as [d D]. exists (d :: ds). constructor; assumption. }
  destruct X as [deeds T].
  destruct (flag_tale_proof E fs rest ps texts deeds) as [a [HA TA]]; auto.
  destruct (flag_tale_proof E gs rest' ps texts deeds) as [b [HB TB]]; auto.
  exists a, b. split; [exact HA |]. split; [exact HB |]. exact (flag_tables_equal a b _ TA TB).
Qed.
