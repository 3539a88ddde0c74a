(** Results written to a demo are read again. *)
From Coq Require Import Lia ZifyN ZifyNat ZifyBool.
From Verif.Model Require Import Base Env Prot Frame Message Prints Serverinfo Clientinfo Matchdate Ktxstats.
From Verif.Spec Require Import Occ Mvd Messages Utf8 Texts Dates Stats Copy.
From Verif.Proofs Require Import BaseFacts PrintFacts PrintProps WalkProps TextFacts ClientFacts DateFacts StatsFacts.
Open Scope N_scope.

Lemma collapse_same : forall l : list Print, (forall a p q b, l = a ++ p :: q :: b -> p <> q) -> collapse print_dec l = l.
Proof.
  induction l as [| x l IH]; intros H; [reflexivity |]. cbn [collapse]. destruct l as [| y l]; [reflexivity |].
  destruct (print_dec x y) as [E | E]; [exfalso; exact (H [] x y l eq_refl E) |].
  rewrite IH; [reflexivity |]. intros a p q b Q. apply (H (x :: a) p q b). rewrite Q. reflexivity.
Qed.

Lemma all_text : forall ms, (forall p, In p (map as_print ms) -> pr_content p <> []) -> filter has_text ms = ms.
Proof.
  induction ms as [| m ms IH]; intros H; [reflexivity |]. cbn [filter].
  assert (has_text m = true) as ->.
  { unfold has_text. destruct (m_text m) eqn:E; [exfalso | reflexivity]. exact (H (as_print m) (or_introl eq_refl) E). }
  f_equal. apply IH. intros p I. apply H. right. exact I.
Qed.

Lemma prints_rewritten_proof : forall E E' data ps fs rest openings, prints E data = Ret ps ->
  wf fs -> announced rest = None -> Forall2 (fun f ms => opens_with (f_body f) ms) fs openings ->
  map as_print (concat openings) = ps -> prints E' (encode fs ++ rest) = Ret ps.
Proof.
  intros E E' data ps fs rest openings H W R O M. destruct (prints_shape E data ps H) as [A B].
  rewrite (prints_well_formed_proof E' fs rest openings W R O), all_text.
  - rewrite M. rewrite collapse_same by exact B. reflexivity.
  - rewrite M. intros p I. exact (proj1 (A p I)).
Qed.

Lemma message_alone : forall m, wf_message m -> opens_with (encode_message m) [m].
Proof.
  intros m W. split; [constructor; [exact W | constructor] |]. exists []. split.
  - cbn [map concat]. rewrite !app_nil_r. reflexivity.
  - intros m' t _. discriminate.
Qed.

Lemma print_frames : forall ms, (forall m, In m ms -> wf_message m /\ len (m_text m) + 3 < 4294967296) ->
  wf (map print_frame ms) /\ Forall2 (fun f ms => opens_with (f_body f) ms) (map print_frame ms) (map (fun m => [m]) ms).
Proof.
  induction ms as [| m ms IH]; intros H; [split; constructor |].
  destruct IH as [W O]; [intros m' I; apply H; right; exact I |]. destruct (H m (or_introl eq_refl)) as [M L].
  split; (constructor; [| assumption]).
  - split; [reflexivity |]. change (has_length (f_type (print_frame m))) with true. cbv iota. unfold print_frame, encode_message. cbn [f_body].
    unfold len in *. cbn [length]. rewrite app_length. cbn [length]. lia.
  - exact (message_alone m M).
Qed.

Lemma concat_single : forall A (l : list A), concat (map (fun x => [x]) l) = l.
Proof. intros A l. induction l as [| x l IH]; [reflexivity |]. cbn. f_equal. exact IH. Qed.

Lemma prints_copied_proof : forall E E' data ps, prints E data = Ret ps -> len data < 4294967296 ->
  exists ms, map as_print ms = ps /\ prints E' (prints_copy ms) = Ret ps.
Proof.
  intros E E' data ps H L. destruct (prints_shape E data ps H) as [A B].
  assert (exists ms, map as_print ms = ps /\ forall m, In m ms -> wf_message m /\ len (m_text m) + 3 < 4294967296) as [ms [M F]].
  { clear H B. induction ps as [| p ps IH]; [exists []; split; [reflexivity | intros m []] |].
    destruct IH as [ms [M F]]; [intros q I; apply A; right; exact I |].
    destruct (A p (or_introl eq_refl)) as (_ & N & level & V & a & b & D).
    exists (mkMessage level (pr_content p) :: ms). split.
    - cbn [map]. rewrite M. f_equal. unfold as_print. cbn [m_level m_text]. rewrite V. destruct p. reflexivity.
    - intros m [<- | I]; [| exact (F m I)]. split; [exact N |]. cbn [m_text]. subst data.
      unfold len in *. rewrite !app_length in L. cbn [length] in L. rewrite app_length in L. cbn [length] in L. lia. }
  exists ms. split; [exact M |]. destruct (print_frames ms F) as [W O].
  pose proof (prints_rewritten_proof E E' data ps (map print_frame ms) [] (map (fun m => [m]) ms) H W eq_refl O) as P.
  rewrite concat_single, app_nil_r in P. exact (P M).
Qed.

Lemma first_here : forall p r, first_at (p ++ r) p 0.
Proof. intros p r. split; [exists [], r; split; reflexivity | intros j _; lia]. Qed.


Lemma first_byte : forall y z c, first_at (y ++ [c] ++ z) [c] (len y) <-> ~ In c y.
Proof.
  intros y z c. split.
  - intros [_ F] I. apply in_split in I. destruct I as (a & b & ->).
    specialize (F (len a)). assert (len (a ++ c :: b) <= len a) as Q.
    { apply F. exists a, (b ++ [c] ++ z). split; [rewrite <- app_assoc; reflexivity | reflexivity]. }
    unfold len in Q. rewrite app_length in Q. cbn [length] in Q. lia.
  - intros N. split; [exists y, z; split; reflexivity |]. intros j (a & b & D & <-).
    destruct (N.le_gt_cases (len y) (len a)) as [G | G]; [exact G | exfalso]. apply N.
    assert (nth_error (y ++ [c] ++ z) (length a) = Some c) as Q.
    { rewrite D, nth_error_app2 by lia. rewrite Nat.sub_diag. reflexivity. }
    rewrite nth_error_app1 in Q by (unfold len in G; lia). exact (nth_error_In _ _ Q).
Qed.

Lemma firstn_same : forall A (x : A) k n, (k <= n)%nat -> firstn k (repeat x n) = repeat x k.
Proof. intros A x. induction k as [| k IH]; intros n H; [reflexivity |]. destruct n; [lia |]. cbn. f_equal. apply IH. lia. Qed.

Lemma date_copied_proof : forall data text, matchdate_string data = Ret (Ok text) ->
  matchdate_string (date_copy text) = Ret (Ok text).
Proof.
  intros data text H. apply matchdate_string_ok_proof in H. destruct H as [[from (x & z & _ & _ & _ & F)] U].
  apply matchdate_string_ok_proof. split; [| exact U]. exists (len matchdate_mark), [], [].
  split; [unfold date_copy; rewrite app_nil_r; reflexivity |]. split; [reflexivity |]. split; [apply first_here |].
  apply first_byte. apply first_byte in F. exact F.
Qed.

Lemma matchdate_copied_proof : forall E data text, matchdate_string data = Ret (Ok text) ->
  matchdate E (date_copy text) = matchdate E data.
Proof. intros E data text H. unfold matchdate. rewrite H, (date_copied_proof data text H). reflexivity. Qed.

Lemma info_copied_proof : forall E E' data info, has_serverinfo data info ->
  serverinfo_string E' (info_copy info) = Ret (Ok (to_utf8 E' info)) /\
  (to_utf8 E' info = to_utf8 E info -> 1280 <= len data ->
     serverinfo_string E data = serverinfo_string E' (info_copy info)).
Proof.
  intros E E' data info [N [from (x & z & D & Fr & A & F)]].
  assert (serverinfo_string E' (info_copy info) = Ret (Ok (to_utf8 E' info))) as S.
  { apply serverinfo_string_found.
    - unfold info_copy, len. rewrite !app_length, repeat_length. lia.
    - split; [exact N |].
      assert (len serverinfo_mark + len info + 1 <= 1280) as L.
      { assert (len (firstn 1280 data) <= 1280) as L by (unfold len; rewrite firstn_length; lia).
        rewrite D in L. unfold len in *. rewrite !app_length in L. cbn [length lit] in L.
        change (length (lit """")) with 1%nat in L. lia. }
      exists (len serverinfo_mark), [], (repeat x00 (1280 - length (serverinfo_mark ++ info ++ lit """"))).
      split; [| split; [reflexivity |]; split; [| apply first_byte; apply first_byte in F; exact F]].
      + unfold info_copy. replace (serverinfo_mark ++ info ++ lit """" ++ repeat x00 1280)
          with ((serverinfo_mark ++ info ++ lit """") ++ repeat x00 1280) by (rewrite <- !app_assoc; reflexivity).
        rewrite firstn_app, firstn_all2.
        * rewrite firstn_same by lia. cbn [app]. rewrite <- !app_assoc. reflexivity.
        * unfold len in L. rewrite !app_length. change (length (lit """")) with 1%nat. lia.
      + unfold info_copy. apply first_at_firstn; [apply first_here | vm_compute; discriminate]. }
  split; [exact S |]. intros Q L. rewrite S, Q. apply serverinfo_string_found; [exact L |]. split; [exact N |]. exists from, x, z. auto.
Qed.

Lemma clients_copied_proof : forall E E' data l, clientinfo_strings E data = Ret (Ok l) ->
  exists raw, l = map (to_unicode E) raw /\ Forall is_userinfo raw /\
    (10 + len (run (client_records raw) []) <= 12288 ->
     clientinfo_strings E' (clients_copy raw) = Ret (Ok (map (to_unicode E') raw))).
Proof.
  intros E E' data l H. destruct (clientinfo_strings_shape_proof E data l H) as (spawn & st & _ & -> & _ & F).
  exists (map snd st). split; [rewrite map_map; reflexivity |].
  assert (Forall is_userinfo (map snd st)) as U.
  { apply Forall_map. eapply Forall_impl; [| exact F]. intros [i s] (_ & I & _). exact I. }
  split; [exact U |]. intros L.
  pose proof (clientinfo_strings_run_proof E' [] (client_records (map snd st)) (repeat x00 511)) as P.
  cbn [app len length] in P. unfold clients_copy. rewrite P.
  - unfold client_records. rewrite !map_map. reflexivity.
  - apply first_here.
  - unfold client_records. apply Forall_map. eapply Forall_impl; [| exact U]. intros s I. split; [exact I |].
    cbn [fst snd]. split; [right; exists []; reflexivity |]. split.
    + intros (a & b & Q). apply (f_equal (@length byte)) in Q. rewrite !app_length in Q. change (length name_key) with 6%nat in Q.
      cbn [length] in Q. lia.
    + destruct I as (_ & Z & O). destruct (find s name_key) as [i |] eqn:S.
      * apply find_some in S. exists i. split; [exact S |]. destruct S as [(a & b & -> & <-) _]. unfold len in *. rewrite !app_length in Z.
        cbn [length]. lia.
      * exfalso. apply find_none in S. exact (S O).
  - intros g s r Q. destruct st as [| x st]; [discriminate |]. cbn in Q. injection Q as <- _ _. discriminate.
  - exact L.
  - unfold len. rewrite repeat_length. reflexivity.
  - intros (a & b & Q). assert (In x5c (firstn 511 (repeat x00 511))) as I.
    { rewrite Q. apply in_or_app. right. left. reflexivity. }
    rewrite firstn_all2 in I by (rewrite repeat_length; lia). apply repeat_spec in I. discriminate.
Qed.
