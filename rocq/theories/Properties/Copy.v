(** What is read can be written to a demo and is read again: C85. *)
From Coq Require Import Lia.
From Verif.Model Require Import Base Env Prot Frame Message Prints Serverinfo Clientinfo Matchdate Ktxstats.
From Verif.Spec Require Import Occ Mvd Messages Utf8 Texts Dates Stats Copy.
From Verif.Proofs Require Import BaseFacts CopyFacts Utf8Facts StatsFacts SpliceFacts StringFacts.
From Verif.Properties Require Import Sample Stats.

(** C85 *)
(** the prints of any demo, in any frames that open with them *)
Theorem prints_rewritten : forall E E' data ps fs rest openings, prints E data = Ret ps ->
  wf fs -> announced rest = None -> Forall2 (fun f ms => opens_with (f_body f) ms) fs openings ->
  map as_print (concat openings) = ps -> prints E' (encode fs ++ rest) = Ret ps.
Proof. exact prints_rewritten_proof. Qed.
Theorem prints_copied : forall E E' data ps, prints E data = Ret ps -> len data < 4294967296 ->
  exists ms, map as_print ms = ps /\ prints E' (prints_copy ms) = Ret ps.
Proof. exact prints_copied_proof. Qed.

Theorem date_copied : forall E data text, matchdate_string data = Ret (Ok text) ->
  matchdate_string (date_copy text) = Ret (Ok text) /\ matchdate E (date_copy text) = matchdate E data.
Proof. intros E data text H. split; [exact (date_copied_proof data text H) | exact (matchdate_copied_proof E data text H)]. Qed.

Theorem info_copied : forall E data info, has_serverinfo data info -> 1280 <= len data ->
  serverinfo_string E data = Ret (Ok (to_utf8 E info)) /\ serverinfo_string E (info_copy info) = Ret (Ok (to_utf8 E info)).
Proof.
  intros E data info H L. destruct (info_copied_proof E E data info H) as [A B].
  split; [rewrite (B eq_refl L) |]; exact A.
Qed.

Theorem clients_copied : forall E E' data l, clientinfo_strings E data = Ret (Ok l) ->
  exists raw, l = map (to_unicode E) raw /\ Forall is_userinfo raw /\
    (10 + len (run (client_records raw) []) <= 12288 ->
     clientinfo_strings E' (clients_copy raw) = Ret (Ok (map (to_unicode E') raw))).
Proof. exact clients_copied_proof. Qed.

(** the statistics, if their text begins like statistics and does so nowhere else *)
Theorem stats_copied : forall E E' data text, ktxstats_string E data = Ret (Ok text) ->
  last_at text version_mark 0 -> len text + 2 < 4294967296 -> ktxstats_string E' (stats_copy text) = Ret (Ok text).
Proof.
  intros E E' data text H LA B. assert (utf8_text text) as U by (exact (proj1 (ktxstats_string_gt E data) text H)).
  pose proof (ktxstats_chain E' [] [] (mkSblock (repeat x00 10) 0 text) [] text) as P. cbv zeta in P.
  cbn [app map concat sb_content sb_number len length] in P. rewrite !app_nil_r in P. apply P.
  - constructor; [| constructor]. split; [reflexivity |]. split; [reflexivity | exact B].
  - constructor.
  - reflexivity.
  - reflexivity.
  - exact U.
  - exact (last_at_second (repeat x00 10 ++ enc32 (len text + 2) ++ enc16 3 ++ enc16 0) text version_mark 0 LA).
  - unfold encode_block, usize_bound, len in *. cbn [sb_content sb_header sb_number]. rewrite !app_length, repeat_length.
    cbn [enc32 enc16 length]. lia.
Qed.

(** In general the copy of a statistics text is not found: its block may end inside the mark. *)
Theorem stats_copied_refuted : forall E, exists data text,
  ktxstats_string E data = Ret (Ok text) /\ ktxstats_string E (stats_copy text) = Ret (Err "ktxstats not found").
Proof.
  intros E. exists (stats_copy (lit "{") ++ lit """version"": "), (lit "{"). split.
  - refine (proj1 (ktxstats_embedded E (stats_copy (lit "{") ++ lit """version"": ") 18 (lit "{") _ _ _ _) _).
    + apply rfind_some. vm_compute. reflexivity.
    + lia.
    + vm_compute. reflexivity.
    + exists [mkSblock (repeat x00 10) 0 (lit "{")], (lit """version"": "). split; [reflexivity |].
      split; [constructor; [repeat split | constructor] |]. split; [reflexivity |].
      left. exists [], (mkSblock (repeat x00 10) 0 (lit "{")). repeat split; constructor.
    + apply utf8_valid_iff. vm_compute. reflexivity.
  - apply ktxstats_missing. apply rfind_none. vm_compute. reflexivity.
Qed.

(** a demo with two prints in one frame, one of them twice, and what is left of it *)
Example prints_copied_case :
  let a := mkMessage x02 (lit "one") in let b := mkMessage x03 (lit "two") in
  let data := encode [mkFrame x07 x06 [] (encode_message a ++ encode_message a ++ encode_message b ++ [x01])] in
  prints (sample true) data = Ret [as_print a; as_print b] /\ prints (sample true) (prints_copy [a; b]) = Ret [as_print a; as_print b].
Proof. split; vm_compute; reflexivity. Qed.
Example date_copied_case :
  matchdate_string (lit "xx" ++ date_copy (lit "2024-04-02 21:02:17 CEST") ++ lit "yy") = Ret (Ok (lit "2024-04-02 21:02:17 CEST")).
Proof. vm_compute. reflexivity. Qed.
Example clients_copied_case :
  clientinfo_strings (sample true) (clients_copy [lit "\name\alice"; lit "\team\red\name\bob"]) =
    Ret (Ok (map (to_unicode (sample true)) [lit "\name\alice"; lit "\team\red\name\bob"])).
Proof. vm_compute. reflexivity. Qed.
Example stats_copied_case : let t := lit "{""version"": 3}" in
  last_at t version_mark 0 /\ ktxstats_string (sample true) (stats_copy t) = Ret (Ok t).
Proof. split; [apply rfind_some |]; vm_compute; reflexivity. Qed.

Print Assumptions prints_rewritten.
Print Assumptions prints_copied.
Print Assumptions date_copied.
Print Assumptions info_copied.
Print Assumptions clients_copied.
Print Assumptions stats_copied.
Print Assumptions stats_copied_refuted.
