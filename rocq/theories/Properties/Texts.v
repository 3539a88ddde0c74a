(** C44, C18, C19, C20: embedded texts, serverinfo and status. *)
From Coq Require Import Lia.
From Verif.Model Require Import Base Env Bytesextra Serverinfo Clientinfo Validate.
From Verif.Spec Require Import Occ Texts.
From Verif.Proofs Require Import BaseFacts TextFacts.
From Verif.Properties Require Import Sample.

(** C44 *)
Theorem offsets_between_some : forall d a b from to,
  offsets_between d a b = Ret (Some (from, to)) <->
  exists y, y <> [] /\ stands_between d a b y from /\ to = from + len y.
Proof. exact offsets_between_some_proof. Qed.

Theorem offsets_between_none : forall d a b,
  offsets_between d a b = Ret None <-> ~ exists y from, y <> [] /\ stands_between d a b y from.
Proof. exact offsets_between_none_proof. Qed.

Theorem offsets_between_clear : forall d a b y from, b <> [] -> stands_between d a b y from -> ~ occurs y b.
Proof. exact stands_between_clear. Qed.

Example offsets_between_example :
  offsets_between (lit "a=1;b=22;b=3;") (lit "b=") (lit ";") = Ret (Some (6, 8)) /\
  offsets_between (lit "b=;b=3;") (lit "b=") (lit ";") = Ret None /\
  stands_between (lit "a=1;b=22;b=3;") (lit "b=") (lit ";") (lit "22") 6.
Proof.
  assert (offsets_between (lit "a=1;b=22;b=3;") (lit "b=") (lit ";") = Ret (Some (6, 8))) as H by reflexivity.
  split; [exact H |]. split; [reflexivity |].
  apply offsets_between_some in H. destruct H as [y [_ [S L]]].
  destruct S as [x [z [D [F R]]]]. exists (lit "a=1;"), (lit "b=3;").
  split; [reflexivity |]. split; [reflexivity |].
  split; apply find_some; reflexivity.
Qed.

(** C18 *)
Theorem serverinfo_string_ok : forall E data info, 1280 <= len data -> has_serverinfo data info ->
  serverinfo_string E data = Ret (Ok (to_utf8 E info)).
Proof. exact serverinfo_string_found. Qed.

Theorem serverinfo_string_err : forall E data, 1280 <= len data -> (forall info, ~ has_serverinfo data info) ->
  serverinfo_string E data = Ret (Err "Serverinfo not found").
Proof. exact serverinfo_string_missing. Qed.

Theorem serverinfo_string_panics : forall E data, len data < 1280 -> serverinfo_string E data = Panic PSlice.
Proof. exact serverinfo_string_short. Qed.

Definition info_data : bytes := Mvd.encode [info_frame "\mode\1on1"].

Example info_data_serverinfo : has_serverinfo info_data (lit "\mode\1on1") /\ 1280 <= len info_data.
Proof.
  split; [| vm_compute; discriminate]. split; [discriminate |]. exists 23.
  assert (offsets_between (firstn 1280 info_data) serverinfo_mark (lit """") = Ret (Some (23, 33))) as H
    by (vm_compute; reflexivity).
  apply offsets_between_some in H. destruct H as [y [_ [S L]]].
  assert (y = lit "\mode\1on1") as <-; [| exact S].
  destruct S as [x [z [D [F _]]]].
  assert (sub_list (firstn 1280 info_data) 23 33 = y) as <-; [| vm_compute; reflexivity].
  rewrite D, app_assoc. unfold sub_list. rewrite F, skipn_len_app.
  replace (N.to_nat (33 - len (x ++ serverinfo_mark))) with (length y) by (rewrite <- F; unfold len in L; lia).
  apply firstn_app_exact.
Qed.

(** C19 *)
Theorem is_valid_true : forall E data, is_valid E data = Ret true <->
  1280 <= len data /\ finished data /\ (exists info, has_serverinfo data info) /\
  (exists s l, clientinfo_strings E data = Ret (Ok (s :: l))).
Proof. exact is_valid_true_proof. Qed.

Theorem is_valid_false : forall E data, is_valid E data = Ret false <->
  len data < 1024 \/ ~ finished data \/
  (1280 <= len data /\ ((forall info, ~ has_serverinfo data info) \/
   exists r, clientinfo_strings E data = Ret r /\ forall s l, r <> Ok (s :: l))).
Proof. exact is_valid_false_proof. Qed.

Theorem is_valid_short : forall E data, 1024 <= len data < 1280 -> finished data ->
  is_valid E data = Panic PSlice.
Proof. exact is_valid_short_proof. Qed.

(** a panic instead of an answer *)
Theorem is_valid_returns_refuted : forall E, exists data, is_valid E data = Panic PSlice.
Proof.
  intros E. exists (repeat x01 1100 ++ end_of_demo). apply is_valid_short.
  - split; vm_compute; discriminate || reflexivity.
  - exists (repeat x01 1100). split; [discriminate | reflexivity].
Qed.

Definition client_body : bytes :=
  x09 :: lit "cmd spawn" ++ [x00] ++ lit "\name\alice\team\red" ++ [x00] ++ repeat x01 600.
Definition valid_data : bytes :=
  Mvd.encode [info_frame "\mode\1on1"; frame_all x00 client_body] ++ end_of_demo.

Example valid_data_result : is_valid (sample true) valid_data = Ret true.
Proof. vm_compute. reflexivity. Qed.
Example invalid_data_result : is_valid (sample true) (valid_data ++ [x00]) = Ret false.
Proof. vm_compute. reflexivity. Qed.

(** C20 *)
Theorem end_of_demo_decided : forall data, has_end_of_demo_print data = true <-> finished data.
Proof. exact finished_proof. Qed.

Theorem aborted_decided : forall data, is_aborted data = true <-> occurs data match_stopped.
Proof. exact aborted_proof. Qed.

Theorem paused_decided : forall data, is_paused data = true <->
  ~ finished data /\ (occurs data (lit "Server is paused") \/ occurs data (lit "paused the game")).
Proof. exact paused_proof. Qed.

Theorem finished_not_paused : forall data, has_end_of_demo_print data = true -> is_paused data = false.
Proof.
  intros data H. destruct (is_paused data) eqn:P; [| reflexivity].
  apply paused_proof in P. apply finished_proof in H. tauto.
Qed.

Theorem aborted_stays : forall data more, is_aborted data = true -> is_aborted (data ++ more) = true.
Proof.
  intros data more H. apply aborted_proof in H. apply aborted_proof. destruct H as [a [b ->]].
  exists a, (b ++ more). rewrite <- !app_assoc. reflexivity.
Qed.

Example status_examples :
  has_end_of_demo_print end_of_demo = false /\ has_end_of_demo_print (x01 :: end_of_demo) = true /\
  is_paused (lit "x paused the game") = true /\ is_paused (lit "x paused the game" ++ end_of_demo) = false /\
  is_aborted (lit "abc" ++ match_stopped ++ lit "def") = true /\ is_aborted (lit "Match stopped by majority vote") = false.
Proof. repeat split; vm_compute; reflexivity. Qed.

Print Assumptions offsets_between_some.
Print Assumptions offsets_between_none.
Print Assumptions offsets_between_clear.
Print Assumptions serverinfo_string_ok.
Print Assumptions serverinfo_string_err.
Print Assumptions serverinfo_string_panics.
Print Assumptions is_valid_true.
Print Assumptions is_valid_false.
Print Assumptions is_valid_short.
Print Assumptions is_valid_returns_refuted.
Print Assumptions end_of_demo_decided.
Print Assumptions aborted_decided.
Print Assumptions paused_decided.
Print Assumptions finished_not_paused.
Print Assumptions aborted_stays.
