(** C64: a demo that is still being written *)
From Verif.Model Require Import Base Env Serverinfo Clientinfo Clients Prints Matchdate Flags Ping Duration Validate.
From Verif.Spec Require Import Occ Mvd Messages Flags Pings Texts Recording.
From Verif.Proofs Require Import BaseFacts TailFacts GrowFacts.
From Verif.Properties Require Import Sample Recording.

(** Every answer about the serverinfo, and every found date, is final. *)
Theorem growing_texts : forall E d more,
  (forall r, serverinfo E d = Ret r -> serverinfo E (d ++ more) = Ret r) /\
  (forall r, filename E d = Ret r -> filename E (d ++ more) = Ret r) /\
  (forall t, matchdate_string d = Ret (Ok t) -> matchdate_string (d ++ more) = Ret (Ok t)) /\
  (forall t, matchdate E d = Ret (Ok t) -> matchdate E (d ++ more) = Ret (Ok t)) /\
  (forall t, timestamp E d = Ret (Ok t) -> timestamp E (d ++ more) = Ret (Ok t)) /\
  (is_aborted d = true -> is_aborted (d ++ more) = true).
Proof.
  intros E d more. repeat split; intros;
    eauto using serverinfo_grows, filename_grows, matchdate_string_grows, matchdate_grows, timestamp_grows, aborted_grows.
Qed.

(** Clients that were found stay, with their numbers; if the data ends with a NUL no others
    come. *)
Theorem growing_clients : forall E d more cs r, clients E d = Ret (Ok cs) -> clients E (d ++ more) = Ret r ->
  exists later, r = Ok (cs ++ later).
Proof. exact clients_grow_proof. Qed.

Theorem growing_clients_final : forall E d more cs, clients E (d ++ [x00]) = Ret (Ok cs) ->
  clients E ((d ++ [x00]) ++ more) = Ret (Ok cs).
Proof. exact clients_final_proof. Qed.

Theorem growing_kinds : forall E d more r,
  (has_human_players E d = Ret (Ok true) -> has_human_players E (d ++ more) = Ret r -> r = Ok true) /\
  (has_bot_players E d = Ret (Ok true) -> has_bot_players E (d ++ more) = Ret r -> r = Ok true).
Proof. intros E d more r. split; intros H R; [exact (human_grows E d more r H R) | exact (bot_grows E d more r H R)]. Qed.

(** Prints are only added at the end. *)
Theorem growing_prints : forall E d more ps r, prints E d = Ret ps -> prints E (d ++ more) = Ret r ->
  exists later, r = ps ++ later.
Proof. exact prints_grow_proof. Qed.

(** Nobody disappears from the table of flag events, and with overflow checks no count falls. *)
Theorem growing_flags : forall E d more a b, flag_events_per_player_name E d = Ret a ->
  flag_events_per_player_name E (d ++ more) = Ret b ->
  forall name p, In (name, p) a -> exists q, In (name, q) b /\ (checked E = true -> forall k, counter k p <= counter k q).
Proof. exact flags_grow_proof. Qed.

(** The pings are settled after eight frames with ping updates, even if a truncated frame follows. *)
Theorem growing_pings : forall E fs more, wf fs -> 8 <= len (ping_frames fs) ->
  ping_per_player_number E (encode fs ++ more) = ping_per_player_number E (encode fs).
Proof. exact pings_enough. Qed.

(** An error about the date is not final, and neither is a duration or a pause; a client whose
    userinfo string has no end yet comes late. *)
Definition early : bytes := [x08; x02] ++ lit "matchdate: 2024-05-06 12:34".
Theorem growing_matchdate_refuted : exists d more e t,
  matchdate_string d = Ret (Err e) /\ matchdate_string (d ++ more) = Ret (Ok t).
Proof. exists early, (lit ":56 CEST" ++ [x0a]). do 2 eexists. split; vm_compute; reflexivity. Qed.

Theorem growing_paused_refuted : exists d more, is_paused d = true /\ is_paused (d ++ more) = false.
Proof. exists (lit "anna paused the game"), end_of_demo. split; vm_compute; reflexivity. Qed.

Definition over : list frame := [frame_all x05 (say x02 "The match is over")].
Theorem growing_duration_refuted : exists d more a b,
  demo_duration (sample true) d = Ret (Ok a) /\ demo_duration (sample true) (d ++ more) = Ret (Ok b) /\ a <> b.
Proof. exists (encode over), (encode over), 5000000, 10000000. split; [vm_compute; reflexivity |]. split; [vm_compute; reflexivity | discriminate]. Qed.

Definition unended : bytes :=
  spawn_mark ++ [x00] ++ lit "\name\anna" ++ [x00] ++ repeat x01 450 ++ [x00] ++ lit "\name\carl" ++ repeat x41 100.
Theorem growing_clients_refuted : exists d more cs cs',
  clients (sample true) d = Ret (Ok cs) /\ clients (sample true) (d ++ more) = Ret (Ok cs') /\ cs <> cs'.
Proof.
  exists unended, (x00 :: repeat x01 600). do 2 eexists. split; [vm_compute; reflexivity |].
  split; [vm_compute; reflexivity | discriminate].
Qed.

Example growing_example : exists ps later,
  prints (sample true) (encode (head_frames night ++ map frame_of (r_countdown night))) = Ret ps /\
  prints (sample true) (encode (frames night)) = Ret (ps ++ later) /\ ps <> [] /\ len later = 6 /\
  clients (sample true) (encode (head_frames night)) = Ret (Ok night_clients) /\
  has_bot_players (sample true) (encode (head_frames night)) = Ret (Ok true).
Proof.
  do 2 eexists. split; [vm_compute; reflexivity |].
  split; [vm_compute; match goal with |- Ret (?a :: ?b) = _ => exact (eq_refl (Ret ([a] ++ b))) end |].
  split; [discriminate |]. repeat split; vm_compute; reflexivity.
Qed.

Print Assumptions growing_texts.
Print Assumptions growing_clients.
Print Assumptions growing_clients_final.
Print Assumptions growing_kinds.
Print Assumptions growing_prints.
Print Assumptions growing_flags.
Print Assumptions growing_pings.
Print Assumptions growing_matchdate_refuted.
Print Assumptions growing_paused_refuted.
Print Assumptions growing_duration_refuted.
Print Assumptions growing_clients_refuted.
