(** C05 and C40: demos that are cut off, and data behind the last frame. *)
From Coq Require Import Lia.
From Verif.Model Require Import Base Env Prot Message Prints Clients Frags Flags Ping.
From Verif.Spec Require Import Occ Mvd Messages Texts Clientlist Pings.
From Verif.Proofs Require Import BaseFacts PrintFacts PrintProps ScoreFacts FlagFacts PingFacts TailFacts.
From Verif.Properties Require Import Sample Walk Pings Scores Flags.

(** C05.  Every cut is between two frames or inside one. *)
Theorem cuts : forall fs k, k < len (encode fs) -> exists whole f j, cut_inside fs k whole f j.
Proof. exact cut_exists. Qed.

(** A cut inside a header, or one that leaves less data than the size of the frame it cuts,
    has no effect on the frames before. *)
Theorem cut_quiet : forall E fs k whole f j, wf fs -> cut_inside fs k whole f j ->
  j < header_len f \/ k < len (encode_frame f) ->
  let data := firstn (N.to_nat k) (encode fs) in
  prints E data = prints E (encode whole) /\
  flag_events_per_player_name E data = flag_events_per_player_name E (encode whole) /\
  ping_per_player_number E data = ping_per_player_number E (encode whole) /\
  (clients E data = clients E (encode whole) -> frags_per_player_name E data = frags_per_player_name E (encode whole)).
Proof.
  intros E fs k whole f j W C H data. destruct (cut_header fs k whole f j W C) as [W1 [Q _]].
  specialize (Q H). destruct C as [_ [_ [_ D]]]. unfold data. rewrite D.
  split; [apply prints_tail; assumption |]. split; [apply flags_tail; assumption |].
  split; [apply pings_tail; assumption | apply frags_tail; assumption].
Qed.

(** Any other cut makes them panic; the pings only if eight frames with pings are not yet
    complete. *)
Theorem cut_panics : forall E fs k whole f j, wf fs -> cut_inside fs k whole f j ->
  header_len f <= j -> len (encode_frame f) <= k ->
  let data := firstn (N.to_nat k) (encode fs) in
  prints E data = Panic PSlice /\ flag_events_per_player_name E data = Panic PSlice /\
  frags_per_player_name E data = Panic PSlice /\
  (len (ping_frames whole) < 8 -> ping_per_player_number E data = Panic PSlice) /\
  (8 <= len (ping_frames whole) -> ping_per_player_number E data = ping_per_player_number E (encode whole)).
Proof.
  intros E fs k whole f j W C H1 H2 data. destruct (cut_header fs k whole f j W C) as [W1 [_ O]].
  specialize (O H1 H2). destruct C as [_ [_ [_ D]]]. unfold data. rewrite D.
  split; [apply prints_crash; assumption |]. split; [apply flags_crash_proof; assumption |].
  split; [apply frags_crash; assumption |].
  split; [apply pings_crash_proof; assumption | apply pings_enough; assumption].
Qed.

(** So cutting can make all of them panic. *)
Theorem cut_returns_refuted : forall E, exists fs k, wf fs /\ k < len (encode fs) /\
  let data := firstn (N.to_nat k) (encode fs) in
  prints E data = Panic PSlice /\ flag_events_per_player_name E data = Panic PSlice /\
  frags_per_player_name E data = Panic PSlice /\ ping_per_player_number E data = Panic PSlice.
Proof.
  intros E. exists demo1, (len (encode demo1) - 1). destruct demo1_wf as [W _]. split; [exact W |].
  split; [vm_compute; reflexivity |].
  assert (C : cut_inside demo1 (len (encode demo1) - 1) (firstn 4 demo1) (frame_all x02 (say x03 "bye")) 11).
  { split; [exists []; reflexivity |]. split; [vm_compute; reflexivity |]. split; vm_compute; reflexivity. }
  destruct (cut_panics E _ _ _ _ _ W C) as [P1 [P2 [P3 [P4 _]]]]; [vm_compute; discriminate | vm_compute; discriminate |].
  split; [exact P1 |]. split; [exact P2 |]. split; [exact P3 |]. apply P4. vm_compute. reflexivity.
Qed.

(** demo1 cut inside the header of its last frame, and inside a body that is longer than what
    is left of the demo *)
Example cut_quiet_examples :
  cut_inside demo1 (len (encode demo1) - 10) (firstn 4 demo1) (frame_all x02 (say x03 "bye")) 2 /\
  2 < header_len (frame_all x02 (say x03 "bye")) /\
  prints (sample true) (firstn (N.to_nat (len (encode demo1) - 10)) (encode demo1)) =
    Ret [mkPrint PiHigh (lit "hello"); mkPrint PiMedium (lit "bob died")] /\
  cut_inside demo1 20 [] (hd (frame_all x00 []) demo1) 20 /\
  20 < len (encode_frame (hd (frame_all x00 []) demo1)) /\
  prints (sample true) (firstn 20 (encode demo1)) = Ret [].
Proof.
  split; [split; [exists []; reflexivity |]; split; [vm_compute; reflexivity |]; split; vm_compute; reflexivity |].
  split; [vm_compute; reflexivity |]. split; [vm_compute; reflexivity |].
  split; [split; [exists (tl demo1); reflexivity |]; split; [vm_compute; reflexivity |]; split; vm_compute; reflexivity |].
  split; vm_compute; reflexivity.
Qed.

(** C40.  Data that stops the walk: less than a header, or a header that announces more than
    all the data. *)
Theorem tail_ignored : forall E fs rest, wf fs -> stops (len (encode fs ++ rest)) rest ->
  prints E (encode fs ++ rest) = prints E (encode fs) /\
  flag_events_per_player_name E (encode fs ++ rest) = flag_events_per_player_name E (encode fs) /\
  ping_per_player_number E (encode fs ++ rest) = ping_per_player_number E (encode fs) /\
  (clients E (encode fs ++ rest) = clients E (encode fs) ->
   frags_per_player_name E (encode fs ++ rest) = frags_per_player_name E (encode fs)).
Proof.
  intros E fs rest W Q. split; [apply prints_tail; assumption |]. split; [apply flags_tail; assumption |].
  split; [apply pings_tail; assumption | apply frags_tail; assumption].
Qed.

(** The clients do not depend on what is appended if there are 13050 bytes from the mark on, or
    if there is no mark even with what is appended. *)
Theorem clients_local : forall E data rest,
  (exists spawn, first_at data spawn_mark spawn /\ spawn + 13050 <= len data) \/ ~ occurs (data ++ rest) spawn_mark ->
  clients E (data ++ rest) = clients E data.
Proof.
  intros E data rest [[spawn [F L]] | N]; [eapply clients_extend; eassumption | apply clients_none; exact N].
Qed.

(** Without that, even the scores can depend on a few bytes behind the last frame. *)
Definition short_demo : list frame :=
  [ frame_all x01 (say x01 "bert was telefragged by his teammate" ++ update x00);
    frame_all x00 (x09 :: lit "cmd spawn" ++ [x00]
      ++ userinfo "\name\anna\team\red" ++ userinfo "\name\bert\team\red" ++ repeat x00 510) ].
Theorem tail_ignored_refuted : exists fs rest, wf fs /\ announced rest = None /\
  frags_per_player_name (sample true) (encode fs) = Panic PSlice /\
  frags_per_player_name (sample true) (encode fs ++ rest) = Ret [(lit "anna", (-1)%Z)].
Proof.
  exists short_demo, [x00]. split; [repeat constructor |]. split; [reflexivity |]. split; vm_compute; reflexivity.
Qed.

Example tail_ignored_example :
  stops (len (encode demo1 ++ rest1)) rest1 /\ stops (len (encode demo1 ++ [x00; x06; xff; xff; x00; x00; x08])) [x00; x06; xff; xff; x00; x00; x08] /\
  prints (sample true) (encode demo1 ++ [x00; x06; xff; xff; x00; x00; x08]) = prints (sample true) (encode demo1).
Proof. split; [exact I |]. split; vm_compute; reflexivity. Qed.

Example clients_local_example : let data := encode (score_demo ++ [frame_all x00 (repeat x01 13000)]) in
  first_at data spawn_mark 6 /\ 6 + 13050 <= len data /\
  exists cs, clients (sample true) (data ++ lit "rest") = Ret (Ok cs) /\ length cs = 4%nat.
Proof.
  split; [apply find_some; vm_compute; reflexivity |]. split; [vm_compute; discriminate |].
  eexists. split; [vm_compute; reflexivity | reflexivity].
Qed.

Print Assumptions cuts.
Print Assumptions cut_quiet.
Print Assumptions cut_panics.
Print Assumptions cut_returns_refuted.
Print Assumptions tail_ignored.
Print Assumptions clients_local.
Print Assumptions tail_ignored_refuted.
