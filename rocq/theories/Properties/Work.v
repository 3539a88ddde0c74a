(** C83: what the loops have to do, all rounds counted. *)
From Verif.Model Require Import Base Env Primitives Prot Frame Message Flags Ping Clientinfo Ktxstats.
From Verif.Spec Require Import Mvd Messages Loops Work.
From Verif.Proofs Require Import WorkFacts.
From Verif.Properties Require Import Sample.
Open Scope N_scope.

(** Any walk over the frames, whatever it does with them and wherever it starts. *)
Theorem frames_rounds : forall St E data (body : St -> info -> M (St + St) -> Prop) n s o, ends (frame_round E data body) n s o ->
  (2 * n <= length data + 2)%nat.
Proof. exact frame_rounds. Qed.

(** The rounds over frames and over messages together. *)
Theorem prints_work : forall E data,
  costs_at_most (frame_round E data (prints_frame E data)) (frame_cost E data (prints_reads E)) (0, []) (length data + 2).
Proof. exact prints_work_proof. Qed.

Theorem pings_work : forall E data,
  costs_at_most (frame_round E data (pings_frame E data)) (frame_cost E data (pings_reads E)) (0, (0, [])) (length data + 2).
Proof. exact pings_work_proof. Qed.

Theorem flags_work : forall E data,
  costs_at_most (frame_round E data (flags_frame E data)) (frame_cost E data (flags_reads E)) (0, []) (length data + 2).
Proof. exact flags_work_proof. Qed.

(** The walk that collects the deaths, and a search for the team killer from every one of them. *)
Theorem deaths_work : forall E data n l ns, ends (frame_round E data (frags_frame E data)) n (0, []) (Ret l) ->
  Forall2 (fun x k => exists o, ends (frame_round E data (killer_frame E data)) k (snd x, (1, [])) o) l ns ->
  (n + list_sum ns <= (length data / 2 + 1) * (length data / 2 + 1))%nat.
Proof. exact deaths_work_proof. Qed.

(** The search for clients, however long the demo. *)
Theorem clientinfo_rounds : forall E data offset n l o,
  ends (just (clientinfo_round E data (offset + 24 * 512))) n (offset, l) o -> (n <= 1538)%nat.
Proof. exact clientinfo_rounds_proof. Qed.

Theorem ktxstats_rounds : forall E data offset content n o, len data < 2 ^ 63 ->
  ends (stats_round E data) n (offset, content) o -> 18 * N.of_nat n <= len data + 36.
Proof. exact stats_rounds_proof. Qed.

(** ** Cases *)
(** Three frames of 2 bytes without body: four rounds, as many as 6 bytes allow. *)
Definition bare : bytes := encode [mkFrame x01 x07 [] []; mkFrame x01 x07 [] []; mkFrame x01 x07 [] []].
Example bare_rounds : length bare = 6%nat /\ ends (frame_round (sample true) bare (prints_frame (sample true) bare)) 4 (0, []) (Ret []).
Proof.
  split; [reflexivity |].
  do 3 (eapply ends_later; [eapply round_goes_on; [vm_compute; reflexivity | apply prints_no_body; reflexivity] |]).
  apply ends_now. eapply round_no_frame. vm_compute. reflexivity.
Qed.

(** A frame with two print messages: one round for the frame, three for its messages (the last finds none), and one that finds no frame. *)
Definition two_prints : bytes := encode [frame_all x05 (say x02 "" ++ say x02 "")].
Example two_prints_work : length two_prints = 12%nat /\
  total (frame_round (sample true) two_prints (prints_frame (sample true) two_prints))
    (frame_cost (sample true) two_prints (prints_reads (sample true))) 5 (0, []).
Proof.
  assert (ends (just (print_round (sample true))) 3 (cursor_new (say x02 "" ++ say x02 ""), []) (Ret [])) as X.
  { do 2 (eapply ends_later; [vm_compute; reflexivity |]). apply ends_now. vm_compute. reflexivity. }
  split; [reflexivity |]. change 5%nat with (4 + 1)%nat. eapply total_later.
  - eapply round_goes_on; [vm_compute; reflexivity |]. eapply prints_body; [vm_compute; discriminate | vm_compute; reflexivity | exact X].
  - change 4%nat with (1 + 3)%nat. eapply cost_body; [vm_compute; reflexivity | vm_compute; discriminate | vm_compute; reflexivity |]. eexists. exact X.
  - eapply total_last with (o := Ret (inr [])); [eapply round_no_frame; vm_compute; reflexivity | discriminate |].
    apply cost_no_body. intros i b H. vm_compute in H. discriminate H.
Qed.

(** For flags the same frame costs one round: the word flag is not in it. *)
Example two_prints_flags :
  total (frame_round (sample true) two_prints (flags_frame (sample true) two_prints))
    (frame_cost (sample true) two_prints (flags_reads (sample true))) 2 (0, []) /\
  forall n, flags_reads (sample true) [] (say x02 "" ++ say x02 "") n <-> n = 0%nat.
Proof.
  split; [| intros n; split; intros H; exact H]. change 2%nat with (1 + 1)%nat. eapply total_later.
  - eapply round_goes_on; [vm_compute; reflexivity |]. eapply flags_not_here; [vm_compute; discriminate | vm_compute; reflexivity | vm_compute; reflexivity].
  - change 1%nat with (1 + 0)%nat. eapply cost_body; [vm_compute; reflexivity | vm_compute; discriminate | vm_compute; reflexivity |]. vm_compute. reflexivity.
  - eapply total_last with (o := Ret (inr [])); [eapply round_no_frame; vm_compute; reflexivity | discriminate |].
    apply cost_no_body. intros i b H. vm_compute in H. discriminate H.
Qed.

Print Assumptions frames_rounds.
Print Assumptions prints_work.
Print Assumptions pings_work.
Print Assumptions flags_work.
Print Assumptions deaths_work.
Print Assumptions clientinfo_rounds.
Print Assumptions ktxstats_rounds.
