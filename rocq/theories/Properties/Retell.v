(** C97: the score kept from the list of prints *)
From Coq Require Import Lia ZifyN ZifyNat ZifyBool.
From Verif.Model Require Import Base Env Prot Message Prints FragEvent Frags.
From Verif.Spec Require Import Occ Mvd Messages Obituary Score Retell.
From Verif.Proofs Require Import BaseFacts ObituaryFacts RetellFacts.
From Verif.Properties Require Import Sample.
Open Scope N_scope.

(** Whoever adds up the medium-level prints gets the table of scores. *)
Theorem scores_from_prints : forall E fs rest ps per, wf fs -> stops (len (encode fs ++ rest)) rest ->
  len (encode fs ++ rest) < 2147483648 -> one_each fs -> no_echo fs ->
  prints E (encode fs ++ rest) = Ret ps ->
  (forall p t v, In p ps -> pr_id p = PiMedium -> trimmed (to_unicode E (pr_content p)) t -> ~ reads t (TeamkillByUnknown v)) ->
  Forall2 (fun p l => scored [] [] (to_unicode E (pr_content p)) l) (filter medium ps) per ->
  exists tbl, frags_per_player_name E (encode fs ++ rest) = Ret tbl /\ tabulates tbl (concat per).
Proof. exact retell_proof. Qed.

Theorem same_prints_same_scores : forall E fs gs rest rest' ps,
  wf fs -> stops (len (encode fs ++ rest)) rest -> len (encode fs ++ rest) < 2147483648 -> one_each fs -> no_echo fs ->
  wf gs -> stops (len (encode gs ++ rest')) rest' -> len (encode gs ++ rest') < 2147483648 -> one_each gs -> no_echo gs ->
  prints E (encode fs ++ rest) = Ret ps -> prints E (encode gs ++ rest') = Ret ps ->
  (forall p t v, In p ps -> pr_id p = PiMedium -> trimmed (to_unicode E (pr_content p)) t -> ~ reads t (TeamkillByUnknown v)) ->
  exists a b, frags_per_player_name E (encode fs ++ rest) = Ret a /\ frags_per_player_name E (encode gs ++ rest') = Ret b /\
    forall x, In x a <-> In x b.
Proof. exact same_prints_proof. Qed.

(** Two demos with the same prints: in one the chat and an obituary share a frame with others. *)
Definition told : list frame :=
  [ frame_all x01 (say x01 "anna rides bert's rocket"); frame_all x05 [x01]; frame_all x01 (say x03 "nice");
    frame_all x01 (say x01 "anna rides bert's rocket"); frame_all x01 (say x01 "bert suicides") ].
Definition retold_demo : list frame :=
  [ frame_all x00 (say x01 "anna rides bert's rocket" ++ say x03 "nice");
    frame_all x01 (say x01 "anna rides bert's rocket" ++ [x0e; x01; x00; x00]);
    frame_all x09 (say x01 "bert suicides" ++ say x02 "") ].
Ltac each_frame := intros f m l I H; repeat (destruct I as [<- | I]; [vm_compute in H; inversion H; subst;
  repeat constructor; vm_compute; try discriminate; intros; discriminate |]); destruct I.
Ltac each_pair := intros a p q b H; vm_compute in H;
  repeat (destruct a as [| ? a]; [injection H as <- <- _; intros M X; first [discriminate X | discriminate M] |]; injection H as _ H);
  destruct a as [| ? a]; [discriminate H | injection H as _ H; destruct a; discriminate H].
Example told_cases : wf told /\ one_each told /\ no_echo told /\ wf retold_demo /\ one_each retold_demo /\ no_echo retold_demo /\
  prints (sample true) (encode told) = prints (sample true) (encode retold_demo) /\
  frags_per_player_name (sample true) (encode told) = Ret [(lit "bert", 0%Z)] /\
  frags_per_player_name (sample true) (encode retold_demo) = Ret [(lit "bert", 0%Z)].
Proof.
  split; [repeat constructor |]. split; [each_frame |]. split; [each_pair |].
  split; [repeat constructor |]. split; [each_frame |]. split; [each_pair |]. vm_compute. auto.
Qed.
Example told_prints : exists ps, prints (sample true) (encode told) = Ret ps /\ length (filter medium ps) = 3%nat /\
  forall p t v, In p ps -> pr_id p = PiMedium -> trimmed (to_unicode (sample true) (pr_content p)) t -> ~ reads t (TeamkillByUnknown v).
Proof.
  eexists. split; [vm_compute; reflexivity |]. split; [reflexivity |].
  intros p t v I M T X. apply trimmed_iff in T. subst t. apply reads_iff in X.
  repeat (destruct I as [<- | I]; [try discriminate M; vm_compute in X; discriminate X |]). destruct I.
Qed.

(** An obituary printed twice in a row is one print but is scored twice. *)
Theorem scores_from_echo_refuted : exists fs gs, wf fs /\ one_each fs /\ wf gs /\ one_each gs /\ no_echo gs /\
  prints (sample true) (encode fs) = prints (sample true) (encode gs) /\
  frags_per_player_name (sample true) (encode fs) = Ret [(lit "anna", (-4)%Z)] /\
  frags_per_player_name (sample true) (encode gs) = Ret [(lit "anna", (-2)%Z)].
Proof.
  exists [frame_all x01 (say x01 "anna suicides"); frame_all x01 (say x01 "anna suicides")],
         [frame_all x01 (say x01 "anna suicides")].
  split; [repeat constructor |]. split; [each_frame |]. split; [repeat constructor |]. split; [each_frame |].
  split; [each_pair |]. vm_compute. auto.
Qed.
(** Two obituaries in one frame are two prints but only the first is scored. *)
Theorem scores_from_frames_refuted : exists fs gs, wf fs /\ no_echo fs /\ wf gs /\ one_each gs /\ no_echo gs /\
  prints (sample true) (encode fs) = prints (sample true) (encode gs) /\
  frags_per_player_name (sample true) (encode fs) = Ret [(lit "anna", (-2)%Z)] /\
  frags_per_player_name (sample true) (encode gs) = Ret [(lit "anna", (-2)%Z); (lit "bert", (-1)%Z)].
Proof.
  exists [frame_all x01 (say x01 "anna suicides" ++ say x01 "bert died")],
         [frame_all x01 (say x01 "anna suicides"); frame_all x01 (say x01 "bert died")].
  split; [repeat constructor |]. split; [each_pair |]. split; [repeat constructor |]. split; [each_frame |].
  split; [each_pair |]. vm_compute. auto.
Qed.

Print Assumptions scores_from_prints.
Print Assumptions same_prints_same_scores.
Print Assumptions scores_from_echo_refuted.
Print Assumptions scores_from_frames_refuted.
