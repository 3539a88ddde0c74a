(** C92: a stretch of frames without marks counts by its time only *)
From Coq Require Import Lia ZifyN ZifyNat ZifyBool.
From Verif.Model Require Import Base Env Serverinfo Duration.
From Verif.Spec Require Import Occ Mvd Times Splice Stretch Wait.
From Verif.Proofs Require Import BaseFacts StretchFacts.
From Verif.Properties Require Import Sample Times.

(** Two stretches that last as long can be exchanged. *)
Theorem stretch_times : forall E a h h' b, wf (a ++ h ++ b) -> wf (a ++ h' ++ b) -> unmarked a h b -> unmarked a h' b ->
  all_time h = all_time h' -> serverinfo E (encode (a ++ h ++ b)) = serverinfo E (encode (a ++ h' ++ b)) ->
  demo_duration E (encode (a ++ h ++ b)) = demo_duration E (encode (a ++ h' ++ b)) /\
  countdown_duration E (encode (a ++ h ++ b)) = countdown_duration E (encode (a ++ h' ++ b)) /\
  match_duration_from_seeking E (encode (a ++ h ++ b)) = match_duration_from_seeking E (encode (a ++ h' ++ b)).
Proof. exact stretch_proof. Qed.

(** The server info is the same if it stands before the stretch. *)
Theorem stretch_serverinfo : forall E a h h' b, 1280 <= len (encode a) ->
  serverinfo E (encode (a ++ h ++ b)) = serverinfo E (encode (a ++ h' ++ b)).
Proof. exact stretch_head_proof. Qed.

(** 405 ms of a match, and the same time in other frames *)
Definition before : list frame := firstn 3 (time_demo "\mode\1on1").
Definition fight : list frame := firstn 2 (skipn 3 (time_demo "\mode\1on1")).
Definition duel : list frame := [wait xff; frame_all x64 (say x01 "bert was gibbed by carl's rocket"); frame_all x32 (say x03 "carl: The match is long")].
Definition after : list frame := skipn 5 (time_demo "\mode\1on1").
Example stretch_example :
  wf (before ++ fight ++ after) /\ wf (before ++ duel ++ after) /\ unmarked before fight after /\ unmarked before duel after /\
  all_time fight = 405 /\ all_time duel = 405 /\ 1280 <= len (encode before) /\
  map (fun h => (demo_duration (sample true) (encode (before ++ h ++ after)), match_duration (sample true) (encode (before ++ h ++ after))))
    [fight; duel] = [(Ret (Ok 654999971), Ret (Ok 404999971)); (Ret (Ok 654999971), Ret (Ok 404999971))].
Proof.
  split; [repeat constructor |]. split; [repeat constructor |].
  split; [apply clear_unmarked; vm_compute; reflexivity |]. split; [apply clear_unmarked; vm_compute; reflexivity |].
  repeat split; vm_compute; try reflexivity. discriminate.
Qed.

(** A stretch that holds a mark cannot be exchanged, nor one that ends in the first part of a mark, which
    the time of the next frame completes: 114 ms, the letter r. *)
Theorem stretch_marked_refuted : exists h h', all_time h = all_time h' /\ wf (before ++ h ++ [wait xff]) /\ wf (before ++ h' ++ [wait xff]) /\
  (forall m, In m time_marks -> ~ occurs (encode h) m) /\
  demo_duration (sample true) (encode (before ++ h ++ [wait xff])) = Ret (Ok 555000007) /\
  demo_duration (sample true) (encode (before ++ h' ++ [wait xff])) = Ret (Ok 300000012).
Proof.
  exists [wait x32], [frame_all x32 (say x03 "carl: The match is over")]. split; [reflexivity |]. split; [repeat constructor |].
  split; [repeat constructor |]. split; [| split; vm_compute; reflexivity].
  intros m [<- | [<- | [<- | []]]]; apply find_none; vm_compute; reflexivity.
Qed.
Theorem stretch_half_refuted : exists h h' b, all_time h = all_time h' /\ wf (before ++ h ++ b) /\ wf (before ++ h' ++ b) /\
  (forall m g, In m time_marks -> In g [h; h'; b] -> ~ occurs (encode g) m) /\
  demo_duration (sample true) (encode (before ++ h ++ b)) = Ret (Ok 300000012) /\
  demo_duration (sample true) (encode (before ++ h' ++ b)) = Ret (Ok 414000005).
Proof.
  exists [frame_all x32 ([x08; x02] ++ lit "The match is ove")], [wait x32], [wait "r"%byte]. split; [reflexivity |].
  split; [repeat constructor |]. split; [repeat constructor |]. split; [| split; vm_compute; reflexivity].
  intros m g [<- | [<- | [<- | []]]] [<- | [<- | [<- | []]]]; apply find_none; vm_compute; reflexivity.
Qed.

Print Assumptions stretch_times.
Print Assumptions stretch_serverinfo.
Print Assumptions stretch_marked_refuted.
Print Assumptions stretch_half_refuted.
