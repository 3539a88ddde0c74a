(** C94: replaced frames matter only to those they speak of *)
From Coq Require Import Lia ZifyN ZifyNat ZifyBool.
From Verif.Model Require Import Base Env Prot Message Prints Flags Frags Ping.
From Verif.Spec Require Import Mvd Messages Score Flags Pings Join Damage.
From Verif.Proofs Require Import BaseFacts PatchFacts.
From Verif.Properties Require Import Sample Scores Flags Pings Joins.

(** The prints that do not occur in the old and new frames are the same, in the same order. *)
Theorem prints_patched : forall E old new fs gs keep p q po pn, patched old new fs gs -> wf fs -> wf gs ->
  prints E (encode fs) = Ret p -> prints E (encode gs) = Ret q -> prints E (encode old) = Ret po -> prints E (encode new) = Ret pn ->
  (forall x, In x po \/ In x pn -> keep x = false) ->
  collapse print_dec (filter keep p) = collapse print_dec (filter keep q).
Proof. exact patched_prints_proof. Qed.

(** The rows of the names that do not occur in the tables of the old and new frames are the same. *)
Theorem frags_patched : forall E old new fs gs a b ao bn, patched old new fs gs -> wf fs -> wf gs ->
  len (encode fs) < 2147483648 -> len (encode gs) < 2147483648 -> all_named E fs -> all_named E gs ->
  frags_per_player_name E (encode fs) = Ret a -> frags_per_player_name E (encode gs) = Ret b ->
  frags_per_player_name E (encode old) = Ret ao -> frags_per_player_name E (encode new) = Ret bn ->
  agree_except (map fst ao ++ map fst bn) a b.
Proof. exact patched_frags_proof. Qed.
Theorem flags_patched : forall E old new fs gs a b ao bn, patched old new fs gs -> wf fs -> wf gs ->
  flag_events_per_player_name E (encode fs) = Ret a -> flag_events_per_player_name E (encode gs) = Ret b ->
  flag_events_per_player_name E (encode old) = Ret ao -> flag_events_per_player_name E (encode new) = Ret bn ->
  agree_except (map fst ao ++ map fst bn) a b.
Proof. exact patched_flags_proof. Qed.

(** So are the pings of the players whose pings the old and new frames do not tell, if all frames with pings are sampled. *)
Theorem pings_patched : forall E old new fs gs a b p v, patched old new fs gs -> wf fs -> wf gs ->
  len (ping_frames fs) <= 8 -> len (ping_frames gs) <= 8 ->
  ~ In p (map fst (concat (ping_frames (old ++ new)))) ->
  ping_per_player_number E (encode fs) = Ret (Ok a) -> ping_per_player_number E (encode gs) = Ret (Ok b) ->
  In (p, v) a <-> In (p, v) b.
Proof. exact patched_pings_proof. Qed.

(** One frame replaced by another *)
Definition kept1 : list frame :=
  [ frame_all x01 (say x01 "anna rides carl's rocket"); frame_all x03 (say_line x02 "anna defends the ÂÌÕÅ flag");
    ping_frame [mkPingUpdate x00 26 x00; mkPingUpdate x03 300 x02] ].
Definition kept2 : list frame :=
  [ frame_all x01 (say x01 "dora rides carl's rocket"); ping_frame [mkPingUpdate x00 29 x00] ].
Definition old1 : list frame := [frame_all x02 (say_line x02 "bert defends the ÂÌÕÅ flag"); ping_frame [mkPingUpdate x03 100 x02]].
Definition new1 : list frame := [frame_all x02 (say x01 "bert suicides")].
Example patched_example : patched old1 new1 (kept1 ++ old1 ++ kept2) (kept1 ++ new1 ++ kept2) /\
  wf (kept1 ++ old1 ++ kept2) /\ wf (kept1 ++ new1 ++ kept2) /\
  prints (sample true) (encode (kept1 ++ old1 ++ kept2)) = Ret [mkPrint PiMedium (lit "anna rides carl's rocket");
    mkPrint PiHigh (line "anna defends the ÂÌÕÅ flag"); mkPrint PiHigh (line "bert defends the ÂÌÕÅ flag"); mkPrint PiMedium (lit "dora rides carl's rocket")] /\
  prints (sample true) (encode (kept1 ++ new1 ++ kept2)) = Ret [mkPrint PiMedium (lit "anna rides carl's rocket");
    mkPrint PiHigh (line "anna defends the ÂÌÕÅ flag"); mkPrint PiMedium (lit "bert suicides"); mkPrint PiMedium (lit "dora rides carl's rocket")] /\
  frags_per_player_name (sample true) (encode (kept1 ++ old1 ++ kept2)) = Ret [(lit "carl", 2%Z)] /\
  frags_per_player_name (sample true) (encode (kept1 ++ new1 ++ kept2)) = Ret [(lit "carl", 2%Z); (lit "bert", (-2)%Z)] /\
  frags_per_player_name (sample true) (encode new1) = Ret [(lit "bert", (-2)%Z)] /\
  flag_events_per_player_name (sample true) (encode (kept1 ++ old1 ++ kept2)) =
    Ret [(lit "anna", mkPfe 0 0 0 0 1 0 0); (lit "bert", mkPfe 0 0 0 0 1 0 0)] /\
  flag_events_per_player_name (sample true) (encode (kept1 ++ new1 ++ kept2)) = Ret [(lit "anna", mkPfe 0 0 0 0 1 0 0)] /\
  ping_per_player_number (sample true) (encode (kept1 ++ old1 ++ kept2)) = Ret (Ok [(0, 27); (3, 200)]) /\
  ping_per_player_number (sample true) (encode (kept1 ++ new1 ++ kept2)) = Ret (Ok [(0, 27); (3, 300)]).
Proof.
  split; [do 3 apply patch_keep; do 2 apply patch_lose; apply patch_add; do 2 apply patch_keep; apply patch_none |].
  split; [repeat constructor |]. split; [repeat constructor |]. repeat split; vm_compute; reflexivity.
Qed.

(** A print between two equal ones keeps them apart. *)
Theorem prints_patched_equal_refuted : exists old fs gs p q po keep, patched old [] fs gs /\ wf fs /\ wf gs /\
  prints (sample true) (encode fs) = Ret p /\ prints (sample true) (encode gs) = Ret q /\ prints (sample true) (encode old) = Ret po /\
  (forall x, In x po -> keep x = false) /\ filter keep p <> filter keep q.
Proof.
  exists [frame_all x01 (say x02 "no")], [frame_all x01 (say x02 "yes"); frame_all x01 (say x02 "no"); frame_all x01 (say x02 "yes")],
    [frame_all x01 (say x02 "yes"); frame_all x01 (say x02 "yes")],
    [mkPrint PiHigh (lit "yes"); mkPrint PiHigh (lit "no"); mkPrint PiHigh (lit "yes")], [mkPrint PiHigh (lit "yes")], [mkPrint PiHigh (lit "no")],
    (fun x => beq (pr_content x) (lit "yes")).
  split; [apply patch_keep, patch_lose, patch_keep, patch_none |]. split; [repeat constructor |]. split; [repeat constructor |].
  split; [vm_compute; reflexivity |]. split; [vm_compute; reflexivity |]. split; [vm_compute; reflexivity |].
  split; [intros x [<- | []]; reflexivity |]. vm_compute. discriminate.
Qed.

(** A frame that names nobody can decide who is charged with an anonymous team kill. *)
Theorem frags_patched_anonymous_refuted : exists old fs gs, patched old [] fs gs /\ wf fs /\ wf gs /\
  frags_per_player_name (sample true) (encode old) = Ret [] /\
  frags_per_player_name (sample true) (encode fs) = Ret [(lit "carl", (-1)%Z)] /\ frags_per_player_name (sample true) (encode gs) = Ret [].
Proof.
  exists [frame_all x01 (update x02)],
    [clients_frame; frame_all x01 (say x01 "dora was telefragged by her teammate"); frame_all x01 (update x02)],
    [clients_frame; frame_all x01 (say x01 "dora was telefragged by her teammate")].
  split; [apply patch_keep, patch_keep, patch_lose, patch_none |]. split; [repeat constructor |]. split; [repeat constructor |].
  repeat split; vm_compute; reflexivity.
Qed.

(** A new frame with pings takes the place of the eighth. *)
Theorem pings_patched_many_refuted : exists new fs gs, patched [] new fs gs /\ wf fs /\ wf gs /\ len (ping_frames fs) <= 8 /\
  ~ In 0 (map fst (concat (ping_frames new))) /\
  ping_per_player_number (sample true) (encode fs) = Ret (Ok [(0, 20)]) /\
  ping_per_player_number (sample true) (encode gs) = Ret (Ok [(1, 50); (0, 10)]).
Proof.
  exists [ping_frame [mkPingUpdate x01 50 x00]], (repeat (ping_frame [mkPingUpdate x00 10 x00]) 7 ++ [ping_frame [mkPingUpdate x00 90 x00]]),
    (ping_frame [mkPingUpdate x01 50 x00] :: repeat (ping_frame [mkPingUpdate x00 10 x00]) 7 ++ [ping_frame [mkPingUpdate x00 90 x00]]).
  split; [apply patch_add; do 8 apply patch_keep; apply patch_none |]. split; [repeat constructor |]. split; [repeat constructor |].
  split; [vm_compute; discriminate |]. split; [vm_compute; intros [H | []]; discriminate H |]. split; vm_compute; reflexivity.
Qed.

Print Assumptions prints_patched.
Print Assumptions frags_patched.
Print Assumptions flags_patched.
Print Assumptions pings_patched.
Print Assumptions prints_patched_equal_refuted.
Print Assumptions frags_patched_anonymous_refuted.
Print Assumptions pings_patched_many_refuted.
