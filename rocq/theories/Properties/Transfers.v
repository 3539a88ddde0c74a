(** C90: files that arrive damaged *)
From Coq Require Import Lia ZifyN ZifyNat ZifyBool.
From Verif.Model Require Import Base Env Frags Validate.
From Verif.Spec Require Import Occ Mvd Texts Transfer.
From Verif.Proofs Require Import BaseFacts TextFacts TransferFacts.
From Verif.Properties Require Import Sample Texts.

(** A file that lacks its end is not valid, *)
Theorem cut_short_invalid : forall E p q, q <> [] -> only_at (p ++ q) end_of_demo (len (p ++ q) - 12) ->
  has_end_of_demo_print p = false /\ is_valid E p = Ret false.
Proof. exact cut_short_proof. Qed.

(** unless it is cut right after an earlier text of that kind. *)
Theorem cut_accepted_at : forall E p q, is_valid E p = Ret true -> 1280 <= len p /\ occurs_at (p ++ q) end_of_demo (len p - 12).
Proof. exact cut_accepted. Qed.

(** A file that lacks its start is not valid, *)
Theorem start_lost_invalid : forall E p q, only_before (p ++ q) serverinfo_mark (len p) \/ only_before (p ++ q) spawn_mark (len p) ->
  is_valid E q <> Ret true.
Proof. exact start_lost_proof. Qed.
Theorem start_lost_false : forall E p q, only_before (p ++ q) serverinfo_mark (len p) -> ~ (1024 <= len q < 1280) ->
  is_valid E q = Ret false.
Proof. exact start_lost_false_proof. Qed.

(** nor is one with so much in front of it that the serverinfo is out of reach, *)
Theorem junk_before_invalid : forall E x d i, only_at (x ++ d) serverinfo_mark i -> 1264 < i -> 1280 <= len (x ++ d) ->
  is_valid E (x ++ d) = Ret false.
Proof. exact junk_before_proof. Qed.

(** nor one with anything behind it that does not end it again. *)
Theorem junk_after_finished : forall d x, finished d ->
  (finished (d ++ x) <-> x = [] \/ x = x02 :: lit "EndOfDemo" ++ [x00] \/ exists a, x = a ++ end_of_demo).
Proof. exact finished_after. Qed.
Theorem junk_after_invalid : forall E d x, finished d -> x <> [] -> x <> x02 :: lit "EndOfDemo" ++ [x00] ->
  (forall a, x <> a ++ end_of_demo) -> is_valid E (d ++ x) = Ret false.
Proof. exact junk_after_proof. Qed.

Lemma only_at_test : forall d m i, find d m = Some i -> rfind d m = Some i -> only_at d m i.
Proof.
  intros d m i F R. apply find_some in F. apply rfind_some in R. destruct F as [O F], R as [_ R]. split; [exact O |].
  intros j J. apply F in J as A. apply R in J. lia.
Qed.
Lemma only_before_test : forall d m i k, rfind d m = Some i -> i < k -> only_before d m k.
Proof. intros d m i k R L j J. apply rfind_some in R. apply R in J. lia. Qed.

(** A valid demo to which they apply *)
Example transfer_example :
  is_valid (sample true) valid_data = Ret true /\ only_at valid_data end_of_demo (len valid_data - 12) /\
  only_before valid_data serverinfo_mark 100 /\ only_before valid_data spawn_mark 1400 /\
  only_at (repeat x01 1300 ++ valid_data) serverinfo_mark 1307 /\ finished valid_data.
Proof.
  split; [vm_compute; reflexivity |]. split; [apply only_at_test; vm_compute; reflexivity |].
  split; [eapply only_before_test; vm_compute; reflexivity |]. split; [eapply only_before_test; vm_compute; reflexivity |].
  split; [apply only_at_test; vm_compute; reflexivity |]. apply finished_proof. vm_compute. reflexivity.
Qed.

(** What is missing in the middle is not noticed. *)
Theorem hole_noticed_refuted : exists a b c, b <> [] /\
  is_valid (sample true) (a ++ b ++ c) = Ret true /\ is_valid (sample true) (a ++ c) = Ret true /\
  frags_per_player_name (sample true) (a ++ b ++ c) = Ret [(lit "alice", (-2)%Z)] /\
  frags_per_player_name (sample true) (a ++ c) = Ret [].
Proof.
  exists (encode [info_frame "\mode\1on1"; frame_all x00 client_body]), (encode [frame_all x05 (say x01 "alice suicides")]),
         (encode [frame_all x05 ([x02] ++ end_of_demo)]).
  split; [discriminate |]. repeat split; vm_compute; reflexivity.
Qed.

Print Assumptions cut_short_invalid.
Print Assumptions cut_accepted_at.
Print Assumptions start_lost_invalid.
Print Assumptions start_lost_false.
Print Assumptions junk_before_invalid.
Print Assumptions junk_after_finished.
Print Assumptions junk_after_invalid.
Print Assumptions hole_noticed_refuted.
