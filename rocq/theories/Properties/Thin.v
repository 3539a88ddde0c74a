(** C79: frames that can be left out. *)
From Verif.Model Require Import Base Env Prot Message Prints Frags Flags Ping.
From Verif.Spec Require Import Occ Mvd Messages Pings Join Thin.
From Verif.Proofs Require Import BaseFacts ObituaryFacts ThinFacts.
From Verif.Properties Require Import Sample Scores Pings Flags Joins.

Theorem thin_prints_same : forall E fs gs, wf fs -> thinned mute fs gs -> prints E (encode fs) = prints E (encode gs).
Proof. exact thin_prints. Qed.

Theorem thin_flags_same : forall E fs gs, wf fs -> thinned no_flag fs gs ->
  flag_events_per_player_name E (encode fs) = flag_events_per_player_name E (encode gs).
Proof. exact thin_flags. Qed.

Theorem thin_pings_same : forall E fs gs, wf fs -> thinned no_ping fs gs ->
  ping_per_player_number E (encode fs) = ping_per_player_number E (encode gs).
Proof. exact thin_pings. Qed.

Theorem thin_frags_same : forall E fs gs, wf fs -> all_named E fs -> thinned no_obituary fs gs ->
  frags_per_player_name E (encode fs) = frags_per_player_name E (encode gs).
Proof. exact thin_frags. Qed.

(** A team kill whose killer is not named is charged by the frames that follow it. *)
Theorem thin_frags_refuted : exists fs gs, wf fs /\ thinned no_obituary fs gs /\
  frags_per_player_name (sample true) (encode fs) = Ret [(lit "carl", (-1)%Z)] /\
  frags_per_player_name (sample true) (encode gs) = Ret [].
Proof.
  exists [clients_frame; frame_all x01 (say x01 "dora was telefragged by her teammate"); frame_all x01 (update x02)],
         [clients_frame; frame_all x01 (say x01 "dora was telefragged by her teammate")].
  split; [repeat constructor |]. split; [| split; vm_compute; reflexivity].
  do 2 apply thin_keep. apply thin_drop; [intros text tail _ B; discriminate B | constructor].
Qed.

(** The demo of C53 with a sound, an empty print, a chat line and pings in between *)
Definition noise (b : bytes) : frame := frame_all x0d b.
Definition noisy : list frame :=
  noise [x06; x01; x02] :: noise [x08; x01; x00; x24] :: first_half ++
  noise (say x03 "flawless") :: ping_frame [mkPingUpdate x00 26 x00] :: second_half_demo.
Ltac thin t := repeat first [apply thin_end | apply thin_keep | apply thin_drop; [t |]].
Example thin_example :
  wf noisy /\ all_named (sample true) noisy /\
  thinned no_obituary noisy (first_half ++ second_half_demo) /\ thinned no_flag noisy (first_half ++ second_half_demo) /\
  thinned mute noisy (first_half ++ noise (say x03 "flawless") :: second_half_demo) /\
  thinned no_ping noisy [ping_frame [mkPingUpdate x00 26 x00]] /\
  frags_per_player_name (sample true) (encode noisy) = Ret [(lit "carl", 0%Z); (lit "dora", (-1)%Z)] /\
  ping_per_player_number (sample true) (encode noisy) = Ret (Ok [(0, 26)]).
Proof.
  split; [repeat constructor |]. split; [named |].
  split; [thin ltac:(apply no_obituary_test; vm_compute; reflexivity) |].
  split; [thin ltac:(apply no_flag_test; vm_compute; reflexivity) |].
  split; [thin ltac:(apply mute_test; vm_compute; reflexivity) |].
  split; [thin ltac:(intros tail B; discriminate B) |].
  split; vm_compute; reflexivity.
Qed.

Print Assumptions thin_prints_same.
Print Assumptions thin_flags_same.
Print Assumptions thin_pings_same.
Print Assumptions thin_frags_same.
Print Assumptions thin_frags_refuted.
