(** C98: the flag events counted from the list of prints *)
From Coq Require Import Lia ZifyN ZifyNat ZifyBool.
From Verif.Model Require Import Base Env Prot Message Prints FlagEvent Flags.
From Verif.Spec Require Import Occ Mvd Messages Flags FlagTale.
From Verif.Proofs Require RecordingTexts.
From Verif.Proofs Require Import BaseFacts FlagFacts FlagTaleFacts.
From Verif.Properties Require Import Sample Flags.
Open Scope N_scope.

(** Whoever puts the halves of the high-level prints together and counts what they tell gets the
    table of flag events. *)
Theorem flags_from_prints : forall E fs rest ps texts deeds, keeps_flag E ->
  wf fs -> stops (len (encode fs ++ rest)) rest -> Forall (plain_flags E) fs -> no_high_echo fs ->
  prints E (encode fs ++ rest) = Ret ps -> pieced E (map pr_content (filter loud ps)) texts ->
  Forall2 (fun t l => tells_all (to_unicode E t) l) texts deeds ->
  (checked E = false \/ forall k name, times k name (concat deeds) < 256) ->
  exists tbl, flag_events_per_player_name E (encode fs ++ rest) = Ret tbl /\ counts tbl (concat deeds).
Proof. exact flag_tale_proof. Qed.

(** The halves can always be put together. *)
Theorem pieced_exists : forall E l, exists k, pieced E l k.
Proof. exact pieced_exists_proof. Qed.

Theorem same_prints_same_flags : forall E fs gs rest rest' ps, keeps_flag E -> checked E = false ->
  wf fs -> stops (len (encode fs ++ rest)) rest -> Forall (plain_flags E) fs -> no_high_echo fs ->
  wf gs -> stops (len (encode gs ++ rest')) rest' -> Forall (plain_flags E) gs -> no_high_echo gs ->
  prints E (encode fs ++ rest) = Ret ps -> prints E (encode gs ++ rest') = Ret ps ->
  exists a b, flag_events_per_player_name E (encode fs ++ rest) = Ret a /\
    flag_events_per_player_name E (encode gs ++ rest') = Ret b /\ forall x, In x a <-> In x b.
Proof. exact same_flags_proof. Qed.

(** Two demos with the same prints, in different frames *)
Definition sung : list frame :=
  [ frame_all x01 (say x02 "anna" ++ say_line x02 " çïô the ÒÅÄ flag!"); frame_all x01 (say x03 "my flag");
    frame_all x01 (say x02 "hello"); frame_all x01 (say_line x02 "bert defends the ÂÌÕÅ flag") ].
Definition resung : list frame :=
  [ frame_all x01 (say x02 "anna" ++ say_line x02 " çïô the ÒÅÄ flag!" ++ say x03 "my flag" ++ [x0e; x01]);
    frame_all x09 [x0b; x01]; frame_all x00 (say x02 "" ++ say x02 "hello");
    frame_all x01 (say_line x02 "bert defends the ÂÌÕÅ flag") ].


Ltac high_pair := intros a p q b H; vm_compute in H;
  repeat (destruct a as [| ? a]; [injection H as <- <- _; intros M X; first [discriminate X | discriminate M] |]; injection H as _ H);
  destruct a as [| ? a]; [discriminate H | injection H as _ H; destruct a; discriminate H].

Example sung_cases : keeps_flag (sample false) /\ wf sung /\ wf resung /\ no_high_echo sung /\ no_high_echo resung /\
  prints (sample false) (encode sung) = prints (sample false) (encode resung) /\
  flag_events_per_player_name (sample false) (encode sung) =
    Ret [(lit "anna", mkPfe 0 1 0 0 0 0 0); (lit "bert", mkPfe 0 0 0 0 1 0 0)] /\
  flag_events_per_player_name (sample false) (encode resung) =
    Ret [(lit "anna", mkPfe 0 1 0 0 0 0 0); (lit "bert", mkPfe 0 0 0 0 1 0 0)].
Proof.
  split; [intros t O; exact O |]. split; [repeat constructor |]. split; [repeat constructor |].
  split; [high_pair |]. split; [high_pair |]. vm_compute. auto.
Qed.

(** each frame as its prints and the rest *)
Ltac plain_frame ms r := exists ms, r; split; [reflexivity |]; split;
  [repeat (apply Forall_cons; [apply RecordingTexts.not_in; reflexivity |]); apply Forall_nil |];
  split; [apply RecordingTexts.not_in; reflexivity |].
Ltac no_half := let X := fresh in intros X; apply suffix_iff in X; vm_compute in X; discriminate X.
Ltac a_half := apply suffix_iff; vm_compute; reflexivity.
Example sung_plain : Forall (plain_flags (sample false)) sung /\ Forall (plain_flags (sample false)) resung.
Proof.
  split.
  - constructor; [plain_frame [mkMessage x02 (lit "anna"); mkMessage x02 (line " çïô the ÒÅÄ flag!")] (@nil byte); split; [no_half | a_half] |].
    constructor; [plain_frame [mkMessage x03 (lit "my flag")] (@nil byte); exact Logic.I |].
    constructor; [plain_frame [mkMessage x02 (lit "hello")] (@nil byte); no_half |].
    constructor; [plain_frame [mkMessage x02 (line "bert defends the ÂÌÕÅ flag")] (@nil byte); no_half | constructor].
  - constructor; [plain_frame [mkMessage x02 (lit "anna"); mkMessage x02 (line " çïô the ÒÅÄ flag!"); mkMessage x03 (lit "my flag")] [x0e; x01]; split; [no_half | a_half] |].
    constructor; [plain_frame (@nil message) [x0b; x01]; exact Logic.I |].
    constructor; [plain_frame [mkMessage x02 []; mkMessage x02 (lit "hello")] (@nil byte); no_half |].
    constructor; [plain_frame [mkMessage x02 (line "bert defends the ÂÌÕÅ flag")] (@nil byte); no_half | constructor].
Qed.

(** A flag message printed twice in a row is one print but is counted twice. *)
Theorem flags_from_echo_refuted : exists fs gs, wf fs /\ Forall (plain_flags (sample false)) fs /\
  wf gs /\ Forall (plain_flags (sample false)) gs /\ no_high_echo gs /\
  prints (sample false) (encode fs) = prints (sample false) (encode gs) /\
  flag_events_per_player_name (sample false) (encode fs) = Ret [(lit "bert", mkPfe 0 0 0 0 2 0 0)] /\
  flag_events_per_player_name (sample false) (encode gs) = Ret [(lit "bert", mkPfe 0 0 0 0 1 0 0)].
Proof.
  exists [frame_all x01 (say_line x02 "bert defends the ÂÌÕÅ flag"); frame_all x01 (say_line x02 "bert defends the ÂÌÕÅ flag")],
         [frame_all x01 (say_line x02 "bert defends the ÂÌÕÅ flag")].
  assert (P : plain_flags (sample false) (frame_all x01 (say_line x02 "bert defends the ÂÌÕÅ flag"))).
  { plain_frame [mkMessage x02 (line "bert defends the ÂÌÕÅ flag")] (@nil byte). no_half. }
  split; [repeat constructor |]. split; [repeat (constructor; try exact P) |]. split; [repeat constructor |].
  split; [repeat (constructor; try exact P) |]. split; [high_pair |]. vm_compute. auto.
Qed.

(** Of two complete messages in one frame prints() lists both but only the first is counted. *)
Theorem flags_from_frames_refuted : exists fs gs, wf fs /\ no_high_echo fs /\ wf gs /\
  Forall (plain_flags (sample false)) gs /\ no_high_echo gs /\
  prints (sample false) (encode fs) = prints (sample false) (encode gs) /\
  flag_events_per_player_name (sample false) (encode fs) = Ret [(lit "anna", mkPfe 0 0 0 0 1 0 0)] /\
  flag_events_per_player_name (sample false) (encode gs) =
    Ret [(lit "anna", mkPfe 0 0 0 0 1 0 0); (lit "bert", mkPfe 0 0 0 0 1 0 0)].
Proof.
  exists [frame_all x01 (say_line x02 "anna defends the ÂÌÕÅ flag" ++ say_line x02 "bert defends the ÂÌÕÅ flag")],
         [frame_all x01 (say_line x02 "anna defends the ÂÌÕÅ flag"); frame_all x01 (say_line x02 "bert defends the ÂÌÕÅ flag")].
  split; [repeat constructor |]. split; [high_pair |]. split; [repeat constructor |]. split.
  { constructor; [plain_frame [mkMessage x02 (line "anna defends the ÂÌÕÅ flag")] (@nil byte); no_half |].
    constructor; [plain_frame [mkMessage x02 (line "bert defends the ÂÌÕÅ flag")] (@nil byte); no_half | constructor]. }
  split; [high_pair |]. vm_compute. auto.
Qed.

(** A message behind a byte that is no print is not listed by prints() but is counted. *)
Theorem flags_from_hidden_refuted : exists fs, wf fs /\ no_high_echo fs /\
  prints (sample false) (encode fs) = Ret [] /\
  flag_events_per_player_name (sample false) (encode fs) = Ret [(lit "anna", mkPfe 0 0 0 0 1 0 0)].
Proof.
  exists [frame_all x01 (x0e :: say_line x02 "anna defends the ÂÌÕÅ flag")].
  split; [repeat constructor |]. split; [intros a p q b H; vm_compute in H; destruct a; discriminate H |]. vm_compute. auto.
Qed.

Print Assumptions flags_from_prints.
Print Assumptions pieced_exists.
Print Assumptions same_prints_same_flags.
Print Assumptions flags_from_echo_refuted.
Print Assumptions flags_from_frames_refuted.
Print Assumptions flags_from_hidden_refuted.
