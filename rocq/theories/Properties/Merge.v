(** C100: players of one name share one row. *)
From Verif.Model Require Import Base Env Clients FragEvent Frags Flags Ping.
From Verif.Spec Require Import Occ Mvd Messages Obituary Score Flags Pings Join Rename Merge.
From Verif.Proofs Require Import BaseFacts ObituaryFacts FlagFacts RecordingTexts RenameFacts NameFacts MergeFacts.
From Verif.Properties Require Import Sample Scores Flags Pings Rename.
Open Scope N_scope.

Theorem frags_merged : forall f E fs fs' rest rest', wf fs -> wf fs' ->
  stops (len (encode fs ++ rest)) rest -> stops (len (encode fs' ++ rest')) rest' ->
  len (encode fs ++ rest) < 2147483648 -> len (encode fs' ++ rest') < 2147483648 ->
  Forall2 (same_named_death E f) (obituaries fs) (obituaries fs') ->
  exists t t', frags_per_player_name E (encode fs ++ rest) = Ret t /\
    frags_per_player_name E (encode fs' ++ rest') = Ret t' /\ merged_scores f t t'.
Proof. exact frags_merged_proof. Qed.

Theorem flags_merged : forall f E fs fs' rest rest' l, wf fs -> wf fs' ->
  stops (len (encode fs ++ rest)) rest -> stops (len (encode fs' ++ rest')) rest' ->
  carry_all E fs l -> carry_all E fs' (map (fun x => (fst x, f (snd x))) l) ->
  checked E = false \/ (forall k n, times k n (map (fun x => (fst x, f (snd x))) l) < 256) ->
  exists t t', flag_events_per_player_name E (encode fs ++ rest) = Ret t /\
    flag_events_per_player_name E (encode fs' ++ rest') = Ret t' /\ merged_flags f t t'.
Proof. exact flags_merged_proof. Qed.

(** Bert plays under the name of anna. *)
Definition as_anna (s : str) : str := if beq s (lit "bert") then lit "anna" else s.
Definition before_merge : list frame :=
  [ frame_all x01 (say x01 "anna rides carl's rocket"); frame_all x01 (say x01 "bert cratered");
    frame_all x01 (say x03 "hello"); frame_all x01 (say x01 "anna stomps carl"); frame_all x01 (say x01 "bert suicides") ].
Definition after_merge : list frame :=
  [ frame_all x01 (say x01 "anna rides carl's rocket"); frame_all x01 (say x01 "anna cratered");
    frame_all x01 (say x03 "hello"); frame_all x01 (say x01 "anna stomps carl"); frame_all x01 (say x01 "anna suicides") ].

Ltac named p x y :=
  left; exists p, x, y; split; [discriminate |];
  split; (split; [vm_compute; tauto |]; split; [left; split; [apply not_in; reflexivity | plain_word] |];
          split; [try discriminate; reflexivity | apply trimmed_iff; vm_compute; reflexivity]).

Example frags_merged_case :
  wf before_merge /\ wf after_merge /\
  Forall2 (same_named_death (sample true) as_anna) (obituaries before_merge) (obituaries after_merge) /\
  frags_per_player_name (sample true) (encode before_merge) =
    Ret [(lit "carl", 1%Z); (lit "bert", (-3)%Z); (lit "anna", 1%Z)] /\
  frags_per_player_name (sample true) (encode after_merge) = Ret [(lit "carl", 1%Z); (lit "anna", (-2)%Z)].
Proof.
  split; [repeat constructor |]. split; [repeat constructor |]. split; [| split; vm_compute; reflexivity].
  let a := eval vm_compute in (obituaries before_merge) in change (obituaries before_merge) with a.
  let a := eval vm_compute in (obituaries after_merge) in change (obituaries after_merge) with a.
  constructor; [named (two KKilledBy " rides " "'s rocket") (lit "anna") (lit "carl") |].
  constructor; [named (one KDies " cratered") (lit "bert") (@nil byte) |].
  constructor; [named (two KKills " stomps " "") (lit "anna") (lit "carl") |].
  constructor; [named (one KSuicides " suicides") (lit "bert") (@nil byte) |]. constructor.
Qed.

Example flags_merged_case :
  flag_events_per_player_name (sample true) (encode (xflag_demo "anna" "bert")) =
    Ret [(lit "anna", mkPfe 0 1 0 0 0 0 0); (lit "bert", mkPfe 0 0 0 0 1 0 0)] /\
  flag_events_per_player_name (sample true) (encode (xflag_demo "anna" "anna")) =
    Ret [(lit "anna", mkPfe 0 1 0 0 1 0 0)].
Proof. split; vm_compute; reflexivity. Qed.

(** It is not so for a team kill that does not name the killer: once both have the same name, nobody is
    charged. *)
Theorem mates_merged_refuted : exists (f : str -> str) E fs fs' cs t t', wf fs /\ wf fs' /\
  clients E (encode fs) = Ret (Ok cs) /\ clients E (encode fs') = Ret (Ok (map (rename_client f) cs)) /\
  Forall2 (same_death E f) (obituaries fs) (obituaries fs') /\
  frags_per_player_name E (encode fs) = Ret t /\ frags_per_player_name E (encode fs') = Ret t' /\
  ~ merged_scores f t t'.
Proof.
  pose (users := frame_all x00 (x09 :: lit "cmd spawn" ++ [x00] ++ userinfo "\name\anna\team\red" ++ userinfo "\name\bert\team\red" ++ repeat x00 600)).
  pose (users' := frame_all x00 (x09 :: lit "cmd spawn" ++ [x00] ++ userinfo "\name\dora\team\red" ++ userinfo "\name\dora\team\red" ++ repeat x00 600)).
  exists (fun _ => lit "dora"), (sample true),
    [users; frame_all x01 (say x01 "anna was telefragged by her teammate" ++ [x01]); frame_all x01 (update x01)],
    [users'; frame_all x01 (say x01 "dora was telefragged by her teammate" ++ [x01]); frame_all x01 (update x01)].
  do 3 eexists. split; [repeat constructor |]. split; [repeat constructor |]. split; [vm_compute; reflexivity |].
  split; [vm_compute; reflexivity |]. split; [| split; [vm_compute; reflexivity | split; [vm_compute; reflexivity |]]].
  - let a := eval vm_compute in (obituaries [users; frame_all x01 (say x01 "anna was telefragged by her teammate" ++ [x01]); frame_all x01 (update x01)]) in
      change (obituaries [users; frame_all x01 (say x01 "anna was telefragged by her teammate" ++ [x01]); frame_all x01 (update x01)]) with a.
    let a := eval vm_compute in (obituaries [users'; frame_all x01 (say x01 "dora was telefragged by her teammate" ++ [x01]); frame_all x01 (update x01)]) in
      change (obituaries [users'; frame_all x01 (say x01 "dora was telefragged by her teammate" ++ [x01]); frame_all x01 (update x01)]) with a.
    constructor; [| constructor].
    left; exists (one KKilledByMate " was telefragged by her teammate"), (lit "anna"), (@nil byte).
    split; [split; [vm_compute; tauto |]; split; [left; split; [apply not_in; reflexivity | plain_word] |];
            split; [reflexivity | apply trimmed_iff; vm_compute; reflexivity] |].
    split; [split; [vm_compute; tauto |]; split; [left; split; [apply not_in; reflexivity | plain_word] |];
            split; [reflexivity | apply trimmed_iff; vm_compute; reflexivity] |].
    vm_compute; reflexivity.
  - intros [[_ K] _]. apply (K (lit "dora")). exists (lit "bert"). split; [left; reflexivity | reflexivity].
Qed.

(** Nor for pings: the mean of two players under one number depends on how often each was reported. *)
Theorem pings_merged_refuted : exists (f : N -> N) E a a' b b', wf a /\ wf a' /\ wf b /\ wf b' /\
  Forall2 (same_pings f) a a' /\ Forall2 (same_pings f) b b' /\
  ping_per_player_number E (encode a) = ping_per_player_number E (encode b) /\
  ping_per_player_number E (encode a') = Ret (Ok [(0, 15)]) /\
  ping_per_player_number E (encode b') = Ret (Ok [(0, 17)]).
Proof.
  exists (fun _ => 0), (sample true),
    [ping_frame [upd x00 10; upd x01 20]], [ping_frame [upd x00 10; upd x00 20]],
    [ping_frame [upd x00 10; upd x01 20]; ping_frame [upd x01 20]; ping_frame [upd x01 20]],
    [ping_frame [upd x00 10; upd x00 20]; ping_frame [upd x00 20]; ping_frame [upd x00 20]].
  do 4 (split; [repeat constructor |]).
  assert (forall us us', Forall wf_ping us -> Forall2 (fun u u' => n_of (pu_player u') = 0 /\ pu_ping u' = pu_ping u) us us' ->
    same_pings (fun _ => 0) (ping_frame us) (ping_frame us')) as G.
  { intros us us' W F. exists us, us', [x01], [x01]. split; [exact W |]. repeat split; try (intros r X; discriminate X). exact F. }
  split; [repeat (constructor; [apply G; repeat constructor |]); constructor |].
  split; [repeat (constructor; [apply G; repeat constructor |]); constructor |].
  split; [vm_compute; reflexivity |]. split; vm_compute; reflexivity.
Qed.

Print Assumptions frags_merged.
Print Assumptions flags_merged.
Print Assumptions mates_merged_refuted.
Print Assumptions pings_merged_refuted.
