(** C81: names and numbers of players are labels. *)
From Verif.Model Require Import Base Env Clients FragEvent Frags Flags Ping.
From Verif.Spec Require Import Occ Mvd Messages Obituary Score Flags Pings Join Rename.
From Verif.Proofs Require Import BaseFacts ObituaryFacts FlagFacts RecordingTexts RenameFacts NameFacts.
From Verif.Properties Require Import Sample Scores Flags Pings.
Open Scope N_scope.

Theorem frags_renamed : forall f, injective f -> forall E fs fs' rest rest' cs, wf fs -> wf fs' ->
  stops (len (encode fs ++ rest)) rest -> stops (len (encode fs' ++ rest')) rest' ->
  clients E (encode fs ++ rest) = Ret (Ok cs) -> clients E (encode fs' ++ rest') = Ret (Ok (map (rename_client f) cs)) ->
  Forall2 (same_death E f) (obituaries fs) (obituaries fs') ->
  renamed f (frags_per_player_name E (encode fs ++ rest)) (frags_per_player_name E (encode fs' ++ rest')).
Proof. exact frags_renamed_proof. Qed.

Theorem flags_renamed : forall f, injective f -> forall E fs fs' rest rest' l, wf fs -> wf fs' ->
  stops (len (encode fs ++ rest)) rest -> stops (len (encode fs' ++ rest')) rest' ->
  carry_all E fs l -> carry_all E fs' (map (fun x => (fst x, f (snd x))) l) ->
  renamed f (flag_events_per_player_name E (encode fs ++ rest)) (flag_events_per_player_name E (encode fs' ++ rest')).
Proof. exact flags_renamed_proof. Qed.

Theorem pings_renumbered : forall f, injective f -> forall E fs fs' rest rest', wf fs -> wf fs' ->
  sampling_ends fs rest -> sampling_ends fs' rest' -> Forall2 (same_pings f) fs fs' ->
  renamed_result f (ping_per_player_number E (encode fs ++ rest)) (ping_per_player_number E (encode fs' ++ rest')).
Proof. exact pings_renamed_proof. Qed.

(** ** Cases *)
Definition xname (s : str) : str := x78 :: x20 :: s.
Lemma xname_injective : injective xname.
Proof. intros a b H. injection H as H. exact H. Qed.

Definition xclients_frame : frame :=
  frame_all x00 (x09 :: lit "cmd spawn" ++ [x00]
    ++ userinfo "\name\x anna\team\red\topcolor\4\bottomcolor\4"
    ++ userinfo "\name\x bert\team\red\topcolor\4\bottomcolor\4"
    ++ userinfo "\name\x carl\team\blue\topcolor\13\bottomcolor\13"
    ++ userinfo "\name\x dora\team\blue\topcolor\13\bottomcolor\13" ++ repeat x00 600).
Definition xscore_demo : list frame :=
  [ xclients_frame; frame_all x01 (say x03 "hello");
    frame_all x01 (say x01 "x anna rides x carl's rocket");
    frame_all x01 (say x01 "x dora was telefragged by her teammate" ++ [x01]);
    frame_all x07 (update x03); frame_all x01 [];
    frame_all x01 (update x02);
    frame_all x01 (say x01 "x bert suicides"); frame_all x01 (say x01 "x anna cratered") ].

Ltac plain_word := (split; [apply not_in; reflexivity |]); repeat split; try discriminate; intros r X; discriminate X.
Ltac death p x y :=
  left; exists p, x, y;
  split; [split; [vm_compute; tauto |]; split; [left; split; [apply not_in; reflexivity | plain_word] |];
          split; [try discriminate; reflexivity | apply trimmed_iff; vm_compute; reflexivity] |];
  split; [split; [vm_compute; tauto |]; split; [right; split; apply clear_by_test; vm_compute; reflexivity |];
          split; [try discriminate; reflexivity | apply trimmed_iff; vm_compute; reflexivity] |];
  vm_compute; reflexivity.

Example frags_renamed_case :
  wf xscore_demo /\
  (exists cs, clients (sample true) (encode score_demo) = Ret (Ok cs) /\
     clients (sample true) (encode xscore_demo) = Ret (Ok (map (rename_client xname) cs))) /\
  Forall2 (same_death (sample true) xname) (obituaries score_demo) (obituaries xscore_demo) /\
  frags_per_player_name (sample true) (encode xscore_demo) =
    Ret [(lit "x carl", 0%Z); (lit "x bert", (-2)%Z); (lit "x anna", (-1)%Z)].
Proof.
  split; [repeat constructor |]. split; [eexists; split; vm_compute; reflexivity |]. split; [| vm_compute; reflexivity].
  let a := eval vm_compute in (obituaries score_demo) in change (obituaries score_demo) with a.
  let a := eval vm_compute in (obituaries xscore_demo) in change (obituaries xscore_demo) with a.
  constructor; [death (two KKilledBy " rides " "'s rocket") (lit "anna") (lit "carl") |].
  constructor; [death (one KKilledByMate " was telefragged by her teammate") (lit "dora") (@nil byte) |].
  constructor; [death (one KSuicides " suicides") (lit "bert") (@nil byte) |].
  constructor; [death (one KDies " cratered") (lit "anna") (@nil byte) |]. constructor.
Qed.

(** Two players under one name: their scores are added, the rows are not those before. *)
Theorem frags_renamed_refuted : exists (f : str -> str) E fs fs' cs, wf fs /\ wf fs' /\
  clients E (encode fs) = Ret (Ok cs) /\ clients E (encode fs') = Ret (Ok (map (rename_client f) cs)) /\
  Forall2 (same_death E f) (obituaries fs) (obituaries fs') /\
  ~ renamed f (frags_per_player_name E (encode fs)) (frags_per_player_name E (encode fs')).
Proof.
  pose (users := frame_all x00 (x09 :: lit "cmd spawn" ++ [x00] ++ userinfo "\name\anna" ++ userinfo "\name\bert" ++ repeat x00 600)).
  pose (users' := frame_all x00 (x09 :: lit "cmd spawn" ++ [x00] ++ userinfo "\name\dora" ++ userinfo "\name\dora" ++ repeat x00 600)).
  exists (fun _ => lit "dora"), (sample true),
    [users; frame_all x01 (say x01 "anna cratered"); frame_all x01 (say x01 "bert cratered")],
    [users'; frame_all x01 (say x01 "dora cratered"); frame_all x01 (say x01 "dora cratered")].
  eexists. split; [repeat constructor |]. split; [repeat constructor |]. split; [vm_compute; reflexivity |].
  split; [vm_compute; reflexivity |]. split.
  - let a := eval vm_compute in (obituaries [users; frame_all x01 (say x01 "anna cratered"); frame_all x01 (say x01 "bert cratered")]) in
      change (obituaries [users; frame_all x01 (say x01 "anna cratered"); frame_all x01 (say x01 "bert cratered")]) with a.
    let a := eval vm_compute in (obituaries [users'; frame_all x01 (say x01 "dora cratered"); frame_all x01 (say x01 "dora cratered")]) in
      change (obituaries [users'; frame_all x01 (say x01 "dora cratered"); frame_all x01 (say x01 "dora cratered")]) with a.
    constructor; [death (one KDies " cratered") (lit "anna") (@nil byte) |].
    constructor; [death (one KDies " cratered") (lit "bert") (@nil byte) |]. constructor.
  - vm_compute. intros [H _]. inversion H as [| a l X]. apply X. left. reflexivity.
Qed.

Definition xflag_demo (name name' : string) : list frame :=
  [ frame_all x01 (say x02 name ++ say_line x02 " çïô the ÒÅÄ flag!");
    frame_all x01 (say_line x02 (name' ++ " defends the ÂÌÕÅ flag"));
    frame_all x01 [x24] ].
Example flags_renamed_case :
  carry_all (sample true) (xflag_demo "anna" "bert") [(Takes, lit "anna"); (Defends, lit "bert")] /\
  carry_all (sample true) (xflag_demo "x anna" "x bert") [(Takes, xname (lit "anna")); (Defends, xname (lit "bert"))] /\
  flag_events_per_player_name (sample true) (encode (xflag_demo "anna" "bert")) =
    Ret [(lit "anna", mkPfe 0 1 0 0 0 0 0); (lit "bert", mkPfe 0 0 0 0 1 0 0)] /\
  flag_events_per_player_name (sample true) (encode (xflag_demo "x anna" "x bert")) =
    Ret [(lit "x anna", mkPfe 0 1 0 0 0 0 0); (lit "x bert", mkPfe 0 0 0 0 1 0 0)].
Proof.
  assert (F : forall d, find d (lit "flag") <> None -> occurs d (lit "flag")).
  { intros d H. destruct (find d (lit "flag")) as [i |] eqn:Q; [| contradiction H; reflexivity]. apply find_some in Q. apply occurs_iff. exists i. apply Q. }
  assert (C : forall a b, existsb (Byte.eqb x0a) (lit a) = false -> existsb (Byte.eqb x0a) (lit b) = false ->
    existsb (Byte.eqb x00) (lit a) = false -> lit a <> [] ->
    existsb (Byte.eqb x00) (line (b ++ " defends the ÂÌÕÅ flag")) = false -> 
    find (f_body (frame_all x01 (say x02 a ++ say_line x02 " çïô the ÒÅÄ flag!"))) (lit "flag") <> None ->
    find (f_body (frame_all x01 (say_line x02 (b ++ " defends the ÂÌÕÅ flag")))) (lit "flag") <> None ->
    line (b ++ " defends the ÂÌÕÅ flag") = lit b ++ line " defends the ÂÌÕÅ flag" ->
    carry_all (sample true) (xflag_demo a b) [(Takes, lit a); (Defends, lit b)]).
  { intros a b A B A0 NE B0 FA FB QB. exists [[(Takes, lit a)]; [(Defends, lit b)]; []]. split; [reflexivity |].
    constructor; [right; exists Takes, (lit a); split; [| reflexivity] |
      constructor; [right; exists Defends, (lit b); split; [| reflexivity] | constructor; [left; split; [| reflexivity] | constructor]]].
    - exists (line " çïô the ÒÅÄ flag!"). split; [vm_compute; tauto |]. split; [apply quotes_none_line, not_in; exact A |]. split; [apply F; exact FA |].
      right. exists (mkMessage x02 (lit a)), (mkMessage x02 (line " çïô the ÒÅÄ flag!")).
      split; [reflexivity |]. split; [apply not_in; exact A0 |]. split; [apply not_in; reflexivity |].
      split; [unfold high, has_text; cbn [m_text]; destruct (lit a); [contradiction NE |]; reflexivity |]. split; [reflexivity |].
      split; [| reflexivity]. exists Takes, (line " çïô the ÒÅÄ flag!"), []. split; [vm_compute; tauto |]. split; [tauto | reflexivity].
    - exists (line " defends the ÂÌÕÅ flag"). split; [vm_compute; tauto |]. split; [apply quotes_none_line, not_in; exact B |]. split; [apply F; exact FB |].
      left. exists (mkMessage x02 (line (b ++ " defends the ÂÌÕÅ flag"))). split; [reflexivity |]. split; [apply not_in; exact B0 |].
      split; [unfold high, has_text; cbn [m_text]; rewrite QB; destruct (lit b); reflexivity | exact QB].
    - apply find_none. reflexivity. }
  split; [apply C; first [reflexivity | discriminate] |]. split; [apply C; first [reflexivity | discriminate] |].
  split; vm_compute; reflexivity.
Qed.

Definition upd (p : byte) (ping : N) : ping_update := mkPingUpdate p ping x00.
Example pings_renumbered_case :
  let f := fun n => n + 5 in
  let fs := [ping_frame [upd x00 25; upd x01 30]; ping_frame [upd x01 33]] in
  let fs' := [ping_frame [upd x05 25; upd x06 30]; ping_frame [upd x06 33]] in
  injective f /\ wf fs /\ wf fs' /\ Forall2 (same_pings f) fs fs' /\
  ping_per_player_number (sample true) (encode fs) = Ret (Ok [(0, 25); (1, 31)]) /\
  ping_per_player_number (sample true) (encode fs') = Ret (Ok [(5, 25); (6, 31)]).
Proof.
  cbn zeta. split; [intros a b H; apply (N.add_cancel_r a b 5); exact H |]. split; [repeat constructor |]. split; [repeat constructor |].
  split; [| split; vm_compute; reflexivity].
  constructor; [exists [upd x00 25; upd x01 30], [upd x05 25; upd x06 30] | constructor; [exists [upd x01 33], [upd x06 33] | constructor]];
    exists [x01], [x01]; repeat split; try (intros r X; discriminate X); repeat constructor.
Qed.

Print Assumptions frags_renamed.
Print Assumptions frags_renamed_refuted.
Print Assumptions flags_renamed.
Print Assumptions pings_renumbered.
