(** What the results look like when they are printed with [{:?}]: C74. *)
From Verif.Model Require Import Base Env Frame Prot Message Clients Players FlagEvent Flags Ktxstats Debug.
From Verif.Spec Require Import Occ Mvd Messages Times Faults Flags Shown.
From Verif.Proofs Require Import BaseFacts FlagFacts ShownFacts ShownOnce.
From Verif.Properties Require Import Sample Flags.

(** C74 *)
(** the counters of flag_events_per_player_name() cannot be seen in another way *)
Theorem flags_shown : forall E fs rest texts deeds,
  wf fs -> stops (len (encode fs ++ rest)) rest ->
  Forall2 (announces E) fs texts ->
  Forall2 (fun t l => tells_all (to_unicode E t) l) (concat texts) deeds ->
  (checked E = false \/ forall k name, times k name (concat deeds) < 256) ->
  exists tbl, flag_events_per_player_name E (encode fs ++ rest) = Ret tbl /\
    forall name e, In (name, e) tbl ->
      shows_deeds (fun k => times k name (concat deeds) mod 256) (debug_flag_events e).
Proof.
  intros E fs rest texts deeds W S A T C. destruct (flags_counted_proof E fs rest texts deeds W S A T C) as [tbl [H [_ [_ K]]]].
  exists tbl. split; [exact H |]. intros name e I. apply deeds_ext with (fun k => counter k e).
  - intros k. exact (K name e k I).
  - apply deeds_shown.
Qed.

Theorem flag_events_debug : forall e, shows_deeds (fun k => counter k e) (debug_flag_events e).
Proof. exact deeds_shown. Qed.
Theorem print_debug : forall to_ascii p, ascii (to_ascii (pr_content p)) ->
  shows_print (pr_id p) (to_ascii (pr_content p)) (debug_print to_ascii p).
Proof. exact print_shown. Qed.
Theorem client_debug : forall c, ascii_client c -> shows_client c (debug_client c).
Proof. exact client_shown. Qed.
Theorem player_debug : forall p, ascii_player p -> shows_player p (debug_player p).
Proof. exact player_shown. Qed.
Theorem team_debug : forall t, ascii_team t -> shows_team t (debug_team t).
Proof. exact team_shown. Qed.
Theorem server_debug : forall s, ascii_server s -> shows_server s (debug_server s).
Proof. exact server_shown. Qed.

(** Different values have different texts. *)
Theorem flag_events_legible : forall n m t, shows_deeds n t -> shows_deeds m t -> forall k, n k = m k.
Proof. exact deeds_parts. Qed.
Theorem print_legible : forall i j s s' t, shows_print i s t -> shows_print j s' t -> i = j /\ s = s'.
Proof. exact print_parts. Qed.
Theorem client_legible : forall a b t, shows_client a t -> shows_client b t -> a = b.
Proof. exact (shown_once _ _ client_parts). Qed.
Theorem player_legible : forall a b t, shows_player a t -> shows_player b t -> a = b.
Proof. exact (shown_once _ _ player_parts). Qed.
Theorem team_legible : forall a b t, shows_team a t -> shows_team b t -> a = b.
Proof. exact (shown_once _ _ team_parts). Qed.
Theorem server_legible : forall a b t, shows_server a t -> shows_server b t -> a = b.
Proof. exact (shown_once _ _ server_parts). Qed.

(** and each value has one text *)
Theorem shown_one_way :
  (forall n t u, shows_deeds n t -> shows_deeds n u -> t = u) /\
  (forall i s t u, shows_print i s t -> shows_print i s u -> t = u) /\
  (forall c t u, shows_client c t -> shows_client c u -> t = u) /\
  (forall p t u, shows_player p t -> shows_player p u -> t = u) /\
  (forall x t u, shows_team x t -> shows_team x u -> t = u) /\
  (forall s t u, shows_server s t -> shows_server s u -> t = u).
Proof. exact shown_one_way_proof. Qed.

Theorem quoted_printable : forall s t, shows_text s t -> Forall (fun b => 32 <= n_of b < 127) t.
Proof. exact text_printable. Qed.

Example shown_flags : exists e, flag_events_per_player_name (sample true) (encode flag_demo) =
    Ret [(lit "anna", e); (lit "bert", mkPfe 0 0 0 1 0 0 0)] /\
  debug_flag_events e = lit "PlayerFlagEvents { captures: 0, pickups: 2, returns: 0, carrier_frags: 0, defends: 1, carrier_defends: 0, carrier_defends_vs_aggressive: 0 }".
Proof. exists (mkPfe 0 2 0 0 1 0 0). split; vm_compute; reflexivity. Qed.

Example shown_print :
  debug_print (fun s => s) (mkPrint PiMedium [x61; x22; x5c; x00; x0a; x1b; x7f; x05]) =
    lit "Print { id: Medium, content: ""a\""\\\0\n\u{1b}\u{7f}\u{5}"" }" /\
  ascii [x61; x22; x5c; x00; x0a; x1b; x7f; x05].
Proof. split; [vm_compute; reflexivity | repeat constructor]. Qed.

Definition shown_team_value : Team := mkTeam (lit "red") (4, 13) (-3) 52
  [ mkPlayer (lit "anna") (lit "red") (4, 13) (-10) 26 false (Some (lit "an")) None;
    mkPlayer (lit "b,c") (lit "red") (4, 13) 7 26 true None None ].
Example shown_team : ascii_team shown_team_value /\
  debug_team shown_team_value = lit "Team { name: ""red"", color: [4, 13], frags: -3, ping: 52, players: [Player { name: ""anna"", team: ""red"", color: [4, 13], frags: -10, ping: 26, is_bot: false, auth_username: Some(""an""), auth_cc: None }, Player { name: ""b,c"", team: ""red"", color: [4, 13], frags: 7, ping: 26, is_bot: true, auth_username: None, auth_cc: None }] }".
Proof.
  split; [| vm_compute; reflexivity]. split; [repeat constructor |]. constructor; [| constructor; [| constructor]].
  - split; [repeat constructor |]. split; [repeat constructor |]. split; intros s H; inversion H. repeat constructor.
  - split; [repeat constructor |]. split; [repeat constructor |]. split; intros s H; inversion H.
Qed.

Print Assumptions flags_shown.
Print Assumptions flag_events_debug.
Print Assumptions print_debug.
Print Assumptions client_debug.
Print Assumptions player_debug.
Print Assumptions team_debug.
Print Assumptions server_debug.
Print Assumptions flag_events_legible.
Print Assumptions print_legible.
Print Assumptions client_legible.
Print Assumptions player_legible.
Print Assumptions team_legible.
Print Assumptions server_legible.
Print Assumptions shown_one_way.
Print Assumptions quoted_printable.
