(** C31 to C34: teams. *)
From Coq Require Import Lia Permutation Sorted.
From Verif.Model Require Import Base Env Float Players.
From Verif.Spec Require Import Order Clientlist Teams.
From Verif.Proofs Require Import BaseFacts OrderFacts TeamFacts.
From Verif.Properties Require Import Sample Players.

(** C31 to C33 *)
Theorem teams_exact : forall E ps, iterates (teams_order E) -> each_iterates (colors_order E) -> sums_fit ps ->
  exists ts, teams_from_players E ps = Ret ts /\ teams_of (to_lowercase E) ps ts.
Proof. exact teams_proof. Qed.

Theorem teams_exact_small : forall E ps, iterates (teams_order E) -> each_iterates (colors_order E) ->
  len ps < 256 -> Forall (fun p => (-8000000 <= p_frags p <= 8000000)%Z /\ p_ping p <= 16000000) ps ->
  exists ts, teams_from_players E ps = Ret ts /\ teams_of (to_lowercase E) ps ts.
Proof. intros E ps T C L F. apply teams_proof; [exact T | exact C | apply sums_fit_small; assumption]. Qed.

Theorem each_player_in_one_team : forall lower ps ts, teams_of lower ps ts ->
  Permutation (concat (map t_players ts)) ps.
Proof. exact teams_partition. Qed.

Definition crew : list Player :=
  [ person "a" "red" (4, 4) 10 25; person "b" "Blue" (13, 13) 9 20; person "c" "red" (4, 4) 8 26;
    person "d" "red" (13, 13) 8 30; person "e" "Blue" (1, 13) (-2) 21; person "f" "green" (0, 0) 0 0 ].

Example crew_fits : sums_fit crew.
Proof. apply sums_fit_small; [reflexivity |]. repeat (constructor; [cbn; lia |]); constructor. Qed.

Example crew_teams : exists a b c, teams_from_players (sample true) crew = Ret [a; b; c] /\
  (t_name a, t_color a, t_frags a, t_ping a, map p_name (t_players a)) =
    (lit "Blue", (13, 13), 7%Z, 21, [lit "b"; lit "e"]) /\
  (t_name b, t_color b, t_frags b, t_ping b, map p_name (t_players b)) =
    (lit "green", (0, 0), 0%Z, 0, [lit "f"]) /\
  (t_name c, t_color c, t_frags c, t_ping c, map p_name (t_players c)) =
    (lit "red", (4, 4), 26%Z, 27, [lit "a"; lit "c"; lit "d"]).
Proof. do 3 eexists. split; [vm_compute; reflexivity |]. repeat split. Qed.

(** Without [sums_fit]: sums of scores and of pings overflow. *)
Theorem teams_exact_refuted :
  (exists ps, teams_from_players (sample true) ps = Panic POverflow /\
     exists t, teams_from_players (sample false) ps = Ret [t] /\ t_frags t = (-2147483648)%Z) /\
  (exists ps, teams_from_players (sample true) ps = Panic POverflow /\
     exists t, teams_from_players (sample false) ps = Ret [t] /\ t_ping t = 0).
Proof.
  split.
  - exists [person "a" "red" (4, 4) 2147483647 0; person "b" "red" (4, 4) 1 0].
    split; [vm_compute; reflexivity |]. eexists. split; [vm_compute; reflexivity | reflexivity].
  - exists [person "a" "red" (4, 4) 0 4294967295; person "b" "red" (4, 4) 0 1].
    split; [vm_compute; reflexivity |]. eexists. split; [vm_compute; reflexivity | reflexivity].
Qed.

(** C32 without the bound: the sum is not exact as a 32-bit float. *)
Theorem team_ping_refuted : exists p t, teams_from_players (sample true) [p] = Ret [t] /\
  p_ping p = 16777217 /\ t_ping t = 16777216.
Proof.
  exists (person "a" "red" (4, 4) 0 16777217). eexists. split; [vm_compute; reflexivity |]. split; reflexivity.
Qed.

(** C33 without the bound: 256 players wear one colour, one player another. *)
Theorem team_color_refuted : exists ps, wear (4, 4) ps 256 /\ wear (13, 13) ps 1 /\
  teams_from_players (sample true) ps = Panic POverflow /\
  exists t, teams_from_players (sample false) ps = Ret [t] /\ t_color t = (13, 13).
Proof.
  exists (repeat (person "a" "red" (4, 4) 0 0) 256 ++ [person "b" "red" (13, 13) 0 0]).
  split; [refine (eq_ind _ (wear (4, 4) _) (wear_worn (4, 4) _) 256 _); vm_compute; reflexivity |].
  split; [refine (eq_ind _ (wear (13, 13) _) (wear_worn (13, 13) _) 1 _); vm_compute; reflexivity |].
  split; [vm_compute; reflexivity |]. eexists. split; [vm_compute; reflexivity | reflexivity].
Qed.

(** C34 *)
Theorem teams_deterministic : forall E po to co ps, iterates (teams_order E) -> each_iterates (colors_order E) ->
  iterates to -> each_iterates co -> sums_fit ps ->
  exists ts ts', teams_from_players E ps = Ret ts /\ teams_from_players (reordered E po to co) ps = Ret ts' /\
    map (fun t => to_lowercase E (t_name t)) ts = map (fun t => to_lowercase E (t_name t)) ts' /\
    ((forall p q, In p ps -> In q ps -> to_lowercase E (p_team p) = to_lowercase E (p_team q) -> p_team p = p_team q) ->
     clear_colors ps -> ts = ts').
Proof. exact teams_unordered. Qed.

(** Team names that differ only in case, and colours worn equally often: in two runs, and in two
    teams of one run. *)
Theorem teams_deterministic_refuted :
  (exists ps to l l', iterates to /\ teams_from_players (sample true) ps = Ret l /\
     teams_from_players (reordered (sample true) (fun l => l) to (fun _ l => l)) ps = Ret l' /\
     map t_name l = [lit "Red"; lit "red"] /\ map t_name l' = [lit "red"; lit "Red"]) /\
  (exists ps co t t', each_iterates co /\ teams_from_players (sample true) ps = Ret [t] /\
     teams_from_players (reordered (sample true) (fun l => l) (fun l => l) co) ps = Ret [t'] /\
     t_color t = (4, 4) /\ t_color t' = (13, 13)) /\
  (exists ps co t t', each_iterates co /\
     teams_from_players (reordered (sample true) (fun l => l) (fun l => l) co) ps = Ret [t; t'] /\
     map p_color (t_players t) = map p_color (t_players t') /\
     t_color t = (13, 13) /\ t_color t' = (4, 4)).
Proof.
  split; [| split].
  - exists [person "a" "Red" (4, 4) 0 0; person "b" "red" (4, 4) 0 0], (@rev _). do 2 eexists.
    split; [intros l; apply Permutation_sym, Permutation_rev |].
    split; [vm_compute; reflexivity |]. split; [vm_compute; reflexivity |]. split; reflexivity.
  - exists [person "a" "red" (4, 4) 0 0; person "b" "red" (13, 13) 0 0; person "c" "red" (13, 13) 0 0; person "d" "red" (4, 4) 0 0],
      (fun _ => @rev _). do 2 eexists.
    split; [intros _ l; apply Permutation_sym, Permutation_rev |].
    split; [vm_compute; reflexivity |]. split; [vm_compute; reflexivity |]. split; reflexivity.
  - exists (concat (map (fun team => [person "a" team (4, 4) 0 0; person "b" team (13, 13) 0 0; person "c" team (13, 13) 0 0;
      person "d" team (4, 4) 0 0]) ["blue"; "red"])%string),
      (fun team l => if beq team (lit "blue") then rev l else l). do 2 eexists.
    split; [intros team l; destruct (beq team (lit "blue")); [apply Permutation_sym, Permutation_rev | reflexivity] |].
    split; [vm_compute; reflexivity |]. split; [reflexivity |]. split; reflexivity.
Qed.

Example crew_deterministic :
  teams_from_players (reordered (sample true) (fun l => l) (@rev _) (fun _ => @rev _)) crew = teams_from_players (sample true) crew.
Proof. vm_compute. reflexivity. Qed.

Print Assumptions teams_exact.
Print Assumptions teams_exact_small.
Print Assumptions each_player_in_one_team.
Print Assumptions teams_exact_refuted.
Print Assumptions team_ping_refuted.
Print Assumptions team_color_refuted.
Print Assumptions teams_deterministic.
Print Assumptions teams_deterministic_refuted.
