(** C72: the order of the players *)
From Coq Require Import Permutation.
From Verif.Model Require Import Base Env Players.
From Verif.Spec Require Import Order Clientlist Teams Wrap Shuffles.
From Verif.Proofs Require Import BaseFacts TeamFacts ShuffleFacts.
From Verif.Properties Require Import Sample Players Teams.

(** The players of the statistics, in any order *)
Theorem stats_shuffled : forall s s', Permutation (ks_players s) (ks_players s') ->
  same_up_to_ties (Ret (players_from_ktxstats s)) (Ret (players_from_ktxstats s')).
Proof. exact stats_shuffled_proof. Qed.

(** Teams that keep their players: the same teams, in the same order if names differ by more
    than case *)
Theorem teams_regrouped : forall E ps ps' ts, iterates (teams_order E) -> same_teams ps ps' ->
  teams_from_players E ps = Ret ts ->
  exists ts', teams_from_players E ps' = Ret ts' /\ Permutation ts ts' /\ (apart (to_lowercase E) ps -> ts' = ts).
Proof.
  intros E ps ps' ts IT S T. apply (regrouped_proof E ps); [exact IT | | exact T]. intros n.
  destruct (proj1 (S n _) (ex_intro _ _ (group_splits ps n))) as [o H].
  exact (proj1 (splits_unique _ _ _ _ _ H _ _ (group_splits ps' n))).
Qed.

(** Grouping the players of the teams gives the teams again. *)
Theorem teams_stable : forall E ps ts, iterates (teams_order E) -> teams_from_players E ps = Ret ts ->
  exists ts', teams_from_players E (concat (map t_players ts)) = Ret ts' /\ Permutation ts ts' /\
    (apart (to_lowercase E) ps -> ts' = ts).
Proof. exact fixpoint_proof. Qed.

(** Players in any order, in any build: the same names, scores and pings, and the same colour if
    one is worn most in a team of three or more. *)
Theorem teams_shuffled : forall E E' ps ps' ts ts', iterates (teams_order E) -> each_iterates (colors_order E) ->
  iterates (teams_order E') -> each_iterates (colors_order E') -> to_lowercase E = to_lowercase E' ->
  len ps < 9223372036854775808 -> Permutation ps ps' ->
  teams_from_players E ps = Ret ts -> teams_from_players E' ps' = Ret ts' ->
  map (fun t => to_lowercase E (t_name t)) ts = map (fun t => to_lowercase E (t_name t)) ts' /\
  Permutation (map t_name ts) (map t_name ts') /\
  forall t t', In t ts -> In t' ts' -> t_name t = t_name t' ->
    t_frags t = t_frags t' /\ t_ping t = t_ping t' /\ Permutation (t_players t) (t_players t') /\
    ((3 <= length (t_players t))%nat -> (exists c, most_counted c (t_players t)) ->
     (forall c d, most_counted c (t_players t) -> most_counted d (t_players t) -> c = d) -> t_color t = t_color t').
Proof. exact shuffled_proof. Qed.

(** Two players: the first decides the colour.  With overflow checks the order can decide
    whether the program stops. *)
Theorem teams_shuffled_refuted :
  (exists ps ps' t t', Permutation ps ps' /\ teams_from_players (sample true) ps = Ret [t] /\
     teams_from_players (sample true) ps' = Ret [t'] /\ t_color t <> t_color t') /\
  (exists ps ps' t, Permutation ps ps' /\ teams_from_players (sample true) ps = Ret [t] /\
     teams_from_players (sample true) ps' = Panic POverflow).
Proof.
  split.
  - exists [person "a" "red" (4, 4) 3 20; person "b" "red" (13, 13) 2 20],
      [person "b" "red" (13, 13) 2 20; person "a" "red" (4, 4) 3 20]. do 2 eexists.
    split; [apply perm_swap |]. split; [vm_compute; reflexivity |]. split; [vm_compute; reflexivity | discriminate].
  - exists [person "a" "red" (4, 4) 2147483647 0; person "b" "red" (4, 4) (-3) 0; person "c" "red" (4, 4) 2 0],
      [person "a" "red" (4, 4) 2147483647 0; person "c" "red" (4, 4) 2 0; person "b" "red" (4, 4) (-3) 0]. eexists.
    split; [apply perm_skip, perm_swap |]. split; vm_compute; reflexivity.
Qed.

(** Names that differ only in case: the teams of the regrouped players come in another order. *)
Theorem teams_stable_refuted : exists E ps ts ts', iterates (teams_order E) /\ teams_from_players E ps = Ret ts /\
  teams_from_players E (concat (map t_players ts)) = Ret ts' /\ ts <> ts'.
Proof.
  exists (reordered (sample true) (fun l => l) (@rev _) (fun _ l => l)).
  exists [person "a" "Red" (4, 4) 0 0; person "b" "red" (4, 4) 0 0]. do 2 eexists.
  split; [intros l; apply Permutation_sym, Permutation_rev |].
  split; [vm_compute; reflexivity |]. split; [vm_compute; reflexivity | discriminate].
Qed.

Example shuffled_example :
  teams_from_players (sample true) (rev crew) <> teams_from_players (sample true) crew /\
  exists a b c, teams_from_players (sample true) (rev crew) = Ret [a; b; c] /\
  (t_name a, t_color a, t_frags a, t_ping a, map p_name (t_players a)) =
    (lit "Blue", (1, 13), 7%Z, 21, [lit "e"; lit "b"]) /\
  (t_name b, t_color b, t_frags b, t_ping b, map p_name (t_players b)) =
    (lit "green", (0, 0), 0%Z, 0, [lit "f"]) /\
  (t_name c, t_color c, t_frags c, t_ping c, map p_name (t_players c)) =
    (lit "red", (4, 4), 26%Z, 27, [lit "d"; lit "c"; lit "a"]).
Proof.
  split; [vm_compute; discriminate |]. do 3 eexists. split; [vm_compute; reflexivity |]. repeat split.
Qed.

Example stable_example : exists ts, teams_from_players (sample true) crew = Ret ts /\
  map p_name (concat (map t_players ts)) = map lit ["b"; "e"; "f"; "a"; "c"; "d"]%string /\
  teams_from_players (sample true) (concat (map t_players ts)) = Ret ts.
Proof. eexists. split; [vm_compute; reflexivity |]. split; vm_compute; reflexivity. Qed.

Print Assumptions stats_shuffled.
Print Assumptions teams_regrouped.
Print Assumptions teams_stable.
Print Assumptions teams_shuffled.
Print Assumptions teams_shuffled_refuted.
Print Assumptions teams_stable_refuted.
