(** Demos put together, rearranged and stripped to their bodies; sums: C53, C54, C55, C56, C57. *)
From Coq Require Import Permutation.
From Verif.Model Require Import Base Env Prot Message Prints Clients FragEvent Frags Flags Ping Players.
From Verif.Spec Require Import Occ Mvd Messages Teams Obituary Score Flags Pings Join.
From Verif.Proofs Require Import BaseFacts ObituaryFacts JoinFacts TeamFacts.
From Verif.Properties Require Import Sample Scores Flags Pings Teams.

(** C53: one demo directly behind another *)
Theorem frags_joined : forall E fs gs, wf fs -> wf gs -> len (encode fs) + len (encode gs) < 2147483648 ->
  all_named E fs -> all_named E gs ->
  exists a b c, frags_per_player_name E (encode fs) = Ret a /\ frags_per_player_name E (encode gs) = Ret b /\
    frags_per_player_name E (encode fs ++ encode gs) = Ret c /\ scores_added a b c.
Proof. exact frags_join_proof. Qed.

Theorem flags_joined : forall E fs gs a b, wf fs -> wf gs ->
  flag_events_per_player_name E (encode fs) = Ret a -> flag_events_per_player_name E (encode gs) = Ret b ->
  (checked E = false \/ flags_fit a b ->
     exists c, flag_events_per_player_name E (encode fs ++ encode gs) = Ret c /\ flags_added a b c) /\
  (checked E = true -> ~ flags_fit a b ->
     flag_events_per_player_name E (encode fs ++ encode gs) = Panic POverflow).
Proof. exact flags_join_proof. Qed.

Theorem pings_joined : forall E fs gs, wf fs -> wf gs ->
  (8 <= len (ping_frames fs) -> ping_per_player_number E (encode fs ++ encode gs) = ping_per_player_number E (encode fs)) /\
  (ping_frames fs = [] -> ping_per_player_number E (encode fs ++ encode gs) = ping_per_player_number E (encode gs)).
Proof. exact pings_join_proof. Qed.

Definition first_half : list frame :=
  [ frame_all x01 (say x01 "anna rides carl's rocket"); frame_all x02 (say x01 "carl suicides");
    frame_all x03 (say_line x02 "anna defends the ÂÌÕÅ flag") ].
Definition second_half_demo : list frame :=
  [ frame_all x01 (say x01 "bert rides carl's rocket"); frame_all x02 (say x01 "dora cratered");
    frame_all x03 (say_line x02 "anna defends the ÂÌÕÅ flag"); frame_all x03 (say_line x02 "bert defends the ÂÌÕÅ flag") ].

Ltac named := intros m s t v I T R; apply trimmed_iff in T; subst t; apply reads_iff in R;
  vm_compute in I; repeat (destruct I as [I | I]; [injection I as <- <-; vm_compute in R; discriminate R |]); exact I.

Example joined_example : all_named (sample true) first_half /\ all_named (sample true) second_half_demo /\
  frags_per_player_name (sample true) (encode first_half) = Ret [(lit "carl", (-1)%Z)] /\
  frags_per_player_name (sample true) (encode second_half_demo) = Ret [(lit "carl", 1%Z); (lit "dora", (-1)%Z)] /\
  frags_per_player_name (sample true) (encode first_half ++ encode second_half_demo) =
    Ret [(lit "carl", 0%Z); (lit "dora", (-1)%Z)] /\
  flag_events_per_player_name (sample true) (encode first_half ++ encode second_half_demo) =
    Ret [(lit "anna", mkPfe 0 0 0 0 2 0 0); (lit "bert", mkPfe 0 0 0 0 1 0 0)].
Proof. split; [named |]. split; [named |]. repeat split; vm_compute; reflexivity. Qed.

(** An anonymous team kill at the end of the first demo can be charged by a score update at the
    start of the second. *)
Theorem frags_joined_refuted : exists fs gs, wf fs /\ wf gs /\
  frags_per_player_name (sample true) (encode fs) = Ret [] /\
  frags_per_player_name (sample true) (encode gs) = Ret [] /\
  frags_per_player_name (sample true) (encode fs ++ encode gs) = Ret [(lit "carl", (-1)%Z)].
Proof.
  exists [clients_frame; frame_all x01 (say x01 "dora was telefragged by her teammate")], [frame_all x01 (update x02)].
  split; [repeat constructor |]. split; [repeat constructor |]. split; [vm_compute; reflexivity |]. split; vm_compute; reflexivity.
Qed.

(** C54: the order of the frames does not matter to the tables. *)
Theorem frags_any_order : forall E fs gs, wf fs -> Permutation fs gs -> len (encode fs) < 2147483648 -> all_named E fs ->
  exists a b, frags_per_player_name E (encode fs) = Ret a /\ frags_per_player_name E (encode gs) = Ret b /\ same_rows a b.
Proof. exact frags_perm_proof. Qed.

Theorem flags_any_order : forall E fs gs, wf fs -> Permutation fs gs ->
  (exists a b, flag_events_per_player_name E (encode fs) = Ret a /\
     flag_events_per_player_name E (encode gs) = Ret b /\ same_rows a b) \/
  (flag_events_per_player_name E (encode fs) = Panic POverflow /\
   flag_events_per_player_name E (encode gs) = Panic POverflow).
Proof. exact flags_perm_proof. Qed.

Example any_order_example :
  Permutation (first_half ++ second_half_demo) (second_half_demo ++ first_half) /\
  frags_per_player_name (sample true) (encode (first_half ++ second_half_demo)) = Ret [(lit "carl", 0%Z); (lit "dora", (-1)%Z)] /\
  frags_per_player_name (sample true) (encode (rev (first_half ++ second_half_demo))) = Ret [(lit "dora", (-1)%Z); (lit "carl", 0%Z)] /\
  flag_events_per_player_name (sample true) (encode (rev (first_half ++ second_half_demo))) =
    Ret [(lit "bert", mkPfe 0 0 0 0 1 0 0); (lit "anna", mkPfe 0 0 0 0 2 0 0)].
Proof. split; [apply Permutation_app_comm |]. repeat split; vm_compute; reflexivity. Qed.

(** Anonymous team kills depend on the order. *)
Theorem frags_any_order_refuted : exists fs gs, wf fs /\ Permutation fs gs /\
  frags_per_player_name (sample true) (encode fs) = Ret [(lit "carl", (-1)%Z)] /\
  frags_per_player_name (sample true) (encode gs) = Ret [].
Proof.
  exists [clients_frame; frame_all x01 (say x01 "dora was telefragged by her teammate"); frame_all x01 (update x02)].
  exists [clients_frame; frame_all x01 (update x02); frame_all x01 (say x01 "dora was telefragged by her teammate")].
  split; [repeat constructor |]. split; [apply perm_skip, perm_swap |]. split; vm_compute; reflexivity.
Qed.

(** C55: times, types, masks and frames without a body do not matter. *)
Theorem bodies_only : forall E fs gs, wf fs -> wf gs -> bodies fs = bodies gs ->
  prints E (encode fs) = prints E (encode gs) /\
  flag_events_per_player_name E (encode fs) = flag_events_per_player_name E (encode gs) /\
  ping_per_player_number E (encode fs) = ping_per_player_number E (encode gs) /\
  (all_named E fs \/ clients E (encode fs) = clients E (encode gs) ->
   frags_per_player_name E (encode fs) = frags_per_player_name E (encode gs)).
Proof. exact bodies_only_proof. Qed.

Definition other_half : list frame :=
  [ mkFrame x00 x00 [] [];
    mkFrame x09 x03 [x01; x02; x03; x04] (say x01 "anna rides carl's rocket"); mkFrame x07 x07 [] [];
    mkFrame x00 x0c [] (say x01 "carl suicides");
    mkFrame xff x01 [] (say_line x02 "anna defends the ÂÌÕÅ flag"); frame_all x01 [] ].
Example bodies_only_example : wf other_half /\ bodies other_half = bodies first_half /\ encode other_half <> encode first_half /\
  prints (sample true) (encode other_half) = Ret [mkPrint PiMedium (lit "anna rides carl's rocket");
    mkPrint PiMedium (lit "carl suicides"); mkPrint PiHigh (line "anna defends the ÂÌÕÅ flag")].
Proof.
  split; [repeat constructor |]. split; [reflexivity |]. split; [intros X; vm_compute in X; discriminate X |]. vm_compute. reflexivity.
Qed.

(** C56: sums *)
Theorem frags_sum : forall E fs ws, wf fs -> len (encode fs) < 2147483648 -> all_named E fs ->
  Forall2 (worth_of E) (obituaries fs) ws ->
  exists tbl, frags_per_player_name E (encode fs) = Ret tbl /\ sum_all (map snd tbl) = sum_all ws.
Proof. exact frags_sum_proof. Qed.

Theorem frags_bounds : forall E fs rest r tbl n v, wf fs -> stops (len (encode fs ++ rest)) rest ->
  len (encode fs ++ rest) < 2147483648 -> clients E (encode fs ++ rest) = Ret r ->
  frags_per_player_name E (encode fs ++ rest) = Ret tbl -> In (n, v) tbl ->
  (- 2 * Z.of_N (len (obituaries fs)) <= v <= Z.of_N (len (obituaries fs)))%Z.
Proof. exact frags_bounds_proof. Qed.

Theorem teams_sum : forall E ps, iterates (teams_order E) -> each_iterates (colors_order E) -> sums_fit ps ->
  exists ts, teams_from_players E ps = Ret ts /\ sum_all (map t_frags ts) = sum_all (map p_frags ps).
Proof.
  intros E ps T C S. destruct (teams_proof E ps T C S) as [ts [R O]]. exists ts. split; [exact R |].
  eapply teams_sum_proof. exact O.
Qed.

Example frags_sum_example : Forall2 (worth_of (sample true)) (obituaries first_half) [1%Z; (-2)%Z] /\
  sum_all (map snd [(lit "carl", (-1)%Z)]) = sum_all [1%Z; (-2)%Z] /\ len (obituaries first_half) = 2.
Proof.
  split; [| split; reflexivity].
  constructor; [| constructor; [| constructor]].
  - exists (lit "anna rides carl's rocket"). split; [apply trimmed_iff; vm_compute; reflexivity |]. left.
    exists (Frag (lit "carl") (lit "anna")). split; [apply reads_iff; vm_compute; reflexivity | reflexivity].
  - exists (lit "carl suicides"). split; [apply trimmed_iff; vm_compute; reflexivity |]. left.
    exists (Suicide (lit "carl")). split; [apply reads_iff; vm_compute; reflexivity | reflexivity].
Qed.

(** C57: means lie between the extremes. *)
Theorem ping_between : forall E fs rest tbl p a lo hi, wf fs -> sampling_ends fs rest ->
  (forall p, In p (map fst (sampled fs)) -> sum (pings_of p (sampled fs)) < 65536) ->
  ping_per_player_number E (encode fs ++ rest) = Ret (Ok tbl) -> In (p, a) tbl ->
  (forall x, In x (pings_of p (sampled fs)) -> lo <= x <= hi) -> lo <= a <= hi.
Proof.
  intros E fs rest tbl p a lo hi W R B F I H. destruct (sampled fs) as [| x l] eqn:S.
  - rewrite (pings_none E fs rest W R S) in F. discriminate.
  - destruct (pings_average E fs rest W R) as [t [F' A]]; [congruence | rewrite S; exact B |].
    assert (t = tbl) by congruence. subst t. rewrite S in A. eapply averages_between_proof; eassumption.
Qed.

Theorem team_ping_between : forall E ps ts t lo hi, iterates (teams_order E) -> each_iterates (colors_order E) -> sums_fit ps ->
  teams_from_players E ps = Ret ts -> In t ts ->
  total_ping (t_players t) + len (t_players t) <= 8388608 ->
  (forall p, In p (t_players t) -> lo <= p_ping p <= hi) -> lo <= t_ping t <= hi.
Proof.
  intros E ps ts t lo hi T C S F I. destruct (teams_proof E ps T C S) as [ts' [R O]].
  assert (ts' = ts) by congruence. subst ts'. destruct O as [_ _ EA _]. rewrite Forall_forall in EA.
  eapply team_ping_between_proof. exact (EA t I).
Qed.

(** Without the bound on the sum of the pings the wrapped mean can lie below all samples. *)
Theorem ping_between_refuted : exists fs tbl p a, wf fs /\ sampling_ends fs [] /\
  ping_per_player_number (sample false) (encode fs) = Ret (Ok tbl) /\ In (p, a) tbl /\
  (forall x, In x (pings_of p (sampled fs)) -> 40000 <= x) /\ a < 40000.
Proof.
  exists (repeat (ping_frame [mkPingUpdate x00 40000 x00]) 2), [(0, 7232)], 0, 7232.
  split; [repeat constructor |]. split; [left; exact I |]. split; [vm_compute; reflexivity |].
  split; [left; reflexivity |]. split; [| reflexivity].
  intros x I. vm_compute in I. repeat (destruct I as [<- | I]; [discriminate |]). contradiction.
Qed.

Definition eight_pings : list frame := repeat (ping_frame [mkPingUpdate x00 30 x00; mkPingUpdate x03 41 x00]) 8.
Definition late_pings : list frame := [ping_frame [mkPingUpdate x00 90 x00]; ping_frame [mkPingUpdate x00 95 x00]].
Example pings_joined_example : len (ping_frames eight_pings) = 8 /\ ping_frames first_half = [] /\
  ping_per_player_number (sample true) (encode eight_pings ++ encode late_pings) = Ret (Ok [(0, 30); (3, 41)]) /\
  ping_per_player_number (sample true) (encode first_half ++ encode late_pings) = Ret (Ok [(0, 92)]).
Proof. repeat split; vm_compute; reflexivity. Qed.

Example crew_sum : exists ts, teams_from_players (sample true) crew = Ret ts /\
  sum_all (map t_frags ts) = sum_all (map p_frags crew) /\ sum_all (map p_frags crew) <> 0%Z /\
  exists t, In t ts /\ len (t_players t) = 2.
Proof.
  destruct crew_teams as [a [b [c [F _]]]]. exists [a; b; c]. split; [exact F |].
  vm_compute in F. injection F as <- <- <-. split; [reflexivity |]. split; [discriminate |].
  eexists. split; [left; reflexivity | reflexivity].
Qed.

Print Assumptions frags_joined.
Print Assumptions flags_joined.
Print Assumptions pings_joined.
Print Assumptions frags_joined_refuted.
Print Assumptions frags_any_order.
Print Assumptions flags_any_order.
Print Assumptions frags_any_order_refuted.
Print Assumptions bodies_only.
Print Assumptions frags_sum.
Print Assumptions frags_bounds.
Print Assumptions teams_sum.
Print Assumptions ping_between.
Print Assumptions team_ping_between.
Print Assumptions ping_between_refuted.
