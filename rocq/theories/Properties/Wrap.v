(** C68: results whatever the sizes of the sums. *)
From Coq Require Import Lia Reals Lra Permutation.
From Flocq Require Import Core.Core.
From Verif.Model Require Import Base Env Clients Frags Ping Players.
From Verif.Spec Require Import Mvd Messages Obituary Order Clientlist Teams Times Pings Score Wrap.
From Verif.Proofs Require Import BaseFacts TeamFacts WrapFacts.
From Verif.Properties Require Import Sample Pings Scores Players.
Open Scope N_scope.

Theorem pings_any : forall E fs rest, wf fs -> sampling_ends fs rest -> sampled fs <> [] ->
  (checked E = true /\ (exists p, 65536 <= sum (pings_of p (sampled fs))) /\
   ping_per_player_number E (encode fs ++ rest) = Panic POverflow) \/
  ((checked E = true -> forall p, sum (pings_of p (sampled fs)) < 65536) /\
   exists tbl, ping_per_player_number E (encode fs ++ rest) = Ret (Ok tbl) /\ averages16 tbl (sampled fs)).
Proof. exact pings_any_proof. Qed.

Theorem scores_any : forall E fs rest r per, wf fs -> stops (len (encode fs ++ rest)) rest ->
  clients E (encode fs ++ rest) = Ret r ->
  Forall2 (fun '(m, s) l => scored (match r with Ok cs => cs | Err _ => [] end) (nearby_updates m s) (to_unicode E (m_text m)) l)
    (obituaries fs) per ->
  (checked E = true /\ score_leaves (concat per) /\ frags_per_player_name E (encode fs ++ rest) = Panic POverflow) \/
  ((checked E = true -> ~ score_leaves (concat per)) /\
   exists tbl, frags_per_player_name E (encode fs ++ rest) = Ret tbl /\ tabulates32 tbl (concat per)).
Proof. exact scores_any_proof. Qed.

Theorem teams_any : forall E ps, iterates (teams_order E) -> each_iterates (colors_order E) -> len ps < 9223372036854775808 ->
  (checked E = true /\ teams_leave ps /\ teams_from_players E ps = Panic POverflow) \/
  ((checked E = true -> ~ teams_leave ps) /\
   exists ts, teams_from_players E ps = Ret ts /\ teams_of32 (to_lowercase E) ps ts).
Proof. exact teams_any_proof. Qed.

Theorem mean_ping_close : forall s n a, s < 4294967296 -> 0 < n -> n < 9223372036854775808 -> mean_ping s n a ->
  let mean := (IZR (Z.of_N s) / IZR (Z.of_N n))%R in
  (Rabs (IZR (Z.of_N a) - mean) <= / 2 + mean / 4194304)%R.
Proof. exact mean_ping_close_proof. Qed.

(** Player 0 has a sum of 65536 + 4; player 3 is not affected. *)
Example pings_any_example :
  ping_per_player_number (sample false)
    (encode [ ping_frame [mkPingUpdate x00 65535 x00; mkPingUpdate x03 300 x02];
              ping_frame [mkPingUpdate x00 5 x00; mkPingUpdate x03 301 x02] ]) = Ret (Ok [(0, 2); (3, 300)]).
Proof. vm_compute. reflexivity. Qed.

(** 2^31 kills of one player are too many, one less is not. *)
Example score_leaves_example : score_leaves (repeat (lit "anna", 1%Z) (Z.to_nat 2147483648)) /\
  ~ score_leaves (repeat (lit "anna", 1%Z) (Z.to_nat 2147483647)).
Proof.
  split.
  - apply many_kills. rewrite Z2Nat.id; lia.
  - apply fewer_kills. rewrite Z2Nat.id; lia.
Qed.
Example scores_any_example :
  frags_per_player_name (sample true) players_demo = Ret [(lit "carl", 0%Z); (lit "bert", (-2)%Z); (lit "anna", (-1)%Z)].
Proof. vm_compute. reflexivity. Qed.

(** -2147483648 - 1, and sums that leave the range on the way but not in the end: a panic with
    checks, the exact sum without *)
Example teams_any_example : exists a b,
  teams_from_players (sample false)
    [ person "a" "red" (4, 4) (-2147483648) 4294967295; person "b" "red" (4, 4) (-1) 7;
      person "c" "blue" (13, 13) 2147483647 0; person "d" "blue" (13, 13) 3 0; person "e" "blue" (13, 13) (-5) 1 ] = Ret [a; b] /\
  (t_name a, t_frags a, t_ping a) = (lit "blue", 2147483645%Z, 0) /\
  (t_name b, t_frags b, t_ping b) = (lit "red", 2147483647%Z, 3) /\
  teams_from_players (sample true)
    [ person "c" "blue" (13, 13) 2147483647 0; person "d" "blue" (13, 13) 3 0; person "e" "blue" (13, 13) (-5) 1 ] = Panic POverflow.
Proof. do 2 eexists. split; [vm_compute; reflexivity |]. repeat split; vm_compute; reflexivity. Qed.

(** All colours are worn 256 times: none is counted, the first player's is taken. *)
Example colors_any_example : exists t,
  teams_from_players (sample false)
    (person "a" "red" (1, 2) 0 0 :: repeat (person "b" "red" (4, 4) 0 0) 256 ++ repeat (person "a" "red" (1, 2) 0 0) 255) = Ret [t] /\
  t_color t = (1, 2).
Proof. eexists. split; vm_compute; reflexivity. Qed.

(** A ping that is not a single-precision number *)
Example mean_ping_example : exists t, teams_from_players (sample true) [person "a" "red" (4, 4) 0 16777217] = Ret [t] /\ t_ping t = 16777216.
Proof. eexists. split; vm_compute; reflexivity. Qed.

Print Assumptions pings_any.
Print Assumptions scores_any.
Print Assumptions teams_any.
Print Assumptions mean_ping_close.
