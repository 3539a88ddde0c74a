(** C106: the order of the players depends on names and scores only. *)
From Coq Require Import Permutation.
From Verif.Model Require Import Base Env Clientinfo Clients Frags Flags Ping Ktxstats Players.
From Verif.Spec Require Import Mvd Pings Order Clientlist Teams Standing.
From Verif.Proofs Require Import StandingFacts.
From Verif.Properties Require Import Sample Pings Scores Players.
Open Scope N_scope.

(** On any bytes, each name has one row in the table of scores and one in the table of flag events. *)
Theorem score_rows_once : forall E data t, frags_per_player_name E data = Ret t -> NoDup (map fst t).
Proof. exact score_rows_once_proof. Qed.

Theorem flag_rows_once : forall E data t, flag_events_per_player_name E data = Ret t -> NoDup (map fst t).
Proof. exact flag_rows_once_proof. Qed.

(** In [players_demo] there are more obituaries than rows. *)
Example players_demo_rows : exists t, frags_per_player_name (sample true) players_demo = Ret t /\ length t = 3%nat /\
  exists fs, print_frames (sample true) players_demo = Ret fs /\ (3 < length fs)%nat.
Proof.
  eexists. split; [vm_compute; reflexivity |]. split; [reflexivity |]. eexists. split; [vm_compute; reflexivity |].
  apply PeanoNat.Nat.ltb_lt. vm_compute. reflexivity.
Qed.

(** Statistics with the same names and scores; teams, colours, pings and logins may differ, and the order *)
Theorem stats_standing : forall E d d' s s', ktxstats_v3 E d = Ret (Ok s) -> ktxstats_v3 E d' = Ret (Ok s') ->
  same_standing (ks_players s) (ks_players s') ->
  exists ps qs, players E d = Ret (Ok ps) /\ players E d' = Ret (Ok qs) /\ same_table ps qs.
Proof. exact stats_standing_proof. Qed.

Definition other_stats : list KtxPlayer := [stats_person "c" "cc" 1 7 90; stats_person "a" "" 13 (-1) 0; stats_person "b" "" 4 7 33].

Example other_stats_standing : same_standing (ks_players stats_value) other_stats.
Proof.
  unfold same_standing. cbn. eapply perm_trans; [apply perm_skip, perm_swap |]. apply perm_swap.
Qed.

Example other_stats_table : exists ps qs, players_from_ktxstats stats_value = Ok ps /\
  players_from_ktxstats (mkKtxstatsV3 [] [] 0 other_stats) = Ok qs /\ map p_name ps = [lit "b"; lit "c"; lit "a"] /\
  map p_ping ps = [12; 0; 10] /\ map p_ping qs = [33; 90; 0] /\ same_table ps qs.
Proof.
  do 2 eexists. split; [vm_compute; reflexivity |]. split; [vm_compute; reflexivity |]. repeat split.
Qed.

(** Players with the same name and score are told apart by the order of the statistics only. *)
Theorem standing_rows_refuted : exists a b ps qs, same_standing [a; b] [b; a] /\
  players_from_ktxstats (mkKtxstatsV3 [] [] 0 [a; b]) = Ok ps /\ players_from_ktxstats (mkKtxstatsV3 [] [] 0 [b; a]) = Ok qs /\
  same_table ps qs /\ ps <> qs.
Proof.
  exists (stats_person "a" "" 4 7 10), (stats_person "a" "" 4 7 20). do 2 eexists. split; [apply perm_swap |].
  split; [vm_compute; reflexivity |]. split; [vm_compute; reflexivity |]. split; [reflexivity | discriminate].
Qed.

(** Demos with the same names and scores *)
Theorem parsed_standing : forall E d d' l l' cs cs' pg pg' t t', iterates (players_order E) ->
  clientinfo_strings E d = Ret (Ok l) -> len l <= 256 -> clientinfo_strings E d' = Ret (Ok l') -> len l' <= 256 ->
  player_clients E d = Ret (Ok cs) -> player_clients E d' = Ret (Ok cs') ->
  ping_per_player_number E d = Ret (Ok pg) -> ping_per_player_number E d' = Ret (Ok pg') ->
  frags_per_player_name E d = Ret t -> frags_per_player_name E d' = Ret t' -> same_scorers cs cs' t t' ->
  exists ps qs, players_from_parsing E d = Ret (Ok ps) /\ players_from_parsing E d' = Ret (Ok qs) /\ same_table ps qs.
Proof. exact parsed_standing_proof. Qed.

(** [players_demo] with other pings *)
Definition slow_demo : bytes := encode (score_demo ++ [ping_frame [mkPingUpdate x01 300 x00; mkPingUpdate x02 1 x00]]).

Example slow_demo_scorers : exists cs t pg pg', player_clients (sample true) players_demo = Ret (Ok cs) /\
  player_clients (sample true) slow_demo = Ret (Ok cs) /\ frags_per_player_name (sample true) players_demo = Ret t /\
  frags_per_player_name (sample true) slow_demo = Ret t /\ same_scorers cs cs t t /\
  ping_per_player_number (sample true) players_demo = Ret (Ok pg) /\ ping_per_player_number (sample true) slow_demo = Ret (Ok pg') /\ pg <> pg'.
Proof.
  do 4 eexists. split; [vm_compute; reflexivity |]. split; [vm_compute; reflexivity |]. split; [vm_compute; reflexivity |].
  split; [vm_compute; reflexivity |]. split; [split; [apply Permutation_refl | reflexivity] |].
  split; [vm_compute; reflexivity |]. split; [vm_compute; reflexivity | discriminate].
Qed.

Example slow_demo_table : exists ps qs, players_from_parsing (sample true) players_demo = Ret (Ok ps) /\
  players_from_parsing (sample true) slow_demo = Ret (Ok qs) /\ map p_ping ps = [38; 12; 26; 0] /\ map p_ping qs = [1; 0; 0; 300] /\ same_table ps qs.
Proof. do 2 eexists. split; [vm_compute; reflexivity |]. split; [vm_compute; reflexivity |]. repeat split. Qed.

Print Assumptions score_rows_once.
Print Assumptions flag_rows_once.
Print Assumptions stats_standing.
Print Assumptions standing_rows_refuted.
Print Assumptions parsed_standing.
