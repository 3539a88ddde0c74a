(** C67: the lists of players, names and teams of a demo agree. *)
From Coq Require Import Lia Permutation.
From Verif.Model Require Import Base Env Clientinfo Clients Frags Ping Ktxstats Players.
From Verif.Spec Require Import Mvd Messages Texts Pings Order Clientlist Teams.
From Verif.Proofs Require Import BaseFacts AgreeFacts.
From Verif.Properties Require Import Sample Clients Pings Scores Players Teams.

Theorem lists_agree : forall E data l ps, (forall l, Permutation (unicode_sort E l) l) ->
  iterates (players_order E) -> clientinfo_strings E data = Ret (Ok l) -> len l <= 256 ->
  players_from_parsing E data = Ret (Ok ps) ->
  (exists names, player_names E data = Ret (Ok names) /\ Permutation names (map p_name ps)) /\
  (exists ts, team_names E data = Ret (Ok ts) /\ forall t, In t ts <-> In t (map p_team ps)) /\
  (exists b, has_human_players E data = Ret (Ok b) /\ (b = true <-> exists p, In p ps /\ p_is_bot p = false)) /\
  ((exists p, In p ps /\ p_is_bot p = true) -> has_bot_players E data = Ret (Ok true)).
Proof. exact lists_agree_proof. Qed.

(** Whether or not a sum overflows. *)
Theorem teams_divide : forall E ps ts, iterates (teams_order E) -> teams_from_players E ps = Ret ts ->
  NoDup (map t_name ts) /\ (forall n, In n (map t_name ts) <-> exists p, In p ps /\ p_team p = n) /\
  Forall (fun t => t_players t <> [] /\ exists others, splits (fun p => p_team p = t_name t) ps (t_players t) others) ts /\
  Permutation (concat (map t_players ts)) ps.
Proof. exact teams_divide_proof. Qed.

(** A demo that embeds stats: [players] takes the names from there, [player_names] does not. *)
Theorem lists_agree_stats_refuted : exists E data names ps,
  player_names E data = Ret (Ok names) /\ players E data = Ret (Ok ps) /\
  In (lit "anna") names /\ ~ In (lit "anna") (map p_name ps).
Proof.
  exists with_stats, (players_demo ++ encode [stats_frame 0 (lit "{""version"": 3}")]). do 2 eexists.
  split; [vm_compute; reflexivity |]. split; [vm_compute; reflexivity |].
  split; [left; vm_compute; reflexivity |]. vm_compute. intros H. repeat (destruct H as [H | H]; [discriminate |]). exact H.
Qed.

(** 257 clients: the first has the number of the last and is not listed as a player. *)
Definition crowd : bytes :=
  spawn_mark ++ run ((lit "x" ++ [x00], lit "\name\a") :: repeat ([], lit "\name\b") 256) (repeat x01 511).

Theorem lists_agree_refuted : exists data names ps,
  player_names (sample true) data = Ret (Ok names) /\ players_from_parsing (sample true) data = Ret (Ok ps) /\
  len names = 257 /\ len ps = 256 /\ In (lit "a") names /\ ~ In (lit "a") (map p_name ps).
Proof.
  exists (encode [ping_frame [mkPingUpdate x00 26 x00]] ++ crowd).
  eexists. eexists. split; [vm_compute; reflexivity |].
  split; [vm_compute; reflexivity |].
  split; [vm_compute; reflexivity |]. split; [vm_compute; reflexivity |].
  split; [left; vm_compute; reflexivity |].
  intros H. assert (existsb (beq (lit "a")) (map p_name ltac:(match type of H with In _ (map _ ?l) => exact l end)) = true) as X.
  { apply existsb_exists. exists (lit "a"). split; [exact H | reflexivity]. }
  vm_compute in X. discriminate.
Qed.

Example lists_agree_example : exists ps names ts,
  players_from_parsing (sample true) players_demo = Ret (Ok ps) /\
  player_names (sample true) players_demo = Ret (Ok names) /\ team_names (sample true) players_demo = Ret (Ok ts) /\
  map p_name ps = [lit "carl"; lit "dora"; lit "anna"; lit "bert"] /\
  names = [lit "anna"; lit "bert"; lit "carl"; lit "dora"] /\ ts = [lit "blue"; lit "red"] /\
  has_human_players (sample true) players_demo = Ret (Ok true).
Proof.
  do 3 eexists. split; [vm_compute; reflexivity |]. split; [vm_compute; reflexivity |]. split; [vm_compute; reflexivity |].
  repeat split; vm_compute; reflexivity.
Qed.

(** The sum of the scores of red wraps, the division does not change. *)
Example teams_divide_example : exists a b,
  teams_from_players (sample false)
    [ person "a" "red" (4, 4) 2147483647 0; person "b" "blue" (4, 4) 1 0; person "c" "red" (4, 4) 1 0 ] = Ret [a; b] /\
  (t_name a, map p_name (t_players a)) = (lit "blue", [lit "b"]) /\
  (t_name b, t_frags b, map p_name (t_players b)) = (lit "red", (-2147483648)%Z, [lit "a"; lit "c"]).
Proof. do 2 eexists. split; [vm_compute; reflexivity |]. split; vm_compute; reflexivity. Qed.

Print Assumptions lists_agree.
Print Assumptions teams_divide.
Print Assumptions lists_agree_stats_refuted.
Print Assumptions lists_agree_refuted.
