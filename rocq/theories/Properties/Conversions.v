(** C78: the conversions Client::from, Player::from, Server::from and Team::from. *)
From Verif.Model Require Import Base Env Clients Ktxstats Players.
From Verif.Spec Require Import Order Clientlist Teams Times Wrap.
From Verif.Proofs Require Import ConversionFacts.
From Verif.Properties Require Import Sample Players.
Open Scope N_scope.

Theorem client_conversion : forall i, describes 0 i (client_from 0 i).
Proof. exact client_conversion_proof. Qed.

Theorem player_conversion : forall k, converted k (player_from k).
Proof. exact player_conversion_proof. Qed.

(** [numeral ds] is the port in decimal, without leading zeros *)
Theorem server_conversion : forall k, exists ds,
  server_from k = mkServer (ks_hostname k) (ks_ip k ++ lit ":" ++ numeral ds) (ks_ip k) (ks_port k) /\
  wf_digits ds /\ number ds = ks_port k /\ (ds = [0] \/ exists d r, ds = d :: r /\ d <> 0).
Proof. exact server_conversion_proof. Qed.

(** The players need not have one team: the first one names it. *)
Theorem team_conversion : forall E p r, each_iterates (colors_order E) ->
  len (p :: r) < 256 -> total_ping (p :: r) < 4294967296 ->
  (forall a b, p :: r = a ++ b -> (-2147483648 <= Teams.total (map p_frags a) <= 2147483647)%Z) ->
  exists t, team_from E (p :: r) = Ret t /\ t_name t = p_team p /\ t_players t = p :: r /\
    t_frags t = Teams.total (map p_frags (p :: r)) /\
    (total_ping (p :: r) + len (p :: r) <= 8388608 -> rounds_half_up (total_ping (p :: r)) (len (p :: r)) (t_ping t)) /\
    team_color (p :: r) (t_color t).
Proof. exact team_conversion_proof. Qed.

(** ... and whatever the sizes of the sums *)
Theorem team_conversion_any : forall E p r, each_iterates (colors_order E) -> len (p :: r) < 9223372036854775808 ->
  (checked E = true /\ team_leaves (p :: r) /\ team_from E (p :: r) = Panic POverflow) \/
  ((checked E = true -> ~ team_leaves (p :: r)) /\
   exists t, team_from E (p :: r) = Ret t /\ t_name t = p_team p /\ t_players t = p :: r /\
     signed32 (Teams.total (map p_frags (p :: r))) (t_frags t) /\
     (exists s, low_part 4294967296 (total_ping (p :: r)) s /\ mean_ping s (len (p :: r)) (t_ping t)) /\
     counted_color (p :: r) (t_color t)).
Proof. exact team_conversion_any_proof. Qed.

(** No players, no team *)
Theorem team_conversion_none : forall E, team_from E [] = Ret (mkTeam [] (0, 0) 0%Z 0 []).
Proof. exact team_conversion_none_proof. Qed.

Example conversion_examples :
  client_from 0 (sample_clientinfo (lit "\name\anna\team\red\topcolor\4\bottomcolor\260\*spectator\1")) =
    mkClient 0 (lit "anna") (lit "red") (4, 4) true false None None /\
  player_from (stats_person "a" "" 4 (-1) 10) = mkPlayer (lit "a") (lit "red") (4, 44) (-1) 10 true None None /\
  server_from (mkKtxstatsV3 (lit "QUAKE.SE KTX") (lit "10.0.0.1") 27500 []) =
    mkServer (lit "QUAKE.SE KTX") (lit "10.0.0.1:27500") (lit "10.0.0.1") 27500 /\
  exists t, team_from (sample true)
      [person "a" "red" (4, 4) 3 10; person "b" "blue" (13, 13) (-1) 15; person "c" "" (13, 13) 5 13] = Ret t /\
    (t_name t, t_color t, t_frags t, t_ping t) = (lit "red", (13, 13), 7%Z, 13).
Proof. repeat (split; [vm_compute; reflexivity |]). eexists. split; vm_compute; reflexivity. Qed.

Print Assumptions client_conversion.
Print Assumptions player_conversion.
Print Assumptions server_conversion.
Print Assumptions team_conversion.
Print Assumptions team_conversion_any.
Print Assumptions team_conversion_none.
