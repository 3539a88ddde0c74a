(** Proofs for Properties/Conversions.v *)
From Coq Require Import Lia.
From Verif.Model Require Import Base Env Clients Ktxstats Players.
From Verif.Spec Require Import Order Clientlist Teams Times Wrap.
From Verif.Proofs Require Import BaseFacts ClientFacts ServerFacts TeamFacts WrapFacts.
Open Scope N_scope.

Lemma client_conversion_proof : forall i, describes 0 i (client_from 0 i).
Proof. exact (client_from_describes 0). Qed.

Lemma player_conversion_proof : forall k, converted k (player_from k).
Proof. exact converted_player. Qed.

Lemma server_conversion_proof : forall k, exists ds,
  server_from k = mkServer (ks_hostname k) (ks_ip k ++ lit ":" ++ numeral ds) (ks_ip k) (ks_port k) /\
  wf_digits ds /\ number ds = ks_port k /\ (ds = [0] \/ exists d r, ds = d :: r /\ d <> 0).
Proof.
  intros k. destruct (display_N_proof (ks_port k)) as [ds [D P]]. exists ds. split; [| exact P].
  unfold server_from. rewrite D. reflexivity.
Qed.

Lemma team_conversion_proof : forall E p r, each_iterates (colors_order E) ->
  len (p :: r) < 256 -> total_ping (p :: r) < 4294967296 ->
  (forall a b, p :: r = a ++ b -> (-2147483648 <= Teams.total (map p_frags a) <= 2147483647)%Z) ->
  exists t, team_from E (p :: r) = Ret t /\ t_name t = p_team p /\ t_players t = p :: r /\
    t_frags t = Teams.total (map p_frags (p :: r)) /\
    (total_ping (p :: r) + len (p :: r) <= 8388608 -> rounds_half_up (total_ping (p :: r)) (len (p :: r)) (t_ping t)) /\
    team_color (p :: r) (t_color t).
Proof.
  intros E p r IT L TP TF.
  destruct (team_done E (p :: r) IT ltac:(discriminate) L TP TF) as [t [T [[q [s [Q N]]] [PL [F [P [_ C]]]]]]].
  injection Q as <- <-. exists t. auto 10.
Qed.

Lemma team_conversion_any_proof : forall E p r, each_iterates (colors_order E) -> len (p :: r) < 9223372036854775808 ->
  (checked E = true /\ team_leaves (p :: r) /\ team_from E (p :: r) = Panic POverflow) \/
  ((checked E = true -> ~ team_leaves (p :: r)) /\
   exists t, team_from E (p :: r) = Ret t /\ t_name t = p_team p /\ t_players t = p :: r /\
     signed32 (Teams.total (map p_frags (p :: r))) (t_frags t) /\
     (exists s, low_part 4294967296 (total_ping (p :: r)) s /\ mean_ping s (len (p :: r)) (t_ping t)) /\
     counted_color (p :: r) (t_color t)).
Proof.
  intros E p r IT L. destruct (team_any E (p :: r) IT ltac:(discriminate) L) as [X | [N [t [T [[q [s [Q M]]] R]]]]]; [left; exact X |].
  right. split; [exact N |]. injection Q as <- <-. exists t. split; [exact T |]. split; [exact M | exact R].
Qed.

Lemma team_conversion_none_proof : forall E, team_from E [] = Ret (mkTeam [] (0, 0) 0%Z 0 []).
Proof. reflexivity. Qed.
