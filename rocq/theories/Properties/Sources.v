(** C87: statistics and parsing agree on players and teams *)
From Coq Require Import Lia Permutation ZifyN ZifyNat ZifyBool.
From Verif.Model Require Import Base Env Players Ktxstats.
From Verif.Spec Require Import Order Clientlist Teams Shuffles Mvd Recording Sources.
From Verif.Proofs Require Import BaseFacts TeamFacts SourceFacts.
From Verif.Properties Require Import Sample Players Recording Summary.

(** If the statistics list the players that are in the demo, the pings up to [d], then the two
    lists agree place by place. *)
Theorem players_agree : forall E data s l es d,
  ktxstats_v3 E data = Ret (Ok s) -> players_from_parsing E data = Ret (Ok l) ->
  Forall2 converted (ks_players s) es -> matched (same_player d) es l -> no_ties es ->
  exists l', players E data = Ret (Ok l') /\ Permutation es l' /\ Forall2 (same_player d) l' l.
Proof. exact sources_proof. Qed.

(** Players that agree make teams that agree: names, colours, scores, and pings up to [d] *)
Theorem teams_agree : forall E ps qs d, iterates (teams_order E) -> each_iterates (colors_order E) ->
  Forall2 (same_player d) ps qs -> sums_fit ps -> sums_fit qs -> small_pings ps -> small_pings qs ->
  exists ts us, teams_from_players E ps = Ret ts /\ teams_from_players E qs = Ret us /\
    matched (same_team d) ts us /\ (apart (to_lowercase E) ps -> Forall2 (same_team d) ts us).
Proof. exact teams_like. Qed.

(** both together: the teams of the demo are those of the parsed players *)
Theorem demo_teams_agree : forall E data s l es d, iterates (teams_order E) ->
  each_iterates (colors_order E) ->
  ktxstats_v3 E data = Ret (Ok s) -> players_from_parsing E data = Ret (Ok l) ->
  Forall2 converted (ks_players s) es -> matched (same_player d) es l -> no_ties es ->
  sums_fit l -> small_pings l -> (forall l', Permutation es l' -> sums_fit l') -> small_pings es -> apart (to_lowercase E) l ->
  exists ts us, teams E data = Ret (Ok ts) /\ teams_from_players E l = Ret us /\ Forall2 (same_team d) ts us.
Proof.
  intros E data s l es d IT IC K PP C M N SL ML SE ME AP.
  destruct (players_agree E data s l es d K PP C M N) as [l' [P [PE F]]].
  assert (ME' : small_pings l').
  { unfold small_pings in *. rewrite <- (ShuffleFacts.total_ping_perm _ _ PE). unfold len. rewrite <- (Permutation_length PE). exact ME. }
  destruct (teams_agree E l' l d IT IC F (SE l' PE) SL ME' ML) as [ts [us [T [U [_ Q]]]]]. exists ts, us.
  split; [unfold teams; rewrite P; cbn [bind]; rewrite T; reflexivity |]. split; [exact U |]. apply Q.
  intros p q I J. clear - F AP I J.
  destruct (SourceFacts.Forall2_in_l _ _ _ _ _ p F I) as [p' [I' A]]. destruct (SourceFacts.Forall2_in_l _ _ _ _ _ q F J) as [q' [J' B]].
  rewrite (sp_team _ _ _ A), (sp_team _ _ _ B). apply AP; assumption.
Qed.

(** two players, in the statistics in the other order and with pings that differ by 2 *)
Definition recounted : env :=
  mkEnv true true (to_unicode (sample true)) (to_utf8 (sample true)) (unicode_sort (sample true))
    (clientinfo_from (sample true)) (settings_from (sample true))
    (fun _ => Ok (mkKtxstatsV3 (lit "host") (lit "10.0.0.1") 27500
       [mkKtxPlayer (lit "carl") (lit "red") (lit "c") 0 256 28 0 true; mkKtxPlayer (lit "anna") (lit "red") [] 0 0 27 0 false]))
    (parse_datetime (sample true)) (to_lowercase (sample true)) (players_order (sample true))
    (teams_order (sample true)) (colors_order (sample true)).

Example dusk_sources :
  let es := map player_from [mkKtxPlayer (lit "carl") (lit "red") (lit "c") 0 256 28 0 true; mkKtxPlayer (lit "anna") (lit "red") [] 0 0 27 0 false] in
  exists l l' t u, players_from_parsing recounted (encode (frames dusk)) = Ret (Ok l) /\
  matched (same_player 2) es l /\ ~ matched (same_player 1) es l /\ no_ties es /\
  players recounted (encode (frames dusk)) = Ret (Ok l') /\ map p_name l' = [lit "anna"; lit "carl"] /\ map p_name l = map p_name l' /\
  map p_ping l' = [27; 28] /\ map p_ping l = [25; 30] /\
  teams recounted (encode (frames dusk)) = Ret (Ok [t]) /\ teams_from_players recounted l = Ret [u] /\ t_ping t = 28 /\ t_ping u = 28.
Proof.
  cbv zeta. do 4 eexists. split; [vm_compute; reflexivity |]. split; [| split; [| split]].
  - eexists. split; [apply perm_swap |]. repeat constructor; vm_compute; discriminate.
  - intros [m [P F]]. inversion F as [| a b m' l' H F' Q Q']. subst. inversion F' as [| a' b' m'' l'' H' F'' R R']. subst. inversion F''. subst.
    assert (I : In a (map player_from [mkKtxPlayer (lit "carl") (lit "red") (lit "c") 0 256 28 0 true; mkKtxPlayer (lit "anna") (lit "red") [] 0 0 27 0 false]))
      by (apply (Permutation_in _ (Permutation_sym P)); left; reflexivity).
    destruct (sp_ping _ _ _ H) as [X _]. destruct I as [<- | [<- | []]]; vm_compute in X; exact (X eq_refl).
  - vm_compute. repeat constructor; intros C; cbn in C; intuition discriminate.
  - split; [vm_compute; reflexivity |]. do 4 (split; [reflexivity |]). split; [vm_compute; reflexivity |].
    split; [vm_compute; reflexivity |]. split; reflexivity.
Qed.

(** with ties the places need not agree *)
Theorem players_agree_refuted : exists ps qs, matched (same_player 0) ps qs /\
  in_order_of better ps /\ in_order_of better qs /\ ~ Forall2 (same_player 0) ps qs.
Proof.
  exists [person "a" "red" (4, 4) 0 0; person "a" "blue" (4, 4) 0 0], [person "a" "blue" (4, 4) 0 0; person "a" "red" (4, 4) 0 0].
  split; [eexists; split; [apply perm_swap |]; repeat constructor; vm_compute; discriminate |].
  assert (T : forall t u, in_order_of better [person "a" t (4, 4) 0 0; person "a" u (4, 4) 0 0]).
  { intros t u. repeat constructor. intros [L | [_ L]]; [cbn in L; lia | destruct (OrderFacts.text_lt_irrefl _ L)]. }
  split; [apply T |]. split; [apply T |]. intros F. inversion F as [| a b m' l' H F' Q Q']. pose proof (sp_team _ _ _ H). discriminate.
Qed.

(** Pings as large as [small_pings] allows *)
Example largest_pings : let ps := [person "a" "red" (4, 4) 0 8388605; person "b" "red" (4, 4) 0 1] in small_pings ps /\
  ~ small_pings (person "c" "red" (4, 4) 0 0 :: ps) /\ exists t, teams_from_players (sample true) ps = Ret [t] /\ t_ping t = 4194303.
Proof.
  split; [vm_compute; discriminate |]. split; [intros H; apply H; vm_compute; reflexivity |].
  eexists. split; [vm_compute; reflexivity | reflexivity].
Qed.

Print Assumptions players_agree.
Print Assumptions teams_agree.
Print Assumptions demo_teams_agree.
Print Assumptions players_agree_refuted.
