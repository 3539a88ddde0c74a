(** Players whose teams are given other names, or several teams one name *)
From Coq Require Import Permutation.
From Verif.Model Require Import Base Env Clients Players.
From Verif.Spec Require Import Mvd Messages Score Rename Recording Order Clientlist Teams.

Definition reteam (g : str -> str) (p : Player) : Player :=
  mkPlayer (p_name p) (g (p_team p)) (p_color p) (p_frags p) (p_ping p) (p_is_bot p) (p_auth_username p) (p_auth_cc p).

(** the teams whose name becomes [n] *)
Definition teams_to (g : str -> str) (n : str) (ts : list Team) : list Team :=
  filter (fun t => beq (g (t_name t)) n) ts.

Record merged_teams (g : str -> str) (ts ts' : list Team) : Prop := {
  mt_once : NoDup (map t_name ts');
  mt_names : forall n, In n (map t_name ts') <-> exists t, In t ts /\ n = g (t_name t);
  mt_players : forall t', In t' ts' ->
    Permutation (t_players t') (map (reteam g) (concat (map t_players (teams_to g (t_name t') ts))));
  mt_frags : forall t', In t' ts' -> t_frags t' = total (map t_frags (teams_to g (t_name t') ts));
  mt_ping : forall t' lo hi, In t' ts' -> total_ping (t_players t') + len (t_players t') <= 8388608 ->
    (forall t, In t (teams_to g (t_name t') ts) -> lo <= t_ping t <= hi) -> lo <= t_ping t' <= hi;
}.

(** The same team under another name *)
Record same_team (g : str -> str) (t t' : Team) : Prop := {
  st_name : t_name t' = g (t_name t);
  st_players : t_players t' = map (reteam g) (t_players t);
  st_frags : t_frags t' = t_frags t;
  st_ping : t_ping t' = t_ping t;
  st_color : ((3 <= length (t_players t))%nat -> forall c d, most_worn c (t_players t) -> most_worn d (t_players t) -> c = d) ->
    t_color t' = t_color t;
}.

(** Recordings of the same events by the same players, in teams of other names *)
Definition reteam_client (g : str -> str) (c : Client) : Client :=
  mkClient (c_number c) (c_name c) (g (c_team c)) (c_color c) (c_is_spectator c) (c_is_bot c) (c_auth_username c) (c_auth_cc c).
Record reteamed (g : str -> str) (cs cs' : list Client) (r r' : recording) : Prop := {
  rt_clients : cs' = map (reteam_client g) cs;
  rt_timeline : timeline r' = timeline r;
  rt_stats : r_stats r' = r_stats r;
  rt_names : NoDup (map c_name (filter (fun c => negb (c_is_spectator c)) cs));
}.

(** The same obituary, with the same score updates near it *)
Definition same_obituary (a b : message * list frame) : Prop :=
  m_text (fst b) = m_text (fst a) /\ nearby_updates (fst b) (snd b) = nearby_updates (fst a) (snd a).
