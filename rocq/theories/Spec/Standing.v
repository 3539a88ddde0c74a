(** What the order of the players depends on *)
From Coq Require Import Permutation.
From Verif.Model Require Import Base Env Clients Ktxstats Players.
From Verif.Spec Require Import Order Clientlist Teams.

(** Two statistics with the same names and scores, in any order *)
Definition same_standing (a b : list KtxPlayer) : Prop :=
  Permutation (map (fun k => (kp_frags k, kp_name k)) a) (map (fun k => (kp_frags k, kp_name k)) b).

(** Two lists of clients with the same names, in any order, and score tables that agree on these names *)
Definition same_scorers (cs cs' : list Client) (t t' : list (str * Z)) : Prop :=
  Permutation (map c_name cs) (map c_name cs') /\
  forall n v, In n (map c_name cs) -> (looked_up t n 0%Z v <-> looked_up t' n 0%Z v).

(** Two lists of players with the same scores and names at the same places *)
Definition same_table (ps qs : list Player) : Prop := map rank ps = map rank qs.
