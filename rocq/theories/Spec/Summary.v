(** Who plays and who watches; the notice of a vote that stops the match *)
From Verif.Model Require Import Base Clients.
From Verif.Spec Require Import Texts.

Definition squad (cs : list Client) : list Client := filter (fun c => negb (c_is_spectator c)) cs.
Definition crowd (cs : list Client) : list Client := filter (fun c => c_is_spectator c) cs.

Definition stopped_text : bytes :=
  gold "Match" ++ lit " " ++ gold "stopped" ++ lit " " ++ gold "by" ++ lit " " ++ gold "majority" ++ lit " " ++ gold "vote" ++ [x0a].
