(** Demos in which several players are given one name *)
From Verif.Model Require Import Base Env Flags FragEvent.
From Verif.Spec Require Import Mvd Messages Obituary Names Score Flags Pings Join Rename.

(** The same obituary of other players, with a killer that is named or needs no name; or two texts
    that are no obituaries *)
Definition same_named_death (E : env) (f : str -> str) (a b : message * list frame) : Prop :=
  (exists p x y, ph_kind p <> KKilledByMate /\ says E (m_text (fst a)) p x y /\
     says E (m_text (fst b)) p (f x) (if has_two_names (ph_kind p) then f y else [])) \/
  (says_nothing E (m_text (fst a)) /\ says_nothing E (m_text (fst b))).

(** The rows of [t] whose name becomes [n] *)
Definition rows_to {V} (f : str -> str) (n : str) (t : list (str * V)) : list V :=
  map snd (filter (fun x => beq (f (fst x)) n) t).

(** One row for each new name *)
Definition merged_names {V W} (f : str -> str) (t : list (str * V)) (t' : list (str * W)) : Prop :=
  NoDup (map fst t') /\ forall n, In n (map fst t') <-> exists m, In m (map fst t) /\ n = f m.

Definition merged_scores (f : str -> str) (t t' : list (str * Z)) : Prop :=
  merged_names f t t' /\ forall n v, In (n, v) t' -> v = fold_right Z.add 0%Z (rows_to f n t).

Definition merged_flags (f : str -> str) (t t' : list (str * PlayerFlagEvents)) : Prop :=
  merged_names f t t' /\
  forall n p k, In (n, p) t' -> counter k p = sum (map (counter k) (rows_to f n t)) mod 256.
