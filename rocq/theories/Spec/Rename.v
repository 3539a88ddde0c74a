(** Demos that differ in the names or numbers of the players only. *)
From Verif.Model Require Import Base Env Clients FragEvent.
From Verif.Spec Require Import Mvd Messages Obituary Names Score Flags Pings Join.

Definition injective {A B} (f : A -> B) : Prop := forall a b, f a = f b -> a = b.

Definition rename_rows {K V} (f : K -> K) (t : list (K * V)) : list (K * V) := map (fun x => (f (fst x), snd x)) t.

(** The two runs end alike, and the tables they return have the same rows once renamed. *)
Definition renamed {K V} (f : K -> K) (r r' : M (list (K * V))) : Prop :=
  match r, r' with
  | Ret t, Ret t' => same_rows (rename_rows f t) t'
  | Panic p, Panic p' => p = p'
  | _, _ => False
  end.
Definition renamed_result {K V} (f : K -> K) (r r' : M (result (list (K * V)))) : Prop :=
  match r, r' with
  | Ret (Ok t), Ret (Ok t') => same_rows (rename_rows f t) t'
  | Ret (Err m), Ret (Err m') => m = m'
  | Panic p, Panic p' => p = p'
  | _, _ => False
  end.

(** ** Obituaries *)
(** The text says, in the phrase [p], that [x] died or what [x] did to [y]. *)
Definition says (E : env) (text : bytes) (p : phrase) (x y : str) : Prop :=
  In p phrases /\ readable x y /\ (has_two_names (ph_kind p) = false -> y = []) /\
  trimmed (to_unicode E text) (obituary p x y).

(** The text is no obituary. *)
Definition says_nothing (E : env) (text : bytes) : Prop :=
  forall t e, trimmed (to_unicode E text) t -> ~ reads t e.

(** The same obituary of other players, with the same score updates near it; or two texts that are no
    obituaries. *)
Definition same_death (E : env) (f : str -> str) (a b : message * list frame) : Prop :=
  (exists p x y, says E (m_text (fst a)) p x y /\
     says E (m_text (fst b)) p (f x) (if has_two_names (ph_kind p) then f y else []) /\
     nearby_updates (fst b) (snd b) = nearby_updates (fst a) (snd a)) \/
  (says_nothing E (m_text (fst a)) /\ says_nothing E (m_text (fst b))).

Definition rename_client (f : str -> str) (c : Client) : Client :=
  mkClient (c_number c) (f (c_name c)) (c_team c) (c_color c) (c_is_spectator c) (c_is_bot c)
    (c_auth_username c) (c_auth_cc c).

(** ** Flags *)
(** The frames carry the deeds [l], each frame one or none. *)
Definition carry_all (E : env) (fs : list frame) (l : list (deed * str)) : Prop :=
  exists ls, l = concat ls /\
    Forall2 (fun f l => (silent f /\ l = []) \/ (exists k name, carries E f k name /\ l = [(k, name)])) fs ls.

(** ** Pings *)
(** The frames open with the same pings of other players. *)
Definition same_pings (f : N -> N) (a b : frame) : Prop :=
  exists us us' tail tail', Forall wf_ping us /\
    f_body a = concat (map encode_ping us) ++ tail /\ (forall r, tail <> x24 :: r) /\
    f_body b = concat (map encode_ping us') ++ tail' /\ (forall r, tail' <> x24 :: r) /\
    Forall2 (fun u u' => n_of (pu_player u') = f (n_of (pu_player u)) /\ pu_ping u' = pu_ping u) us us'.
