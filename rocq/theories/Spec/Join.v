(** Demos put together, taken apart and rearranged. *)
From Coq Require Import Permutation.
From Verif.Model Require Import Base Env FragEvent Flags.
From Verif.Spec Require Import Mvd Messages Obituary Score Flags Pings Teams.

(** Every obituary of the demo names the killer or needs none. *)
Definition all_named (E : env) (fs : list frame) : Prop :=
  forall m s t v, In (m, s) (obituaries fs) -> trimmed (to_unicode E (m_text m)) t ->
    ~ reads t (TeamkillByUnknown v).

(** Two tables with the same rows *)
Definition same_rows {K V} (a b : list (K * V)) : Prop :=
  NoDup (map fst a) /\ NoDup (map fst b) /\ forall k v, In (k, v) a <-> In (k, v) b.

(** The names of [c] are those of [a] and [b], each once. *)
Definition joins_names {V} (a b c : list (str * V)) : Prop :=
  NoDup (map fst c) /\ forall n, In n (map fst c) <-> In n (map fst a) \/ In n (map fst b).

(** The scores of [c] are those of [a] and [b] added up. *)
Definition scores_added (a b c : list (str * Z)) : Prop :=
  joins_names a b c /\
  forall n x y z, looked_up a n 0%Z x -> looked_up b n 0%Z y -> looked_up c n 0%Z z -> z = (x + y)%Z.

(** no flag deeds *)
Definition no_deeds : PlayerFlagEvents := mkPfe 0 0 0 0 0 0 0.

(** The counters of [c] are those of [a] and [b] added up, reduced modulo 256. *)
Definition flags_added (a b c : list (str * PlayerFlagEvents)) : Prop :=
  joins_names a b c /\
  forall n k x y z, looked_up a n no_deeds x -> looked_up b n no_deeds y -> looked_up c n no_deeds z ->
    counter k z = (counter k x + counter k y) mod 256.

(** Each counter of the sum fits in a byte. *)
Definition flags_fit (a b : list (str * PlayerFlagEvents)) : Prop :=
  forall n k x y, looked_up a n no_deeds x -> looked_up b n no_deeds y -> counter k x + counter k y < 256.

(** The bodies of the frames that have one, in order *)
Definition bodies (fs : list frame) : list bytes := map f_body (filter has_body fs).

(** What an obituary that names the killer adds to the sum of all scores *)
Definition worth (e : FragEvent) : Z :=
  match e with
  | Frag _ _ => 1
  | Suicide _ => -2
  | _ => -1
  end.
Definition worth_of (E : env) (x : message * list frame) (w : Z) : Prop :=
  exists t, trimmed (to_unicode E (m_text (fst x))) t /\
    ((exists e, reads t e /\ w = worth e) \/ ((forall e, ~ reads t e) /\ w = 0%Z)).

Definition sum_all (l : list Z) : Z := fold_right Z.add 0%Z l.
