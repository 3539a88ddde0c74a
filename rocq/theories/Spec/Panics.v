(** Inputs on which functions panic, and the kinds of panics *)
From Verif.Model Require Import Base Env FragEvent.
From Verif.Spec Require Import Occ Mvd Messages Texts Userinfo Obituary Score.

(** The last frame lacks bytes of its body (and is not larger than the whole demo). *)
Definition cut_off (data : bytes) : Prop :=
  exists fs rest, data = encode fs ++ rest /\ wf fs /\ overruns (len data) rest.

(** The search for client records reaches the end of the data. *)
Definition clients_cut_off (data : bytes) : Prop :=
  exists spawn, first_at data spawn_mark spawn /\ search_short data (spawn + 12288) spawn.

(** An obituary that does not name the killer, with score updates nearby *)
Definition asks_for_clients (E : env) (fs : list frame) : Prop :=
  exists m s t v, In (m, s) (obituaries fs) /\ trimmed (to_unicode E (m_text m)) t /\
    reads t (TeamkillByUnknown v) /\ nearby_updates m s <> [].

(** [m] panics at most in the ways [ps]; never with an overflow without overflow checks. *)
Definition panics_only (E : env) {A} (ps : list panic) (m : M A) : Prop :=
  forall p, m = Panic p -> In p ps /\ (p = POverflow -> checked E = true).
