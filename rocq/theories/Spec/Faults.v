(** Where a byte string stops being UTF-8, and the error messages that say so. *)
From Verif.Model Require Import Base.
From Verif.Spec Require Import Utf8 Times.
Open Scope N_scope.

(** [d] is the beginning of the encoding of a character, cut short. *)
Definition cut_char (d : bytes) : Prop :=
  d <> [] /\ exists c t, scalar c /\ t <> [] /\ encode_char c = d ++ t.

(** The first [i] bytes of [d] are text and no character follows.  [n] is [None] if what
    follows is a character cut short by the end of [d]; otherwise [n] counts the bytes that
    can begin a character, at least one. *)
Definition utf8_fault (d : bytes) (i : N) (n : option N) : Prop :=
  exists a r, d = a ++ r /\ utf8_text a /\ len a = i /\ r <> [] /\
    (forall c t, scalar c -> r <> encode_char c ++ t) /\
    match n with
    | None => cut_char r
    | Some n => ~ cut_char r /\ 1 <= n /\ (exists p q, r = p ++ q /\ len p = n /\ (cut_char p \/ n = 1)) /\
                forall p q, r = p ++ q -> cut_char p -> len p <= n
    end.

(** the digits of [n], without leading zeros *)
Definition decimal_of (ds : list N) (n : N) : Prop :=
  wf_digits ds /\ number ds = n /\ (ds = [0] \/ exists d r, ds = d :: r /\ d <> 0).

Definition fault_message (s : string) (i : N) (n : option N) : Prop :=
  exists di, decimal_of di i /\
    match n with
    | Some n => exists dn, decimal_of dn n /\
        lit s = lit "invalid utf-8 sequence of " ++ numeral dn ++ lit " bytes from index " ++ numeral di
    | None => lit s = lit "incomplete utf-8 byte sequence from index " ++ numeral di
    end.
