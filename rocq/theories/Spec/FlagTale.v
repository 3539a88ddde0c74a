(** When the list of prints holds every flag message, and how to put the messages together from it *)
From Verif.Model Require Import Base Env Prot Message.
From Verif.Spec Require Import Occ Mvd Messages Flags.

(** the prints at the level of flag messages *)
Definition loud (p : Print) : bool := if print_id_dec (pr_id p) PiHigh then true else false.

(** No high-level print with a text is followed by the same print (texts left out in between). *)
Definition no_high_echo (fs : list frame) : Prop :=
  forall a p q b, map as_print (demo_messages fs) = a ++ p :: q :: b -> pr_id p = PiHigh -> p <> q.

(** The conversion of texts does not bring up the word flag. *)
Definition keeps_flag (E : env) : Prop := forall t, occurs (to_unicode E t) (lit "flag") -> occurs t (lit "flag").

(** A frame that begins with its prints and has no byte 8 behind them, and of its high-level texts
    has none, one that is not the second half of a message, or two, the second the second half *)
Definition plain_flags (E : env) (f : frame) : Prop :=
  exists ms r, f_body f = concat (map encode_message ms) ++ r /\ Forall wf_message ms /\ ~ In x08 r /\
    match map m_text (filter high ms) with
    | [] => True
    | [a] => ~ second_half E a
    | [a; b] => ~ second_half E a /\ second_half E b
    | _ => False
    end.

(** Texts put together wherever the second half of a message follows *)
Inductive pieced (E : env) : list bytes -> list bytes -> Prop :=
| pieced_none : pieced E [] []
| pieced_last : forall a, pieced E [a] [a]
| pieced_two : forall a b l k, second_half E b -> pieced E l k -> pieced E (a :: b :: l) ((a ++ b) :: k)
| pieced_one : forall a b l k, ~ second_half E b -> pieced E (b :: l) k -> pieced E (a :: b :: l) (a :: k).
