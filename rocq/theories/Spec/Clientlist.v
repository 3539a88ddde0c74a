(** Clients, and lists made from them *)
From Verif.Model Require Import Base Env Clients.

(** A number that is present and not zero *)
Definition set (o : option Z) : Prop := exists v, o = Some v /\ v <> 0%Z.
Definition text_or_empty (o : option str) (s : str) : Prop := o = Some s \/ (o = None /\ s = []).
(** The low byte of a number that defaults to zero *)
Definition low_byte (o : option Z) (b : N) : Prop :=
  b < 256 /\ exists v, (o = Some v \/ (o = None /\ v = 0%Z)) /\ (v mod 256 = Z.of_N b)%Z.

(** [c] is the client number [n] with userinfo [i]. *)
Record describes (n : N) (i : Clientinfo) (c : Client) : Prop := {
  d_number : c_number c = n;
  d_name : text_or_empty (ci_name i) (c_name c);
  d_team : text_or_empty (ci_team i) (c_team c);
  d_top : low_byte (ci_topcolor i) (fst (c_color c));
  d_bottom : low_byte (ci_bottomcolor i) (snd (c_color c));
  d_spectator : c_is_spectator c = true <-> set (ci_spectator i);
  d_bot : c_is_bot c = true <-> set (ci_bot i);
  d_auth : c_auth_username c = ci_auth i;
  d_flag : c_auth_cc c = ci_flag i;
}.

(** [a] and [b] are the elements of [l] with and without [P], in their order. *)
Inductive splits {A} (P : A -> Prop) : list A -> list A -> list A -> Prop :=
| splits_nil : splits P [] [] []
| splits_yes : forall x l a b, P x -> splits P l a b -> splits P (x :: l) (x :: a) b
| splits_no : forall x l a b, ~ P x -> splits P l a b -> splits P (x :: l) a (x :: b).

(** A sort that puts equal texts next to each other *)
Definition groups_equals (f : list str -> list str) : Prop := forall l a x b c,
  f l = a ++ x :: b ++ x :: c -> forall y, In y b -> y = x.
