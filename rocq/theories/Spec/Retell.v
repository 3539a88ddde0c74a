(** When the list of prints holds every obituary, once for each time it was printed *)
From Verif.Model Require Import Base Prot Message.
From Verif.Spec Require Import Mvd Messages.

(** the prints at the level of obituaries *)
Definition medium (p : Print) : bool := if print_id_dec (pr_id p) PiMedium then true else false.

(** Behind the print a frame opens with there is no medium-level print with a text. *)
Definition one_each (fs : list frame) : Prop :=
  forall f m l, In f fs -> messages (f_body f) = m :: l ->
    Forall (fun m' => has_text m' = true -> level_of (m_level m') <> PiMedium) l.

(** No medium-level print with a text is followed by the same print (texts left out in between). *)
Definition no_echo (fs : list frame) : Prop :=
  forall a p q b, map as_print (demo_messages fs) = a ++ p :: q :: b -> pr_id p = PiMedium -> p <> q.
