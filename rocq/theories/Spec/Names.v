(** Names in obituaries that cannot be mistaken, spaces allowed *)
From Verif.Model Require Import Base.
From Verif.Spec Require Import Occ Obituary.

Definition space : str := lit " ".

(** as the first name *)
Definition clear_first (x : str) : Prop :=
  (forall p, In p phrases -> ph_kind p <> KSuicides -> ~ occurs (x ++ space) (ph_before p)) /\
  (forall z, x <> z ++ lit " suicides") /\ (forall z, x <> z ++ lit " was").

(** as the second name *)
Definition clear_second (y : str) : Prop :=
  (forall p, In p phrases -> ~ occurs (space ++ y ++ space) (ph_before p)) /\
  (forall p, In p phrases -> ph_after p <> [] -> ~ occurs y (ph_after p)) /\
  (forall z, y <> lit "his teammate" ++ z) /\ (forall z, y <> lit "her teammate" ++ z).

(** A pair of names that is read back from every obituary: without spaces or without phrases *)
Definition readable (x y : str) : Prop := (~ In x20 x /\ plain y) \/ (clear_first x /\ clear_second y).

(** The words of [q] stand in [t]: at its end for the suicide phrase, anywhere for the others, the
    end of a phrase anywhere behind its beginning. *)
Definition stands (q : phrase) (t : str) : Prop :=
  match ph_kind q with
  | KSuicides => exists z, t = z ++ ph_before q
  | _ => exists a b c, t = a ++ ph_before q ++ b ++ ph_after q ++ c
  end.
