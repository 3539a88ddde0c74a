(** Which userinfo strings are taken from a demo, and when the search leaves the data *)
From Verif.Model Require Import Base.
From Verif.Spec Require Import Occ Texts.

(** [i] is the offset of the first \name\ that lies within the 512 bytes from [offset] on. *)
Definition next_name (data : bytes) (offset i : N) : Prop :=
  offset <= i /\ first_at (firstn 512 (skipn (N.to_nat offset) data)) name_key (i - offset).

(** [text] is the NUL-delimited stretch around offset [i]; it begins at [from]. *)
Definition stretch (data : bytes) (i from : N) (text : bytes) : Prop :=
  exists a b, data = a ++ x00 :: text ++ x00 :: b /\ from = len a + 1 /\ ~ In x00 text /\
    from <= i /\ i < from + len text.

(** A search step from [offset]: the next \name\ lies in a stretch of 7 to 256 bytes. *)
Definition step (data : bytes) (offset from : N) (text : bytes) : Prop :=
  offset + 512 <= len data /\ exists i, next_name data offset i /\ stretch data i from text /\ 7 <= len text <= 256.

(** The search from [offset] finds exactly the texts [l], in this order. *)
Inductive search (data : bytes) (limit : N) : N -> list bytes -> Prop :=
| search_end : forall offset, offset + 512 <= len data ->
    (forall from text, ~ step data offset from text) -> search data limit offset []
| search_limit : forall offset from text, step data offset from text ->
    limit <= from + len text -> search data limit offset [text]
| search_more : forall offset from text l, step data offset from text ->
    from + len text < limit -> search data limit (from + len text) l -> search data limit offset (text :: l).

(** The search from [offset] needs data beyond the end. *)
Inductive search_short (data : bytes) (limit : N) : N -> Prop :=
| short_here : forall offset, len data < offset + 512 -> search_short data limit offset
| short_later : forall offset from text, step data offset from text ->
    from + len text < limit -> search_short data limit (from + len text) -> search_short data limit offset.
