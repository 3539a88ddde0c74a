(** A chat message put into a demo *)
From Verif.Model Require Import Base Env.
From Verif.Spec Require Import Occ Mvd Messages Texts Times Stats Obituary Score.

(** a print of level 3, sent to all at the time of the frame before it *)
Definition chat (text : bytes) : frame := mkFrame x00 x06 [] (encode_message (mkMessage x03 text)).

(** the texts that are searched for in the whole of a demo *)
Definition bot_mark : bytes := lit """bot"": {".
Definition marks : list bytes :=
  [ match_over; standby; matchdate_marker; lit "Server is paused"; lit "paused the game"; match_stopped; bot_mark;
    version_mark ].

(** A text that contains none of the marks, nor ends in the first half of the one with a NUL in the
    middle.  ([match_stopped] ends with the NUL that ends the text.) *)
Definition innocent (text : bytes) : Prop :=
  ~ In x00 text /\ len text < 4294967293 /\
  (forall m, In m marks -> ~ occurs (text ++ [x00]) m) /\ forall a, text <> a ++ lit "4status".

(** A place between two frames: the frame before ends in NUL, as texts do, but not in half a mark;
    there is a frame after it. *)
Definition place (fs gs : list frame) : Prop :=
  wf fs /\ wf gs /\ gs <> [] /\ exists a, encode fs = a ++ [x00] /\ forall b, a <> b ++ lit "4status".

(** The clients stand before the place. *)
Definition clients_before_place (fs : list frame) : Prop :=
  exists s, first_at (encode fs) spawn_mark s /\ s + 13050 <= len (encode fs).

(** There is no date, or the first one stands on one side of the place with its line. *)
Definition dated (data : bytes) : Prop :=
  exists a line x, data = a ++ matchdate_marker ++ line ++ x0a :: x /\ ~ In x0a line /\ first_at data matchdate_marker (len a).
Definition date_beside_place (fs gs : list frame) : Prop :=
  dated (encode fs) \/
  ~ occurs (encode fs) matchdate_marker /\ (dated (encode gs) \/ ~ occurs (encode (fs ++ gs)) matchdate_marker).

(** There are no statistics, or the last ones stand after the place. *)
Definition stats_after_place (fs gs : list frame) : Prop :=
  ~ occurs (encode (fs ++ gs)) version_mark \/
  exists a d, encode gs = a ++ d /\ last_at d version_mark 18.
