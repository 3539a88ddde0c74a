(** Small demos that hold one thing each. *)
From Verif.Model Require Import Base.
From Verif.Spec Require Import Occ Mvd Texts Dates Stats.

(** each message in a frame of its own *)
Definition print_frame (m : message) : frame := mkFrame x00 x06 [] (encode_message m).
Definition prints_copy (ms : list message) : bytes := encode (map print_frame ms).

Definition date_copy (text : bytes) : bytes := matchdate_mark ++ text ++ [x0a].
Definition info_copy (info : bytes) : bytes := serverinfo_mark ++ info ++ lit """" ++ repeat x00 1280.
Definition client_records (l : list bytes) : list (bytes * bytes) := map (fun s => ([x00], s)) l.
Definition clients_copy (l : list bytes) : bytes := spawn_mark ++ run (client_records l) (repeat x00 511).
Definition stats_copy (text : bytes) : bytes := encode_block (mkSblock (repeat x00 10) 0 text).
