(** Texts embedded in a demo: what stands between two markers, the serverinfo, the userinfo
    strings, the status prints. *)
From Verif.Model Require Import Base.
From Verif.Spec Require Import Occ.

(** [y] is the text between the first [a] in [d] and the first [b] after it; it starts at
    offset [from]. *)
Definition stands_between (d a b y : bytes) (from : N) : Prop :=
  exists x z, d = x ++ a ++ y ++ b ++ z /\ from = len (x ++ a) /\
    first_at d a (len x) /\ first_at (y ++ b ++ z) b (len y).

(** The serverinfo: between the word fullserverinfo with an opening double quote and the next
    double quote, in the first 1280 bytes, not empty *)
Definition serverinfo_mark : bytes := lit "fullserverinfo """.
Definition has_serverinfo (data info : bytes) : Prop :=
  info <> [] /\ exists from, stands_between (firstn 1280 data) serverinfo_mark (lit """") info from.

(** Userinfo strings: NUL-delimited stretches of 7 to 256 bytes that contain \name\ *)
Definition spawn_mark : bytes := x09 :: lit "cmd spawn".
Definition name_key : bytes := lit "\name\".
Definition is_userinfo (s : bytes) : Prop :=
  ~ In x00 s /\ 7 <= len s <= 256 /\ occurs s name_key.

(** [s] stands in [data] between two NULs, the first of which is at offset [i]. *)
Definition delimited_at (data : bytes) (i : N) (s : bytes) : Prop :=
  occurs_at data (x00 :: s ++ [x00]) i.

(** Stretches (offset of the NUL before it, text), each starting where the one before it
    ended or later; two neighbours may share a NUL. *)
Fixpoint in_order (l : list (N * bytes)) : Prop :=
  match l with
  | (i, s) :: (((j, _) :: _) as l') => i + 1 + len s <= j /\ in_order l'
  | _ => True
  end.

(** a run of userinfo strings, each after a gap and followed by a NUL *)
Fixpoint run (recs : list (bytes * bytes)) (post : bytes) : bytes :=
  match recs with
  | [] => post
  | (gap, s) :: recs' => gap ++ s ++ x00 :: run recs' post
  end.

(** A gap is empty or ends with a NUL, contains no \name\ and leaves the \name\ of the next
    userinfo string [s] within reach. *)
Definition wf_gap (gap s : bytes) : Prop :=
  (gap = [] \/ exists g, gap = g ++ [x00]) /\ ~ occurs gap name_key /\
  exists i, first_at s name_key i /\ len gap + i <= 496.
Definition wf_record (r : bytes * bytes) : Prop := is_userinfo (snd r) /\ wf_gap (fst r) (snd r).

(** Status prints.  Quake's second set of letters has the top bit set. *)
Definition gold (s : string) : bytes :=
  map (fun b => match Byte.of_N (n_of b + 128) with Some c => c | None => b end) (lit s).
Definition end_of_demo : bytes := [x00; x02] ++ lit "EndOfDemo" ++ [x00].
Definition match_stopped : bytes :=
  [x08; x02] ++ gold "Match" ++ lit " " ++ gold "stopped" ++ lit " " ++ gold "by" ++ lit " "
  ++ gold "majority" ++ lit " " ++ gold "vote" ++ [x0a; x00].
Definition finished (data : bytes) : Prop := exists a, a <> [] /\ data = a ++ end_of_demo.
