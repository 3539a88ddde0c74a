(** Sums that do not fit their type: what is returned without overflow checks, and when a
    program with overflow checks stops. *)
From Coq Require Import Reals.
From Flocq Require Import Core.
From Verif.Model Require Import Base Env Players.
From Verif.Spec Require Import Order Clientlist Teams Times Pings Score.

(** [r] is what is left of [n] in a type with the values below [b]. *)
Definition low_part (b n r : N) : Prop := r < b /\ exists k, n = r + k * b.

(** [z] as a signed 32-bit number *)
Definition fits32 (z : Z) : Prop := (-2147483648 <= z <= 2147483647)%Z.
Definition signed32 (z r : Z) : Prop := fits32 r /\ exists k, z = (r + k * 4294967296)%Z.

(** ** Pings *)
(** [tbl] maps exactly the players of [l] to the floor of the mean of the 16-bit sum of their
    pings. *)
Definition averages16 (tbl l : list (N * N)) : Prop :=
  NoDup (map fst tbl) /\
  (forall p, In p (map fst tbl) <-> In p (map fst l)) /\
  (forall p a, In (p, a) tbl -> exists s, low_part 65536 (sum (pings_of p l)) s /\ a = s / len (pings_of p l)).

(** ** Scores *)
Definition tabulates32 (tbl l : list (str * Z)) : Prop :=
  NoDup (map fst tbl) /\
  (forall name, In name (map fst tbl) <-> In name (map fst l)) /\
  (forall name v, In (name, v) tbl -> signed32 (Score.total name l) v).

(** At some point a score does not fit. *)
Definition score_leaves (l : list (str * Z)) : Prop :=
  exists a b name, l = a ++ b /\ ~ fits32 (Score.total name a).

(** ** Teams *)
(** the quotient in single precision, rounded to an integer, halves up, as 32 bits *)
Definition mean_ping (sum count mean : N) : Prop :=
  Z.of_N mean = Z.min 4294967295
    (Zfloor (single (single (IZR (Z.of_N sum)) / single (IZR (Z.of_N count))) + / 2)).

(** [c] is a colour with the largest 8-bit count, and this count is not 0. *)
Definition most_counted (c : N * N) (ps : list Player) : Prop :=
  exists n r, wear c ps n /\ low_part 256 n r /\ 0 < r /\
    forall d m s, wear d ps m -> low_part 256 m s -> s <= r.

Definition counted_color (ps : list Player) (c : N * N) : Prop :=
  match ps with
  | [] => False
  | [p] | [p; _] => c = p_color p
  | p :: _ => most_counted c ps \/ ((forall d n, wear d ps n -> low_part 256 n 0) /\ c = p_color p)
  end.

Record team_of32 (ps : list Player) (t : Team) : Prop := {
  tw_members : exists others, splits (fun p => p_team p = t_name t) ps (t_players t) others;
  tw_some : t_players t <> [];
  tw_frags : signed32 (Teams.total (map p_frags (t_players t))) (t_frags t);
  tw_ping : exists s, low_part 4294967296 (total_ping (t_players t)) s /\
    mean_ping s (len (t_players t)) (t_ping t);
  tw_color : counted_color (t_players t) (t_color t);
}.

Record teams_of32 (lower : str -> str) (ps : list Player) (ts : list Team) : Prop := {
  tow_once : NoDup (map t_name ts);
  tow_names : forall n, In n (map t_name ts) <-> exists p, In p ps /\ p_team p = n;
  tow_each : Forall (team_of32 ps) ts;
  tow_order : in_order_of (fun a b => text_lt (lower (t_name a)) (lower (t_name b))) ts;
}.

(** The players of a team whose sums do not fit: the score at some point, the pings, or the
    number of players that wear one colour (nobody counts colours of one or two players). *)
Definition team_leaves (ms : list Player) : Prop :=
  (exists a b, ms = a ++ b /\ ~ fits32 (Teams.total (map p_frags a))) \/
  4294967296 <= total_ping ms \/
  ((3 <= length ms)%nat /\ exists c n, wear c ms n /\ 256 <= n).

Definition teams_leave (ps : list Player) : Prop :=
  exists team ms others, splits (fun p => p_team p = team) ps ms others /\ team_leaves ms.

(** In every team of three or more at most one colour has the largest 8-bit count. *)
Definition clear_counts (ps : list Player) : Prop :=
  forall team ms others, splits (fun p => p_team p = team) ps ms others -> (3 <= length ms)%nat ->
    forall c d, most_counted c ms -> most_counted d ms -> c = d.
