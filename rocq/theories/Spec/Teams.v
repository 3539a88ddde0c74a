(** Lists of players and teams *)
From Coq Require Import Permutation Sorted.
From Verif.Model Require Import Base Env Clients Players.
From Verif.Spec Require Import Order Clientlist.

(** the best player first; equal scores by name *)
Definition better (p q : Player) : Prop :=
  (p_frags q < p_frags p)%Z \/ (p_frags p = p_frags q /\ text_lt (p_name p) (p_name q)).

(** [v] is the value of [k] in the table [m], or [d] if there is none. *)
Definition looked_up {K V} (m : list (K * V)) (k : K) (d v : V) : Prop :=
  In (k, v) m \/ (~ In k (map fst m) /\ v = d).

(** [p] is the entry for the client [c]. *)
Record entry (scores : list (str * Z)) (pings : list (N * N)) (c : Client) (p : Player) : Prop := {
  en_name : p_name p = c_name c;
  en_team : p_team p = c_team c;
  en_color : p_color p = c_color c;
  en_frags : looked_up scores (c_name c) 0%Z (p_frags p);
  en_ping : looked_up pings (c_number c) 0 (p_ping p);
  en_bot : p_is_bot p = c_is_bot c;
  en_auth : p_auth_username p = c_auth_username c;
  en_cc : p_auth_cc p = c_auth_cc c;
}.

(** [l] lists, in order, the elements of [cs] that no later element with the same number
    replaces. *)
Inductive latest : list Client -> list Client -> Prop :=
| latest_nil : latest [] []
| latest_keep : forall c cs l, ~ In (c_number c) (map c_number cs) -> latest cs l -> latest (c :: cs) (c :: l)
| latest_drop : forall c cs l, In (c_number c) (map c_number cs) -> latest cs l -> latest (c :: cs) l.

(** [p] is the entry for the player [k] of the embedded stats.  A ping is 32 bits, a colour
    8 bits wide. *)
Record converted (k : KtxPlayer) (p : Player) : Prop := {
  cv_name : p_name p = kp_name k;
  cv_team : p_team p = kp_team k;
  cv_top : low_byte (Some (kp_top_color k)) (fst (p_color p));
  cv_bottom : low_byte (Some (kp_bottom_color k)) (snd (p_color p));
  cv_frags : p_frags p = kp_frags k;
  cv_ping : p_ping p < 4294967296 /\ (kp_ping k mod 4294967296 = Z.of_N (p_ping p))%Z;
  cv_bot : p_is_bot p = true <-> kp_bot k = true \/ kp_ping k = 10%Z;
  cv_auth : forall s, p_auth_username p = Some s <-> s = kp_login k /\ s <> [];
  cv_cc : p_auth_cc p = None;
}.

(** ** Teams *)
Definition total (l : list Z) : Z := fold_right Z.add 0%Z l.
Definition total_ping (l : list Player) : N := fold_right N.add 0 (map p_ping l).

(** [mean] is the mean [sum / count] rounded to the nearest integer, halves up. *)
Definition rounds_half_up (sum count mean : N) : Prop :=
  2 * count * mean <= 2 * sum + count < 2 * count * (mean + 1).

(** how many of [ps] wear [c] *)
Inductive wear (c : N * N) : list Player -> N -> Prop :=
| wear_nil : wear c [] 0
| wear_yes : forall p ps n, p_color p = c -> wear c ps n -> wear c (p :: ps) (n + 1)
| wear_no : forall p ps n, p_color p <> c -> wear c ps n -> wear c (p :: ps) n.

(** [c] is a colour most of [ps] wear. *)
Definition most_worn (c : N * N) (ps : list Player) : Prop :=
  exists n, 0 < n /\ wear c ps n /\ forall d m, wear d ps m -> m <= n.

(** the colour of the first player, or from three players on a colour most of them wear *)
Definition team_color (ps : list Player) (c : N * N) : Prop :=
  match ps with
  | [] => False
  | [p] | [p; _] => c = p_color p
  | _ => most_worn c ps
  end.

(** [t] is the team of those of [ps] that have its name as team. *)
Record team_of (ps : list Player) (t : Team) : Prop := {
  tm_members : exists others, splits (fun p => p_team p = t_name t) ps (t_players t) others;
  tm_some : t_players t <> [];
  tm_frags : t_frags t = total (map p_frags (t_players t));
  tm_ping : total_ping (t_players t) + len (t_players t) <= 8388608 ->
    rounds_half_up (total_ping (t_players t)) (len (t_players t)) (t_ping t);
  tm_color : team_color (t_players t) (t_color t);
}.

(** One team for each team name of [ps], by lower-cased name. *)
Record teams_of (lower : str -> str) (ps : list Player) (ts : list Team) : Prop := {
  to_once : NoDup (map t_name ts);
  to_names : forall n, In n (map t_name ts) <-> exists p, In p ps /\ p_team p = n;
  to_each : Forall (team_of ps) ts;
  to_order : in_order_of (fun a b => text_lt (lower (t_name a)) (lower (t_name b))) ts;
}.

(** Nothing overflows: team sizes, sums of pings, and sums of scores from the left, for the
    players of each team. *)
Definition sums_fit (ps : list Player) : Prop :=
  forall team ms others, splits (fun p => p_team p = team) ps ms others ->
    len ms < 256 /\ total_ping ms < 4294967296 /\
    forall a b, ms = a ++ b -> (-2147483648 <= total (map p_frags a) <= 2147483647)%Z.

(** the same environment with hash maps that iterate in other orders *)
Definition reordered (E : env) po to co : env :=
  mkEnv (checked E) (eof_on_short_read E) (to_unicode E) (to_utf8 E) (unicode_sort E) (clientinfo_from E)
    (settings_from E) (ktxstats_from E) (parse_datetime E) (to_lowercase E) po to co.

(** An iteration order yields every entry once. *)
Definition iterates {A} (order : list A -> list A) : Prop := forall l, Permutation (order l) l.

(** one order for every name *)
Definition each_iterates {A} (order : str -> list A -> list A) : Prop := forall team, iterates (order team).

(** what the order of players looks at *)
Definition rank (p : Player) : Z * str := (p_frags p, p_name p).

(** Equal results, except that players with the same score and name may be swapped. *)
Definition same_up_to_ties (m m' : M (result (list Player))) : Prop :=
  match m, m' with
  | Ret (Ok l), Ret (Ok l') => Permutation l l' /\ map rank l = map rank l' /\
      ((forall p q, In p l -> In q l -> rank p = rank q -> p = q) -> l = l')
  | _, _ => m = m'
  end.

(** In every team of three or more one colour is worn most. *)
Definition clear_colors (ps : list Player) : Prop :=
  forall team ms others, splits (fun p => p_team p = team) ps ms others -> (3 <= length ms)%nat ->
    forall c d, most_worn c ms -> most_worn d ms -> c = d.
