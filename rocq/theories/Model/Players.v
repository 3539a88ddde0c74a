(** src/player.rs, src/players.rs, src/team.rs and src/teams.rs *)
From Verif.Model Require Import Base Env Clients Frags Ping Ktxstats Float.

(** src/player.rs:3 *)
Definition BOT_PING : Z := 10.

(** src/player.rs:17-35 *)
Definition player_from (p : KtxPlayer) : Player := {|
  p_name := kp_name p;
  p_team := kp_team p;
  p_color := (as_u8 (kp_top_color p), as_u8 (kp_bottom_color p));
  p_frags := kp_frags p;
  p_ping := as_u32 (kp_ping p);
  p_is_bot := kp_bot p || (kp_ping p =? BOT_PING)%Z;
  p_auth_username := if is_empty (kp_login p) then None else Some (kp_login p);
  p_auth_cc := None;
|}.

(** [Ordering::then] *)
Definition then_cmp (a b : comparison) : comparison := match a with Eq => b | _ => a end.

(** src/player.rs:37-39: the closure's parameters are named (b, a) *)
Definition player_cmp (b a : Player) : comparison :=
  then_cmp (Z.compare (p_frags a) (p_frags b)) (str_cmp (p_name b) (p_name a)).

(** src/players.rs:21-25 *)
Definition players_from_ktxstats (stats : KtxstatsV3) : result (list Player) :=
  Ok (sort_by player_cmp (map player_from (ks_players stats))).

(** src/players.rs:34-43 *)
Definition player_of_client (frags : list (str * Z)) (pings : list (N * N)) (c : Client)
  : Player := {|
  p_name := c_name c;
  p_team := c_team c;
  p_color := c_color c;
  p_frags := aget_or beq (c_name c) 0%Z frags;
  p_ping := aget_or N.eqb (c_number c) 0 pings;
  p_is_bot := c_is_bot c;
  p_auth_username := c_auth_username c;
  p_auth_cc := c_auth_cc c;
|}.

(** src/players.rs:27-50 *)
Definition players_from_parsing (E : env) (data : bytes) : M (result (list Player)) :=
  let? cs := clients E data in
  let? pings := ping_per_player_number E data in
  let! frags := frags_per_player_name E data in
  let pmap :=
    fold_left (fun m c => aset N.eqb (c_number c) (player_of_client frags pings c) m)
              (filter (fun c => negb (c_is_spectator c)) cs) [] in
  Ret (Ok (sort_by player_cmp (map snd (players_order E pmap)))).

(** src/players.rs:13-19 *)
Definition players (E : env) (data : bytes) : M (result (list Player)) :=
  let! s := ktxstats_v3 E data in
  match s with
  | Ok stats => Ret (players_from_ktxstats stats)
  | Err _ => players_from_parsing E data
  end.

(** src/team.rs:5-12 *)
Record Team := mkTeam {
  t_name : str;
  t_color : N * N;
  t_frags : Z;
  t_ping : N;
  t_players : list Player;
}.

Definition color_eqb (a b : N * N) : bool := N.eqb (fst a) (fst b) && N.eqb (snd a) (snd b).

(** src/team.rs:67-71 *)
Definition color_counts (E : env) (colors : list (N * N)) : M (list ((N * N) * N)) :=
  foldM (fun m c =>
           let! n := uadd E u8_bound (aget_or color_eqb c 0 m) 1 in
           Ret (aset color_eqb c n m)) colors [].

(** src/team.rs:73-80 *)
Definition max_color (counts : list ((N * N) * N)) : option (N * N) * N :=
  fold_left (fun '(mc, mn) '(color, count) =>
               if mn <? count then (Some color, count) else (mc, mn))
            counts (None, 0).

(** src/team.rs:60-83; [team] only selects the order of the map in `color_counts` *)
Definition majority_color (E : env) (team : str) (colors : list (N * N)) : M (option (N * N)) :=
  match colors with
  | [] => Ret None
  | [c] => Ret (Some c)
  | [c; _] => Ret (Some c)
  | _ =>
      let! counts := color_counts E colors in
      Ret (fst (max_color (colors_order E team counts)))
  end.

(** src/team.rs:14-40 *)
Definition team_from (E : env) (players : list Player) : M Team :=
  match players with
  | [] => Ret (mkTeam [] (0, 0) 0 0 [])
  | p0 :: _ =>
      let! st := foldM (fun '(frags, ping) p =>
                          let! f := iadd E frags (p_frags p) in
                          let! g := uadd E u32_bound ping (p_ping p) in
                          Ret (f, g)) players (0%Z, 0) in
      let '(frags, ping) := st in
      let ping := f32_round_to_u32 (f32_div (f32_of_N ping) (f32_of_N (len players))) in
      let! mc := majority_color E (p_team p0) (map p_color players) in
      Ret {| t_name := p_team p0;
             t_color := match mc with Some c => c | None => p_color p0 end;
             t_frags := frags;
             t_ping := ping;
             t_players := players |}
  end.

(** src/team.rs:43-47 *)
Definition group_by_team (players : list Player) : list (str * list Player) :=
  fold_left (fun m p => aset beq (p_team p) (aget_or beq (p_team p) [] m ++ [p]) m) players [].

(** [iter().map(f).collect()] for a function that may panic *)
Fixpoint mapM {A B} (f : A -> M B) (l : list A) : M (list B) :=
  match l with
  | [] => Ret []
  | a :: l' => let! b := f a in let! bs := mapM f l' in Ret (b :: bs)
  end.

(** src/team.rs:55 *)
Definition team_cmp (E : env) (a b : Team) : comparison :=
  str_cmp (to_lowercase E (t_name a)) (to_lowercase E (t_name b)).

(** src/team.rs:42-58 *)
Definition teams_from_players (E : env) (players : list Player) : M (list Team) :=
  let! teams := mapM (team_from E) (map snd (teams_order E (group_by_team players))) in
  Ret (sort_by (team_cmp E) teams).

(** src/teams.rs:8-10 *)
Definition teams (E : env) (data : bytes) : M (result (list Team)) :=
  let? ps := players E data in
  let! ts := teams_from_players E ps in
  Ret (Ok ts).

(** src/teams.rs:12-14 *)
Definition teams_from_ktxstats (E : env) (stats : KtxstatsV3) : M (result (list Team)) :=
  match players_from_ktxstats stats with
  | Ok ps => let! ts := teams_from_players E ps in Ret (Ok ts)
  | Err e => Ret (Err e)
  end.
