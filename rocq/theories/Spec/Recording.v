(** A whole demo as a server writes it: the serverinfo, the userinfo strings, the countdown, the
    date of the match, the match, its end, the statistics and the end mark.  [frames] is the
    encoder; the other definitions say what a reader should find. *)
From Verif.Model Require Import Base Env Clients.
From Verif.Spec Require Import Occ Mvd Messages Obituary Names Score Flags Pings Stats Texts Utf8 Clientlist.

(** What a frame of the countdown or the match carries.  A [wire] is a text in the bytes of the
    game; the names beside it are what it says once converted. *)
Inductive news :=
| Quiet
| Speech (level : byte) (text : bytes)
| Notice (text : bytes)
| Killed (wire : bytes) (p : phrase) (x y : str)
| KilledByMate (wire : bytes) (p : phrase) (victim killer : str) (number lo hi : byte)
| FlagNews (wire : bytes) (k : deed) (s : str) (name : str)
| FlagNewsInTwo (wire1 wire2 : bytes) (k : deed) (s : str) (name : str)
| PingNews (us : list ping_update)
| Other (t : byte) (rest : bytes).

Definition body (n : news) : bytes :=
  match n with
  | Quiet => []
  | Speech level text => encode_message (mkMessage level text)
  | Notice text => encode_message (mkMessage x02 text)
  | Killed wire _ _ _ => encode_message (mkMessage x01 wire)
  | KilledByMate wire _ _ _ number lo hi => encode_message (mkMessage x01 wire) ++ [x0e; number; lo; hi]
  | FlagNews wire _ _ _ => encode_message (mkMessage x02 wire)
  | FlagNewsInTwo a b _ _ _ => encode_message (mkMessage x02 a) ++ encode_message (mkMessage x02 b)
  | PingNews us => concat (map encode_ping us)
  | Other t rest => t :: rest
  end.

Definition flag_word : bytes := lit "flag".

Definition wf_news (E : env) (cs : list Client) (n : news) : Prop :=
  match n with
  | Quiet => True
  | Speech level text => n_of level <> 1 /\ n_of level <> 2 /\ ~ In x00 text
  | Notice text => ~ In x00 text /\ ~ occurs text flag_word
  | Killed wire p x y =>
      wire <> [] /\ ~ In x00 wire /\ In p phrases /\ ph_kind p <> KKilledByMate /\ readable x y /\
      (has_two_names (ph_kind p) = false -> y = []) /\ trimmed (to_unicode E wire) (obituary p x y)
  | KilledByMate wire p victim killer number lo hi =>
      wire <> [] /\ ~ In x00 wire /\ In p phrases /\ ph_kind p = KKilledByMate /\ readable victim [] /\
      trimmed (to_unicode E wire) (obituary p victim []) /\
      exists v k, first_with (fun c => c_name c = victim) cs v /\
        first_with (fun c => c_number c = n_of number) cs k /\
        c_team k = c_team v /\ c_name k = killer /\ killer <> victim
  | FlagNews wire k s name =>
      wire <> [] /\ ~ In x00 wire /\ occurs wire flag_word /\
      In (k, s) flag_phrases /\ quotes_no_flag name /\ to_unicode E wire = name ++ s
  | FlagNewsInTwo a b k s name =>
      a <> [] /\ b <> [] /\ ~ In x00 a /\ ~ In x00 b /\ occurs b flag_word /\
      In (k, s) flag_phrases /\ quotes_no_flag name /\ second_half E b /\ to_unicode E (a ++ b) = name ++ s
  | PingNews us => Forall wf_ping us
  | Other t rest => n_of t <> 8 /\ n_of t <> 36 /\ ~ occurs (t :: rest) flag_word
  end.

(** What is printed, who scores, who does what to a flag, whose ping is reported *)
Definition said (n : news) : list message :=
  match n with
  | Speech level text => [mkMessage level text]
  | Notice text => [mkMessage x02 text]
  | Killed wire _ _ _ | KilledByMate wire _ _ _ _ _ _ => [mkMessage x01 wire]
  | FlagNews wire _ _ _ => [mkMessage x02 wire]
  | FlagNewsInTwo a b _ _ _ => [mkMessage x02 a; mkMessage x02 b]
  | _ => []
  end.
Definition scores (n : news) : list (str * Z) :=
  match n with
  | Killed _ p x y =>
      match ph_kind p with
      | KDies | KOwnWeapon | KKillsMate => [(x, (-1)%Z)]
      | KSuicides => [(x, (-2)%Z)]
      | KKills => [(x, 1%Z)]
      | KKilledBy => [(y, 1%Z)]
      | KKilledByMate => []
      end
  | KilledByMate _ _ _ killer _ _ _ => [(killer, (-1)%Z)]
  | _ => []
  end.
Definition deeds (n : news) : list (deed * str) :=
  match n with
  | FlagNews _ k _ name | FlagNewsInTwo _ _ k _ name => [(k, name)]
  | _ => []
  end.
Definition reported (n : news) : list (N * N) :=
  match n with
  | PingNews us => map (fun u => (n_of (pu_player u), pu_ping u)) us
  | _ => []
  end.

(** A frame of any type that can hold the news *)
Record entry := mkEntry { e_time : byte; e_type : byte; e_mask : bytes; e_news : news }.
Definition frame_of (e : entry) : frame := mkFrame (e_time e) (e_type e) (e_mask e) (body (e_news e)).
Definition wf_entry (E : env) (cs : list Client) (e : entry) : Prop :=
  wf_frame (frame_of e) /\ wf_news E cs (e_news e).

Record recording := mkRecording {
  r_info : bytes;
  r_users : list (bytes * bytes);
  r_users_rest : bytes;
  r_countdown : list entry;
  r_date_time : byte;
  r_date : bytes;
  r_match : list entry;
  r_over_time : byte;
  r_stats : list (N * bytes);
}.

Definition to_all (time : byte) (b : bytes) : frame := mkFrame time x06 [] b.

Definition info_body (r : recording) : bytes :=
  x09 :: serverinfo_mark ++ r_info r ++ lit """" ++ [x0a; x00].
Definition users_body (r : recording) : bytes := spawn_mark ++ run (r_users r) (r_users_rest r).
Definition date_entry (r : recording) : entry :=
  mkEntry (r_date_time r) x06 [] (Notice (lit "matchdate: " ++ r_date r ++ [x0a])).
Definition over_entry (r : recording) : entry :=
  mkEntry (r_over_time r) x06 [] (Notice (lit "The match is over" ++ [x0a])).
Definition stats_body (s : N * bytes) : bytes :=
  enc32 (len (snd s) + 2) ++ enc16 3 ++ enc16 (fst s) ++ snd s.
Definition stats_of (s : N * bytes) : frame := mkFrame x00 x03 [x00; x00; x00; x00] (stats_body s).
Definition end_frame : frame := to_all x00 (x02 :: lit "EndOfDemo" ++ [x00]).

Definition timeline (r : recording) : list entry :=
  r_countdown r ++ date_entry r :: r_match r ++ [over_entry r].
Definition head_frames (r : recording) : list frame := [to_all x00 (info_body r); to_all x00 (users_body r)].
Definition tail_frames (r : recording) : list frame := map stats_of (r_stats r) ++ [end_frame].
Definition frames (r : recording) : list frame :=
  head_frames r ++ map frame_of (timeline r) ++ tail_frames r.

(** Milliseconds *)
Definition lasts (l : list entry) : N := fold_right N.add 0 (map (fun e => n_of (e_time e)) l).

Definition pings_reported (r : recording) : list (N * N) :=
  concat (firstn 8 (filter (fun l => negb (is_empty l)) (map (fun e => reported (e_news e)) (timeline r)))).
Definition all_deeds (r : recording) : list (deed * str) :=
  concat (map (fun e => deeds (e_news e)) (timeline r)).
Definition all_scores (r : recording) : list (str * Z) :=
  concat (map (fun e => scores (e_news e)) (timeline r)).
Definition all_said (r : recording) : list message :=
  concat (map (fun e => said (e_news e)) (timeline r)).

(** [cs] are the clients behind the userinfo strings. *)
Definition roster (E : env) (r : recording) (cs : list Client) : Prop :=
  length cs = length (r_users r) /\
  forall k g s, nth_error (r_users r) k = Some (g, s) ->
    exists c, nth_error cs k = Some c /\ describes (N.of_nat k) (clientinfo_from E (to_unicode E s)) c.

(** A block of statistics whose size is not taken for a print or a ping update *)
Definition wf_stats (s : N * bytes) : Prop :=
  fst s < 65536 /\ len (snd s) < 4294967000 /\ ~ occurs (stats_body s) flag_word /\
  (len (snd s) + 2) mod 256 <> 8 /\ (len (snd s) + 2) mod 256 <> 36.

Record wf_recording (E : env) (cs : list Client) (r : recording) : Prop := {
  (* the serverinfo is text without quotes that ends within the first 1280 bytes *)
  w_info : r_info r <> [] /\ ~ In x22 (r_info r) /\ ~ In x08 (r_info r) /\ ~ In x09 (r_info r) /\ len (r_info r) <= 1256;
  (* the userinfo strings *)
  w_users : r_users r <> [] /\ len (r_users r) <= 256 /\ Forall wf_record (r_users r) /\
            (forall g s l, r_users r = (g, s) :: l -> g <> []) /\ 10 + len (run (r_users r) []) <= 12288;
  w_users_rest : 511 <= len (r_users_rest r) /\ ~ occurs (firstn 511 (r_users_rest r)) name_key;
  w_users_body : ~ In x08 (users_body r) /\ len (users_body r) < 4294967296;
  w_roster : roster E r cs;
  (* the timeline *)
  w_timeline : Forall (wf_entry E cs) (r_countdown r) /\ Forall (wf_entry E cs) (r_match r);
  (* the date *)
  w_date : 22 <= len (r_date r) <= 25 /\ ~ In x0a (r_date r) /\ ~ In x00 (r_date r) /\
           utf8_text (r_date r) /\ ~ occurs (r_date r) flag_word;
  (* the statistics: numbered blocks, the last one 0; the text begins with the version *)
  w_stats : Forall wf_stats (r_stats r);
  w_blocks : exists init c, r_stats r = init ++ [(0, c)] /\ Forall (fun s => fst s <> 0) init;
  w_text : utf8_text (concat (map snd (r_stats r)));
  w_version : exists n more l, r_stats r = (n, version_mark ++ more) :: l /\
                ~ occurs (more ++ encode (map stats_of l)) version_mark;
  (* the marks of the two ends are not written where they would mislead *)
  w_no_date : ~ occurs (encode (head_frames r ++ map frame_of (r_countdown r))) ([x08; x02] ++ lit "matchdate:");
  w_no_over : ~ occurs (encode (map stats_of (r_stats r))) (lit "The match is over");
  (* sizes *)
  w_size : 1280 <= len (encode (frames r)) < 2147483648;
  w_lasts : lasts (timeline r) < 4294967296;
  w_deeds : forall k name, Flags.times k name (all_deeds r) < 256;
  w_pings : forall p, In p (map fst (pings_reported r)) -> sum (pings_of p (pings_reported r)) < 65536;
}.

(** The player behind a client: score and ping as far as the recording tells *)
Record portrait (r : recording) (c : Client) (p : Player) : Prop := {
  po_name : p_name p = c_name c;
  po_team : p_team p = c_team c;
  po_color : p_color p = c_color c;
  po_frags : p_frags p = total (c_name c) (all_scores r);
  po_ping : p_ping p = let l := pings_of (c_number c) (pings_reported r) in if is_empty l then 0 else sum l / len l;
  po_bot : p_is_bot p = c_is_bot c;
  po_auth : p_auth_username p = c_auth_username c;
  po_cc : p_auth_cc p = c_auth_cc c;
}.
