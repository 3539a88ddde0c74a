(** The tables of a demo can be anything *)
From Coq Require Import Lia ZifyN ZifyNat ZifyBool Permutation.
From Verif.Model Require Import Base Env Serverinfo Clientinfo Clients Prints Frags Flags Ping Players
  Ktxstats Matchdate Duration Validate.
From Verif.Spec Require Import Order Teams Summary Times Clientlist Occ Mvd Messages Obituary Names Score Flags Pings
  Stats Texts Utf8 Recording Tables.
From Verif.Proofs Require FlagFacts.
From Verif.Proofs Require Import BaseFacts TextFacts ObituaryFacts RecordingFacts RecordingTexts TablesFacts.
From Verif.Properties Require Import Sample Recording.
Open Scope N_scope.

(** C99: the three tables that were written are found again, all at once. *)
Theorem tables_as_written : forall E cs r pen ws fl pg, wf_recording E cs r -> calm r ->
  score_table_ok E pen ws -> flag_table_ok E pen fl -> ping_table_ok pg ->
  let d := encode (frames (enact r (written pen ws fl pg))) in len d < 2147483648 ->
  (exists a, frags_per_player_name E d = Ret a /\ same_rows a ws) /\
  (exists b, flag_events_per_player_name E d = Ret b /\ same_rows b fl) /\
  (if is_empty pg then ping_per_player_number E d = Ret (Err "Unable to read pings")
   else exists c, ping_per_player_number E d = Ret (Ok c) /\ same_rows c (map (fun x => (n_of (fst x), snd x)) pg)).
Proof. intros E cs r pen ws fl pg W C S F P d L. exact (tables_proof E cs r pen ws fl pg W C S F P L). Qed.

(** Whatever they are, nothing else changes. *)
Theorem tables_apart : forall E cs r pen ws fl pg, wf_recording E cs r -> calm r ->
  score_table_ok E pen ws -> flag_table_ok E pen fl -> ping_table_ok pg ->
  let d := encode (frames r) in let d' := encode (frames (enact r (written pen ws fl pg))) in len d' < 2147483648 ->
  (is_valid E d' = is_valid E d /\ serverinfo E d' = serverinfo E d /\ clients E d' = clients E d /\
   matchdate_string d' = matchdate_string d /\ ktxstats_string E d' = ktxstats_string E d /\
   demo_duration E d' = demo_duration E d) /\
  (st_mode (settings_from E (to_utf8 E (r_info r))) <> Some (lit "hoonymode") ->
   countdown_duration E d' = countdown_duration E d /\
   match_duration_from_seeking E d' = match_duration_from_seeking E d).
Proof.
  intros E cs r pen ws fl pg W C S F P d d' L.
  split; [exact (rest_proof E cs r pen ws fl pg W C S F P L) | exact (parts_proof E cs r pen ws fl pg W C S F P L)].
Qed.

(** The players carry the written scores and pings. *)
Theorem tables_of_players : forall E cs r pen ws fl pg m, wf_recording E cs r -> calm r ->
  score_table_ok E pen ws -> flag_table_ok E pen fl -> ping_table_ok pg ->
  let d := encode (frames (enact r (written pen ws fl pg))) in len d < 2147483648 ->
  iterates (players_order E) -> pg <> [] -> ktxstats_from E (concat (map snd (r_stats r))) = Err m ->
  exists es l, players E d = Ret (Ok l) /\
    Forall2 (tabled ws pg) (filter (fun c => negb (c_is_spectator c)) cs) es /\
    Permutation es l /\ in_order_of better l.
Proof. intros E cs r pen ws fl pg m W C S F P d L IT NE K. exact (tabled_proof E cs r pen ws fl pg W C S F P L m IT NE K). Qed.

(** The sample night without its match, and three tables for it *)
Definition calm_night : recording := mkRecording (r_info night) (r_users night) (r_users_rest night) (r_countdown night)
  (r_date_time night) (r_date night) [] (r_over_time night) (r_stats night).
Definition pen_scores : list (str * Z) := [(lit "anna", (-3)%Z); (lit "carl", 2%Z); (lit "eve", 0%Z)].
Definition pen_flags : list (str * PlayerFlagEvents) := [(lit "carl", mkPfe 0 1 0 0 2 0 0); (lit "bob", mkPfe 1 1 1 1 1 1 1)].
Definition pen_pings : list (byte * N) := [(x01, 999); (x00, 25)].

Example calm_night_wf : wf_recording (sample true) night_clients calm_night /\ calm calm_night.
Proof.
  pose proof night_wf as W. split; [constructor |].
  - apply (w_info _ _ _ W).
  - apply (w_users _ _ _ W).
  - apply (w_users_rest _ _ _ W).
  - apply (w_users_body _ _ _ W).
  - apply (w_roster _ _ _ W).
  - split; [apply (w_timeline _ _ _ W) | constructor].
  - apply (w_date _ _ _ W).
  - apply (w_stats _ _ _ W).
  - apply (w_blocks _ _ _ W).
  - apply (w_text _ _ _ W).
  - apply (w_version _ _ _ W).
  - apply (w_no_date _ _ _ W).
  - apply (w_no_over _ _ _ W).
  - split; vm_compute; [discriminate | reflexivity].
  - vm_compute. reflexivity.
  - intros k name. reflexivity.
  - intros p [].
  - repeat constructor.
Qed.

Example pen_tables_ok : score_table_ok (sample true) (fun t => t) pen_scores /\
  flag_table_ok (sample true) (fun t => t) pen_flags /\ ping_table_ok pen_pings.
Proof.
  split; [| split].
  - split; [repeat constructor; cbn; intuition discriminate |].
    intros x v I.
    assert (existsb (Byte.eqb x20) x = false /\ trim_end (kill_text x) = kill_text x /\ trim_end (death_text x) = death_text x /\
      existsb (Byte.eqb x00) (kill_text x) = false /\ existsb (Byte.eqb x00) (death_text x) = false) as (H1 & H2 & H3 & H4 & H5)
      by (destruct I as [I | [I | [I | []]]]; injection I as <- <-; repeat split; vm_compute; reflexivity).
    split; [left; split; [apply not_in; exact H1 | repeat split; try discriminate; intros []] |].
    intros t [-> | ->]; (split; [destruct x; discriminate |]); (split; [apply not_in; assumption |]); apply trimmed_iff; symmetry; assumption.
  - split; [repeat constructor; cbn; intuition discriminate |].
    intros x p I.
    assert (existsb (Byte.eqb x0a) x = false /\ (exists k, 0 < counter k p) /\ forall k, counter k p < 256 /\
      existsb (Byte.eqb x00) (x ++ deed_phrase k) = false /\ exists j, find (x ++ deed_phrase k) flag_word = Some j) as (H1 & H2 & H3).
    { destruct I as [I | [I | []]]; injection I as <- <-;
        (split; [vm_compute; reflexivity |]; split; [exists Takes; reflexivity |]);
        intros k; (split; [destruct k; reflexivity |]); (split; [destruct k; vm_compute; reflexivity |]);
        destruct k; eexists; vm_compute; reflexivity. }
    split; [apply FlagFacts.quotes_none_line, not_in; exact H1 |]. split; [exact H2 |]. intros k. destruct (H3 k) as (B & Z & j & J).
    split; [exact B |]. split; [apply not_in; exact Z |]. split; [| reflexivity].
    apply occurs_iff. exists j. apply find_some. exact J.
  - split; [repeat constructor; cbn; intuition discriminate |].
    intros p v [I | [I | []]]; injection I as <- <-; reflexivity.
Qed.

Definition penned : bytes := encode (frames (enact calm_night (written (fun t => t) pen_scores pen_flags pen_pings))).
Example penned_tables : len penned < 2147483648 /\
  frags_per_player_name (sample true) penned = Ret pen_scores /\
  ping_per_player_number (sample true) penned = Ret (Ok [(1, 999); (0, 25)]).
Proof. split; [vm_compute; reflexivity |]. split; vm_compute; reflexivity. Qed.

Print Assumptions tables_as_written.
Print Assumptions tables_apart.
Print Assumptions tables_of_players.
