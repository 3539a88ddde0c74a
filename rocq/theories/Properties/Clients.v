(** C21 to C25: userinfo strings, clients, name lists. *)
From Coq Require Import Lia Permutation.
From Verif.Model Require Import Base Env Clientinfo Clients.
From Verif.Spec Require Import Occ Texts Clientlist.
From Verif.Proofs Require Import BaseFacts ClientFacts.
From Verif.Properties Require Import Sample.

(** C21 *)
Theorem clientinfo_run : forall E pre recs post,
  first_at (pre ++ spawn_mark ++ run recs post) spawn_mark (len pre) ->
  Forall wf_record recs -> (forall g s r, recs = (g, s) :: r -> g <> []) ->
  10 + len (run recs []) <= 12288 ->
  511 <= len post -> ~ occurs (firstn 511 post) name_key ->
  clientinfo_strings E (pre ++ spawn_mark ++ run recs post) = Ret (Ok (map (fun r => to_unicode E (snd r)) recs)).
Proof. exact clientinfo_strings_run_proof. Qed.

(** three records, one with a gap like the one the server writes, one sharing its NUL *)
Definition three_records : list (bytes * bytes) :=
  [ ([x00; x28; x00; x07; x00; x00; x00], lit "\team\red\name\alice");
    ([x28; x01; x08; x00; x00; x00], lit "\name\bob\*spectator\1");
    ([], lit "\name\carol") ].

Lemma wf_record_check : forall g s i,
  (g = [] \/ exists h, g = h ++ [x00]) -> find g name_key = None -> find s name_key = Some i ->
  find_byte s x00 = None -> 7 <= len s <= 256 -> len g + i <= 496 -> wf_record (g, s).
Proof.
  intros g s i G NG FS NS L LI. split; cbn [fst snd].
  - split; [apply find_byte_none; exact NS |]. split; [exact L |].
    apply occurs_iff. exists i. apply find_some. exact FS.
  - split; [exact G |]. split; [apply find_none; exact NG |]. exists i. split; [apply find_some; exact FS | exact LI].
Qed.

Example three_records_wf : Forall wf_record three_records /\
  first_at (lit "junk" ++ spawn_mark ++ run three_records (repeat x01 511)) spawn_mark (len (lit "junk")) /\
  10 + len (run three_records []) <= 12288 /\ ~ occurs (firstn 511 (repeat x01 511)) name_key.
Proof.
  split.
  { apply Forall_cons; [| apply Forall_cons; [| apply Forall_cons; [| apply Forall_nil]]];
      (eapply wf_record_check; [| vm_compute; reflexivity | vm_compute; reflexivity | vm_compute; reflexivity
                                | split; vm_compute; discriminate | vm_compute; discriminate]).
    - right. exists [x00; x28; x00; x07; x00; x00]. reflexivity.
    - right. exists [x28; x01; x08; x00; x00]. reflexivity.
    - left. reflexivity. }
  split; [apply find_some; vm_compute; reflexivity |]. split; [vm_compute; discriminate |].
  apply find_none. vm_compute. reflexivity.
Qed.

Example three_records_result :
  clientinfo_strings (sample true) (lit "junk" ++ spawn_mark ++ run three_records (repeat x01 511))
  = Ret (Ok [lit "\team\red\name\alice"; lit "\name\bob\*spectator\1"; lit "\name\carol"]).
Proof. vm_compute. reflexivity. Qed.

(** C22 *)
Theorem clientinfo_shape : forall E data l, clientinfo_strings E data = Ret (Ok l) ->
  exists spawn st, first_at data spawn_mark spawn /\
    l = map (fun x => to_unicode E (snd x)) st /\ in_order st /\
    Forall (fun '(i, s) => delimited_at data i s /\ is_userinfo s /\ i + 1 < spawn + 24 * 512 + 512) st.
Proof. exact clientinfo_strings_shape_proof. Qed.

Theorem clientinfo_missing : forall E data, ~ occurs data spawn_mark <->
  clientinfo_strings E data = Ret (Err "Unable to find clientinfo strings").
Proof. exact clientinfo_strings_missing_proof. Qed.

Theorem clientinfo_returns : forall E data spawn, first_at data spawn_mark spawn ->
  spawn + 12799 <= len data -> exists l, clientinfo_strings E data = Ret (Ok l).
Proof. exact clientinfo_strings_returns_proof. Qed.

(** The bound cannot be dropped: a demo that is cut off behind the mark. *)
Theorem clientinfo_returns_refuted : forall E, exists data, len data < 521 + 1 /\
  first_at data spawn_mark 0 /\ clientinfo_strings E data = Panic PSlice.
Proof.
  intros E. exists (spawn_mark ++ repeat x01 501). split; [vm_compute; reflexivity |].
  split; [apply find_some; vm_compute; reflexivity |]. vm_compute. reflexivity.
Qed.

Example clientinfo_returns_example :
  first_at (spawn_mark ++ run three_records (repeat x01 12750)) spawn_mark 0 /\
  0 + 12799 <= len (spawn_mark ++ run three_records (repeat x01 12750)).
Proof. split; [apply find_some; reflexivity | vm_compute; discriminate]. Qed.

(** C23 *)
Theorem clients_numbered : forall E data l, clientinfo_strings E data = Ret (Ok l) -> len l <= 256 ->
  exists cs, clients E data = Ret (Ok cs) /\ length cs = length l /\
    forall k s, nth_error l k = Some s ->
      exists c, nth_error cs k = Some c /\ describes (N.of_nat k) (clientinfo_from E s) c.
Proof.
  intros E data l H L. destruct (clients_numbered_proof E data l H) as [cs [C [LC D]]].
  exists cs. split; [exact C |]. split; [exact LC |]. intros k s K. destruct (D k s K) as [c [N DC]].
  exists c. split; [exact N |]. rewrite N.mod_small in DC; [exact DC |].
  assert (k < length l)%nat by (apply nth_error_Some; congruence). unfold len in L. lia.
Qed.

Theorem clients_wrap : forall E data l, clientinfo_strings E data = Ret (Ok l) ->
  exists cs, clients E data = Ret (Ok cs) /\ length cs = length l /\
    forall k s, nth_error l k = Some s ->
      exists c, nth_error cs k = Some c /\ describes (N.of_nat k mod 256) (clientinfo_from E s) c.
Proof. exact clients_numbered_proof. Qed.

Theorem clients_fail : forall E data,
  (forall e, clientinfo_strings E data = Ret (Err e) -> clients E data = Ret (Err e)) /\
  (forall p, clientinfo_strings E data = Panic p -> clients E data = Panic p).
Proof. exact clients_fail_proof. Qed.

(** 257 clients: the last one gets number 0 again. *)
Theorem clients_numbered_refuted : exists data cs c, clients (sample true) data = Ret (Ok cs) /\
  nth_error cs 256 = Some c /\ c_number c = 0.
Proof.
  exists (spawn_mark ++ run ((lit "x" ++ [x00], lit "\name\a") :: repeat ([], lit "\name\b") 256) (repeat x01 511)).
  do 2 eexists. split; [vm_compute; reflexivity |]. split; vm_compute; reflexivity.
Qed.

Theorem players_and_spectators : forall E data cs, clients E data = Ret (Ok cs) ->
  exists ps ss, player_clients E data = Ret (Ok ps) /\ spectator_clients E data = Ret (Ok ss) /\
    splits (fun c => c_is_spectator c = true) cs ss ps.
Proof. exact players_spectators_proof. Qed.

Theorem each_client_once : forall A (P : A -> Prop) l a b, splits P l a b ->
  Permutation l (a ++ b) /\ Forall P a /\ Forall (fun x => ~ P x) b.
Proof.
  intros A P l a b H. split; [eapply splits_perm; exact H |].
  induction H as [| x l a b Px _ [IA IB] | x l a b Px _ [IA IB]]; split; auto.
Qed.

Definition clients_data : bytes := lit "junk" ++ spawn_mark ++ run three_records (repeat x01 511).

Example clients_data_result : exists a b c,
  clients (sample true) clients_data = Ret (Ok [a; b; c]) /\
  (c_name a, c_number a, c_team a) = (lit "alice", 0, lit "red") /\
  (c_name b, c_number b, c_is_spectator b) = (lit "bob", 1, true) /\
  (c_name c, c_number c, c_team c) = (lit "carol", 2, []) /\
  player_clients (sample true) clients_data = Ret (Ok [a; c]) /\
  spectator_clients (sample true) clients_data = Ret (Ok [b]).
Proof. do 3 eexists. split; [vm_compute; reflexivity |]. repeat split; vm_compute; reflexivity. Qed.

(** C24.  [unicode_sort] is the sort of the text library. *)
Theorem name_lists : forall E data ps ss, (forall l, Permutation (unicode_sort E l) l) ->
  player_clients E data = Ret (Ok ps) -> spectator_clients E data = Ret (Ok ss) ->
  exists pn sn, player_names E data = Ret (Ok pn) /\ Permutation pn (map c_name ps) /\
                spectator_names E data = Ret (Ok sn) /\ Permutation sn (map c_name ss).
Proof. exact names_proof. Qed.

Theorem team_list : forall E data ps, (forall l, Permutation (unicode_sort E l) l) ->
  player_clients E data = Ret (Ok ps) ->
  exists ts, team_names E data = Ret (Ok ts) /\
    (forall t, In t ts <-> exists p, In p ps /\ c_team p = t) /\
    (groups_equals (unicode_sort E) -> NoDup ts).
Proof. exact team_names_proof. Qed.

(** With a sort that ignores case, team names can be listed twice. *)
Definition nocase : env := {|
  checked := true; eof_on_short_read := true; to_unicode := fun s => s; to_utf8 := fun s => s;
  unicode_sort := sort_by (fun a b => str_cmp (map ascii_lower a) (map ascii_lower b));
  clientinfo_from := sample_clientinfo; settings_from := sample_settings;
  ktxstats_from := ktxstats_from (sample true); parse_datetime := parse_datetime (sample true);
  to_lowercase := map ascii_lower; players_order := fun l => l; teams_order := fun l => l;
  colors_order := fun _ l => l |}.

Lemma insert_by_perm : forall A (cmp : A -> A -> comparison) x l, Permutation (insert_by cmp x l) (x :: l).
Proof.
  intros A cmp x l. induction l as [| y l IH]; cbn [insert_by]; [reflexivity |].
  destruct (cmp x y); try reflexivity. rewrite IH. constructor.
Qed.
Lemma sort_by_perm : forall A (cmp : A -> A -> comparison) l, Permutation (sort_by cmp l) l.
Proof.
  intros A cmp l. induction l as [| x l IH]; cbn [sort_by]; [reflexivity |].
  rewrite insert_by_perm. constructor. exact IH.
Qed.

Theorem team_list_refuted : exists E data ts, (forall l, Permutation (unicode_sort E l) l) /\
  team_names E data = Ret (Ok ts) /\ ~ NoDup ts.
Proof.
  exists nocase,
    (spawn_mark ++ run [ (lit "x" ++ [x00], lit "\name\a\team\Red"); ([], lit "\name\b\team\red");
                         ([], lit "\name\c\team\Red") ] (repeat x01 511)),
    [lit "Red"; lit "red"; lit "Red"].
  split; [intros l; apply sort_by_perm |]. split; [vm_compute; reflexivity |].
  intros H. inv H. apply H2. right. left. reflexivity.
Qed.

Example sample_sort : forall l, Permutation (unicode_sort (sample true) l) l.
Proof. intros l. apply sort_by_perm. Qed.

Example team_list_example : team_names (sample true)
    (spawn_mark ++ run [ (lit "x" ++ [x00], lit "\name\a\team\Red"); ([], lit "\name\b\team\red");
                         ([], lit "\name\c\team\Red") ] (repeat x01 511))
  = Ret (Ok [lit "Red"; lit "red"]) /\
  player_names (sample true) clients_data = Ret (Ok [lit "alice"; lit "carol"]).
Proof. split; vm_compute; reflexivity. Qed.

(** C25 *)
Theorem humans : forall E data ps, player_clients E data = Ret (Ok ps) ->
  exists b, has_human_players E data = Ret (Ok b) /\ (b = true <-> exists p, In p ps /\ c_is_bot p = false).
Proof. exact humans_proof. Qed.

Theorem bots : forall E data ps, player_clients E data = Ret (Ok ps) ->
  exists b, has_bot_players E data = Ret (Ok b) /\
    (b = true <-> (exists p, In p ps /\ c_is_bot p = true) \/ occurs data (lit """bot"": {")).
Proof. exact bots_proof. Qed.

Theorem humans_or_bots : forall E data p ps, player_clients E data = Ret (Ok (p :: ps)) ->
  has_human_players E data = Ret (Ok true) \/ has_bot_players E data = Ret (Ok true).
Proof. exact humans_or_bots_proof. Qed.

Definition bot_data (post : bytes) : bytes :=
  spawn_mark ++ run [ (lit "x" ++ [x00], lit "\name\a\*bot\1"); ([], lit "\name\b\*spectator\1") ]
                    (post ++ repeat x01 511).
Example bot_examples :
  has_human_players (sample true) (bot_data []) = Ret (Ok false) /\
  has_bot_players (sample true) (bot_data []) = Ret (Ok true) /\
  has_human_players (sample true) clients_data = Ret (Ok true) /\
  has_bot_players (sample true) clients_data = Ret (Ok false) /\
  has_bot_players (sample true) (clients_data ++ lit "x""bot"": {}") = Ret (Ok true).
Proof. repeat split; vm_compute; reflexivity. Qed.

Print Assumptions clientinfo_run.
Print Assumptions clientinfo_shape.
Print Assumptions clientinfo_missing.
Print Assumptions clientinfo_returns.
Print Assumptions clientinfo_returns_refuted.
Print Assumptions clients_numbered.
Print Assumptions clients_wrap.
Print Assumptions clients_fail.
Print Assumptions clients_numbered_refuted.
Print Assumptions players_and_spectators.
Print Assumptions each_client_once.
Print Assumptions name_lists.
Print Assumptions team_list.
Print Assumptions team_list_refuted.
Print Assumptions humans.
Print Assumptions bots.
Print Assumptions humans_or_bots.
