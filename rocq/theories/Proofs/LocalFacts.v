(** Proofs for Properties/Local.v *)
From Coq Require Import Lia Permutation ZifyN ZifyNat ZifyBool.
From Verif.Model Require Import Base Utf8Error Env Bytesextra Serverinfo Clientinfo Clients Matchdate Ktxstats Duration Validate.
From Verif.Spec Require Import Occ Mvd Texts Times Stats Lax Panics Jams.
From Verif.Proofs Require Import BaseFacts TextFacts ClientFacts StatsFacts LaxFacts TailFacts GrowFacts JamFacts BuildFacts PanicExact.

(** ** The head *)
Lemma serverinfo_string_head : forall E h x, 1280 <= len h -> serverinfo_string E (h ++ x) = serverinfo_string E h.
Proof.
  intros E h x L. destruct (serverinfo_string E h) as [r | p |] eqn:R.
  - exact (serverinfo_string_grows E h x r R).
  - apply serverinfo_string_panic in R. lia.
  - exfalso. exact (serverinfo_string_terminates E h R).
Qed.
Lemma serverinfo_head : forall E h x, 1280 <= len h -> serverinfo E (h ++ x) = serverinfo E h.
Proof. intros. unfold serverinfo. rewrite serverinfo_string_head by assumption. reflexivity. Qed.
Lemma filename_head : forall E h x, 1280 <= len h -> filename E (h ++ x) = filename E h.
Proof. intros. unfold filename. rewrite serverinfo_head by assumption. reflexivity. Qed.
Lemma epoch_head : forall E h x, 1280 <= len h -> timestamp_from_epoch E (h ++ x) = timestamp_from_epoch E h.
Proof. intros. unfold timestamp_from_epoch. rewrite serverinfo_head by assumption. reflexivity. Qed.

(** ** The end *)
Lemma end_tail : forall x t, 12 < len t -> has_end_of_demo_print (x ++ t) = has_end_of_demo_print t.
Proof.
  intros x t L. unfold has_end_of_demo_print. change (len END_OF_DEMO) with 12. rewrite len_app.
  replace (12 <? len x + len t) with true by lia. replace (12 <? len t) with true by lia. f_equal. f_equal.
  rewrite skipn_app. rewrite skipn_all2 by (unfold len in *; lia). cbn [app]. f_equal. unfold len in *. lia.
Qed.

(** ** The clients *)
Lemma slice_shift : forall A (a d : list A) i j, slice (a ++ d) (len a + i) (len a + j) = slice d i j.
Proof.
  intros A a d i j. unfold slice. rewrite len_app. replace (len a + i <=? len a + j) with (i <=? j) by lia.
  replace (len a + j <=? len a + len d) with (j <=? len d) by lia. destruct (_ && _)%bool; [| reflexivity]. f_equal.
  unfold sub_list. rewrite skipn_app, skipn_all2 by (unfold len; lia). cbn [app].
  replace (N.to_nat (len a + i) - length a)%nat with (N.to_nat i) by (unfold len; lia). f_equal. lia.
Qed.
Lemma slice_from_shift : forall A (a d : list A) i, slice_from (a ++ d) (len a + i) = slice_from d i.
Proof.
  intros A a d i. unfold slice_from. rewrite len_app. replace (len a + i <=? len a + len d) with (i <=? len d) by lia.
  destruct (_ <=? _); [| reflexivity]. f_equal. rewrite skipn_app, skipn_all2 by (unfold len; lia). cbn [app]. f_equal. unfold len. lia.
Qed.

Lemma clientinfo_loop_shift : forall E a d mx f g o acc, (f <= g)%nat ->
  clientinfo_loop E f (x00 :: d) mx (1 + o) acc <> OutOfFuel ->
  clientinfo_loop E g (a ++ x00 :: d) (len a + mx) (len a + (1 + o)) acc = clientinfo_loop E f (x00 :: d) mx (1 + o) acc.
Proof.
  intros E a d mx. induction f as [| f IH]; intros [| g] o acc L H; [exfalso; exact (H eq_refl) | exfalso; exact (H eq_refl) | lia |].
  rewrite !clientinfo_loop_S in *. rewrite <- N.add_assoc, slice_shift.
  destruct (slice (x00 :: d) (1 + o) _) as [w | |] eqn:W; cbn [bind] in *; [| reflexivity | reflexivity].
  destruct (find w NAME) as [i |]; [| reflexivity].
  set (n := 1 + o + i) in *. replace (len a + (1 + o) + i) with (len a + n) by (unfold n; lia).
  destruct (slice_to (x00 :: d) n) as [b | |] eqn:B; cbn [bind] in *.
  2, 3: unfold slice_to in *; rewrite len_app; destruct (n <=? _) eqn:Q; try discriminate;
        replace (len a + n <=? _) with false by lia; cbn [bind]; congruence.
  destruct (slice_to_inv _ _ _ _ B) as [q [DB LB]].
  assert (B' : slice_to (a ++ x00 :: d) (len a + n) = Ret (a ++ b)).
  { rewrite DB, app_assoc. replace (len a + n) with (len (a ++ b)) by (rewrite len_app; lia). apply slice_to_app. }
  rewrite B'. cbn [bind].
  destruct (rfind_byte b x00) as [z |] eqn:Z.
  2: { exfalso. apply rfind_byte_none in Z. destruct b as [| y b]; [change (len (@nil byte)) with 0 in LB; lia |].
       injection DB as <- _. apply Z. left. reflexivity. }
  assert (Z' : rfind_byte (a ++ b) x00 = Some (len a + z)).
  { apply rfind_byte_some in Z. destruct Z as [p [c [-> [<- N]]]]. rewrite app_assoc, <- len_app. apply rfind_byte_app. exact N. }
  rewrite Z'. replace (len a + z + 1) with (len a + (z + 1)) by lia. rewrite slice_from_shift.
  destruct (slice_from (x00 :: d) (z + 1)) as [af | |]; cbn [bind] in *; [| reflexivity | reflexivity].
  destruct (find_byte af x00) as [t |]; [| reflexivity].
  replace (len a + (z + 1) + t - (len a + (z + 1))) with (z + 1 + t - (z + 1)) by lia.
  destruct (_ && _)%bool; [| reflexivity].
  rewrite <- (N.add_assoc (len a)), slice_shift.
  destruct (slice (x00 :: d) (z + 1) (z + 1 + t)) as [e | |]; cbn [bind] in *; [| reflexivity | reflexivity].
  replace (len a + mx <=? len a + (z + 1 + t)) with (mx <=? z + 1 + t) by lia.
  destruct (mx <=? z + 1 + t); [reflexivity |].
  replace (z + 1 + t) with (1 + (z + t)) in * by lia. apply IH; [lia | exact H].
Qed.

Lemma spawn_after : forall a d, ~ occurs a spawn_mark ->
  match find (x00 :: d) spawn_mark with
  | Some i => 1 <= i /\ find (a ++ x00 :: d) spawn_mark = Some (len a + i)
  | None => find (a ++ x00 :: d) spawn_mark = None
  end.
Proof.
  intros a d N. assert (NI : ~ In x00 spawn_mark) by (vm_compute; intuition discriminate).
  assert (R : forall j, occurs_at (a ++ x00 :: d) spawn_mark j -> len a < j).
  { intros j O. destruct (occurs_at_sep a x00 d spawn_mark j NI O) as [Q | [Q | Q]]; [| exact Q | discriminate].
    exfalso. apply N. apply occurs_iff. exists j. exact (occurs_at_left _ _ _ _ O Q). }
  destruct (find (x00 :: d) spawn_mark) as [i |] eqn:F.
  - apply find_some in F. destruct F as [O M].
    assert (1 <= i). { pose proof (occurs_at_app_r a _ _ _ O) as Q. apply R in Q. lia. }
    split; [assumption |]. apply find_some. split; [apply occurs_at_app_r; exact O |].
    intros j Oj. pose proof (R j Oj). apply occurs_at_right in Oj; [| lia]. apply M in Oj. lia.
  - apply find_none in F. apply find_none. intros O. apply occurs_iff in O. destruct O as [j O]. pose proof (R j O).
    apply occurs_at_right in O; [| lia]. apply F. apply occurs_iff. eauto.
Qed.

Lemma clientinfo_before : forall E a d, ~ occurs a spawn_mark -> clientinfo_strings E (a ++ x00 :: d) = clientinfo_strings E (x00 :: d).
Proof.
  intros E a d N. pose proof (spawn_after a d N) as S. pose proof (clientinfo_strings_fuel E (x00 :: d)) as T.
  unfold clientinfo_strings in *. change CMD_SPAWN with spawn_mark in *. destruct (find (x00 :: d) spawn_mark) as [i |].
  - destruct S as [I ->]. rewrite <- N.add_assoc. replace i with (1 + (i - 1)) in * by lia.
    rewrite (clientinfo_loop_shift E a d _ (S (length (x00 :: d)))); [reflexivity | rewrite app_length; lia |].
    intros Q. rewrite Q in T. exact (T eq_refl).
  - rewrite S. reflexivity.
Qed.
Lemma clients_before : forall E a d, ~ occurs a spawn_mark -> clients E (a ++ x00 :: d) = clients E (x00 :: d).
Proof. intros. unfold clients, clientinfo. rewrite clientinfo_before by assumption. reflexivity. Qed.

(** ** The date *)
Lemma matchdate_between : forall a t x, ~ In x0a t -> first_at (a ++ MATCHDATE_NEEDLE ++ t ++ x0a :: x) MATCHDATE_NEEDLE (len a) ->
  matchdate_string (a ++ MATCHDATE_NEEDLE ++ t ++ x0a :: x) = matchdate_string (MATCHDATE_NEEDLE ++ t ++ [x0a]).
Proof.
  assert (H : forall a t x, ~ In x0a t -> first_at (a ++ MATCHDATE_NEEDLE ++ t ++ x0a :: x) MATCHDATE_NEEDLE (len a) ->
    matchdate_string (a ++ MATCHDATE_NEEDLE ++ t ++ x0a :: x) =
    if (MD_MIN_LEN <=? len t) && (len t <=? MD_MAX_LEN) then if utf8_valid t then Ret (Ok t) else Ret (Err (utf8_error_text t))
    else Ret (Err "Invalid matchdate")).
  { intros a t x N F. unfold matchdate_string. rewrite (proj2 (find_some _ _ _) F).
    rewrite app_assoc, <- len_app. rewrite slice_from_app. cbn [bind]. rewrite find_byte_app by exact N.
    replace (len t + len (a ++ MATCHDATE_NEEDLE) - len (a ++ MATCHDATE_NEEDLE)) with (len t) by lia.
    destruct (_ && _)%bool; [| reflexivity]. rewrite (N.add_comm (len t)), slice_app. reflexivity. }
  intros a t x N F. rewrite H by assumption. symmetry. apply (H [] t [] N). split.
  - exists [], (t ++ [x0a]). split; reflexivity.
  - intros j _. change (len (@nil byte)) with 0. lia.
Qed.

(** ** The statistics *)
Lemma last_shift : forall a d k, last_at d version_mark k -> last_at (a ++ d) version_mark (len a + k).
Proof.
  intros a d k [O M]. split; [apply occurs_at_app_r; exact O |]. intros j Oj.
  destruct (N.lt_ge_cases j (len a)) as [L | L]; [lia |]. apply occurs_at_right in Oj; [| exact L]. apply M in Oj. lia.
Qed.
Lemma skipn_shift : forall A (a d : list A) n m, m = len a + n -> skipn (N.to_nat m) (a ++ d) = skipn (N.to_nat n) d.
Proof.
  intros A a d n m ->. rewrite skipn_app, skipn_all2 by (unfold len; lia). cbn [app]. f_equal. unfold len. lia.
Qed.

Lemma ktxstats_before : forall E a d k, last_at d version_mark k -> 18 <= k -> len (a ++ d) < 9223372036854775808 ->
  ktxstats_string E (a ++ d) = ktxstats_string E d.
Proof.
  intros E a d k LA K B. pose proof (last_shift a d k LA) as LA'.
  assert (Bd : len d < 9223372036854775808) by (rewrite len_app in B; lia).
  assert (SK : skipn (N.to_nat (len a + k - 18)) (a ++ d) = skipn (N.to_nat (k - 18)) d) by (apply skipn_shift; lia).
  assert (FB : from_block (a ++ d) (len a + k) = from_block d k) by (unfold from_block; f_equal; apply skipn_shift; lia).
  destruct (checked E) eqn:CH.
  - destruct (stats_classes (skipn (N.to_nat (k - 18)) d)) as [[text EM] | [q J]].
    + rewrite (ktxstats_embedded_proof E d k text LA K) by (try exact EM; unfold usize_bound; lia).
      rewrite (ktxstats_embedded_proof E (a ++ d) (len a + k) text LA'); [reflexivity | lia | unfold usize_bound; lia |].
      rewrite SK. exact EM.
    + rewrite (jams_stop E d k q CH Bd LA K J). apply (jams_stop E (a ++ d) (len a + k) q CH B LA'); [lia |]. rewrite SK. exact J.
  - destruct (ktxstats_string E d) as [r | p |] eqn:R.
    + destruct (ktxstats_unchecked_inv E d k r CH Bd LA R) as [_ [text EM]].
      rewrite <- R. rewrite (ktxstats_unchecked_proof E d k text CH Bd LA) by (try exact EM; lia).
      apply (ktxstats_unchecked_proof E (a ++ d) (len a + k) text CH B LA'); [lia |]. rewrite FB. exact EM.
    + apply stats_panics_proof in R; [| exact Bd]. apply stats_panics_proof; [exact B |]. rewrite CH in *.
      destruct R as [k' [L' [-> N]]]. pose proof (last_at_unique _ _ _ _ LA L') as <-.
      exists (len a + k). split; [exact LA' |]. split; [reflexivity |]. intros text _. rewrite FB. apply N. lia.
    + exfalso. exact (ktxstats_string_terminates E d Bd R).
Qed.

(** ** Validity *)
Lemma has_clients_strings : forall E d d', clientinfo_strings E d = clientinfo_strings E d' -> has_clients E d = has_clients E d'.
Proof. intros E d d' H. unfold has_clients, clientinfo. rewrite H. reflexivity. Qed.
Lemma is_valid_local_proof : forall E h x t s, first_at h spawn_mark s -> s + 13050 <= len h -> 12 < len t ->
  is_valid E (h ++ x ++ t) = is_valid E (h ++ t).
Proof.
  intros E h x t s F L T. unfold is_valid. rewrite !len_app.
  replace (MIN_SIZE <=? _) with true by (change MIN_SIZE with 1024; lia).
  replace (MIN_SIZE <=? len h + len t) with true by (change MIN_SIZE with 1024; lia).
  rewrite (app_assoc h x t). rewrite (end_tail (h ++ x) t T), (end_tail h t T). rewrite <- app_assoc.
  rewrite !serverinfo_head by lia.
  rewrite (has_clients_strings E (h ++ x ++ t) (h ++ t)); [reflexivity |].
  rewrite !(clientinfo_strings_extend E h _ s F L). reflexivity.
Qed.

Lemma matchdate_alike : forall E d d', matchdate_string d = matchdate_string d' -> matchdate E d = matchdate E d'.
Proof. intros E d d' H. unfold matchdate. rewrite H. reflexivity. Qed.

(** ** What a valid demo guarantees *)
Lemma valid_guarantees_proof : forall E data, is_valid E data = Ret true ->
  has_end_of_demo_print data = true /\ is_paused data = false /\
  (exists s, serverinfo E data = Ret (Ok s)) /\ has_clients E data = Ret true /\
  exists c cs, clients E data = Ret (Ok (c :: cs)).
Proof.
  intros E data V. pose proof V as T. apply is_valid_true_proof in T. destruct T as [L [F [[info I] [s [l C]]]]].
  apply finished_proof in F. split; [exact F |]. split; [unfold is_paused; rewrite F; reflexivity |].
  split; [| split].
  - unfold serverinfo. rewrite (serverinfo_string_found E data info L I). cbn [bind]. eauto.
  - unfold has_clients, clientinfo. rewrite C. reflexivity.
  - unfold clients, clientinfo. rewrite C. cbn [bind map number_clients]. eauto.
Qed.
Lemma valid_no_cut : forall E data, is_valid E data = Ret true -> 1280 <= len data /\ ~ clients_cut_off data.
Proof.
  intros E data V. pose proof V as T. apply is_valid_true_proof in T. destruct T as [L [_ [_ [s [l C]]]]].
  split; [exact L |]. intros K. pose proof (clients_panic_proof E data PSlice) as P. apply Forall_inv in P.
  rewrite (proj2 P (conj eq_refl K)) in C. discriminate.
Qed.
Lemma valid_lists_proof : forall E data, (forall l, Permutation (unicode_sort E l) l) -> is_valid E data = Ret true ->
  exists ns ms ts h b, player_names E data = Ret (Ok ns) /\ spectator_names E data = Ret (Ok ms) /\
    team_names E data = Ret (Ok ts) /\ has_human_players E data = Ret (Ok h) /\ has_bot_players E data = Ret (Ok b) /\
    0 < len ns + len ms /\ (ns = [] <-> ts = []) /\ (ns = [] -> h = false) /\ (ns <> [] -> h = true \/ b = true).
Proof.
  intros E data PE V. destruct (valid_guarantees_proof E data V) as [_ [_ [_ [_ [c [cs C]]]]]].
  unfold player_names, spectator_names, team_names, has_human_players, has_bot_players, player_clients, spectator_clients.
  rewrite C. cbn [bind]. set (all := c :: cs) in *. set (P := filter (fun c => negb (c_is_spectator c)) all).
  assert (LL : forall l, length (unicode_sort E l) = length l) by (intros; apply Permutation_length, PE).
  exists (unicode_sort E (map c_name P)), (unicode_sort E (map c_name (filter c_is_spectator all))),
    (dedup beq (unicode_sort E (map c_team P))), (existsb (fun c => negb (c_is_bot c)) P),
    (if existsb c_is_bot P then true else is_some (rfind data BOT_NEEDLE)).
  repeat (split; [reflexivity |]). split; [destruct (existsb c_is_bot P); reflexivity |].
  split; [| split; [| split]].
  - unfold len. rewrite !LL, !map_length. unfold P, all. cbn [filter]. destruct (c_is_spectator c); cbn [negb length]; lia.
  - destruct P as [| p ps] eqn:EP; cbn [map].
    + rewrite (Permutation_nil (Permutation_sym (PE []))). split; reflexivity.
    + split; intros H; exfalso.
      * apply (f_equal (@length _)) in H. rewrite LL in H. discriminate.
      * pose proof (LL (c_team p :: map c_team ps)) as Q. destruct (unicode_sort E (c_team p :: map c_team ps)) as [| y q]; [discriminate |].
        cbn [dedup] in H. destruct q; cbn in H; [discriminate |]. destruct (beq _ _); discriminate.
  - intros H. apply (f_equal (@length _)) in H. rewrite LL, map_length in H. destruct P; [reflexivity | discriminate].
  - intros H. destruct P as [| p ps] eqn:EP; [exfalso; apply H, Permutation_nil, Permutation_sym, PE |].
    cbn [existsb]. destruct (c_is_bot p); [right; reflexivity | left; reflexivity].
Qed.
