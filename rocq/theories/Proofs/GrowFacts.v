(** What is known of a demo stays known while it grows *)
From Coq Require Import Lia ZifyN ZifyNat ZifyBool.
From Verif.Model Require Import Base Env Bytesextra Serverinfo Clientinfo Clients Prot Message Prints
  Matchdate Flags Ping Validate.
From Verif.Spec Require Import Occ Mvd Messages Flags Pings Texts.
From Verif.Proofs Require Import BaseFacts FrameFacts ClientFacts TailFacts PrintFacts FlagFacts
  WalkProps JoinFacts PanicExact BuildFacts.
Open Scope N_scope.

Lemma find_extend : forall d m p i, find d p = Some i -> find (d ++ m) p = Some i.
Proof. intros d m p i H. apply find_some. apply first_at_extend. apply find_some. exact H. Qed.

Lemma slice_grow : forall A (d m : list A) a b x, slice d a b = Ret x -> slice (d ++ m) a b = Ret x.
Proof. intros A d m a b x H. rewrite slice_extend; [exact H |]. apply slice_bounds in H. lia. Qed.
Lemma slice_to_grow : forall A (d m : list A) b x, slice_to d b = Ret x -> slice_to (d ++ m) b = Ret x.
Proof.
  intros A d m b x. unfold slice_to. rewrite len_app. destruct (b <=? len d) eqn:L; [| discriminate]. intros H.
  replace (b <=? len d + len m) with true by lia. rewrite firstn_app.
  replace (N.to_nat b - length d)%nat with 0%nat by (unfold len in L; lia). cbn [firstn]. rewrite app_nil_r. exact H.
Qed.
Lemma slice_from_grow : forall A (d m : list A) a x, slice_from d a = Ret x -> slice_from (d ++ m) a = Ret (x ++ m).
Proof.
  intros A d m a x. unfold slice_from. rewrite len_app. destruct (a <=? len d) eqn:L; [| discriminate]. intros H. injection H as <-.
  replace (a <=? len d + len m) with true by lia. rewrite skipn_app.
  replace (N.to_nat a - length d)%nat with 0%nat by (unfold len in L; lia). reflexivity.
Qed.

(** ** The serverinfo: the first 1280 bytes *)
Lemma serverinfo_string_grows : forall E d m r, serverinfo_string E d = Ret r -> serverinfo_string E (d ++ m) = Ret r.
Proof.
  intros E d m r. unfold serverinfo_string. destruct (slice_to d (MAX_OFFSET + MAX_SIZE)) as [h | |] eqn:S; cbn [bind]; try discriminate.
  rewrite (slice_to_grow _ d m _ h S). cbn [bind]. destruct (offsets_between h FULLSERVERINFO QUOTE) as [[[a b] |] | |]; cbn [bind]; try discriminate; [| auto].
  destruct (slice d a b) as [x | |] eqn:X; cbn [bind]; try discriminate. rewrite (slice_grow _ d m a b x X). auto.
Qed.
Lemma serverinfo_grows : forall E d m r, serverinfo E d = Ret r -> serverinfo E (d ++ m) = Ret r.
Proof.
  intros E d m r. unfold serverinfo. destruct (serverinfo_string E d) as [s | |] eqn:S; cbn [bind]; try discriminate.
  rewrite (serverinfo_string_grows E d m s S). auto.
Qed.
Lemma filename_grows : forall E d m r, filename E d = Ret r -> filename E (d ++ m) = Ret r.
Proof.
  intros E d m r. unfold filename. destruct (serverinfo E d) as [s | |] eqn:S; cbn [bind]; try discriminate.
  rewrite (serverinfo_grows E d m s S). auto.
Qed.

(** ** The date *)
Lemma matchdate_string_grows : forall d m t, matchdate_string d = Ret (Ok t) -> matchdate_string (d ++ m) = Ret (Ok t).
Proof.
  intros d m t. unfold matchdate_string. destruct (find d MATCHDATE_NEEDLE) as [i |] eqn:F; [| discriminate].
  rewrite (find_extend d m _ i F). destruct (slice_from d (i + len MATCHDATE_NEEDLE)) as [r | |] eqn:S; cbn [bind]; try discriminate.
  rewrite (slice_from_grow _ d m _ r S). cbn [bind]. unfold find_byte. destruct (find r [x0a]) as [j |] eqn:J; [| discriminate].
  rewrite (find_extend r m _ j J). destruct (_ && _)%bool; [| discriminate].
  destruct (slice d _ _) as [x | |] eqn:X; cbn [bind]; try discriminate. rewrite (slice_grow _ d m _ _ x X). auto.
Qed.
Lemma matchdate_grows : forall E d m t, matchdate E d = Ret (Ok t) -> matchdate E (d ++ m) = Ret (Ok t).
Proof.
  intros E d m t. unfold matchdate. destruct (matchdate_string d) as [[s | e] | |] eqn:S; cbn [bind]; try discriminate.
  rewrite (matchdate_string_grows d m s S). auto.
Qed.
Lemma timestamp_grows : forall E d m t, timestamp E d = Ret (Ok t) -> timestamp E (d ++ m) = Ret (Ok t).
Proof.
  intros E d m t. unfold timestamp, timestamp_from_epoch. destruct (serverinfo E d) as [s | |] eqn:S; cbn [bind]; try discriminate.
  rewrite (serverinfo_grows E d m s S). cbn [bind].
  destruct s as [s | e]; [destruct (st_epoch s) |]; cbn [bind]; auto; apply matchdate_grows.
Qed.

(** ** The clients *)
Lemma clientinfo_loop_acc : forall E f d mx o acc l, clientinfo_loop E f d mx o acc = Ret l -> exists k, l = acc ++ k.
Proof.
  intros E f d mx. induction f as [| f IH]; intros o acc l; cbn [clientinfo_loop]; [discriminate |].
  assert (forall x, Ret acc = Ret x -> exists k : list str, x = acc ++ k) as D.
  { intros x H. injection H as <-. exists []. rewrite app_nil_r. reflexivity. }
  destruct (slice d o _) as [w | |]; cbn [bind]; try discriminate. destruct (find w NAME) as [i |]; [| apply D].
  destruct (slice_to d _) as [b | |]; cbn [bind]; try discriminate. destruct (rfind_byte b x00) as [z |]; [| apply D].
  destruct (slice_from d _) as [a | |]; cbn [bind]; try discriminate. destruct (find_byte a x00) as [t |]; [| apply D].
  destruct (_ && _)%bool; [| apply D]. destruct (slice d _ _) as [s | |]; cbn [bind]; try discriminate.
  destruct (mx <=? _).
  - intros H. injection H as <-. eexists. reflexivity.
  - intros H. apply IH in H. destruct H as [k ->]. rewrite <- app_assoc. eexists. reflexivity.
Qed.

(** with more data the loop finds more, at most *)
Lemma clientinfo_loop_grows : forall E f d m mx o acc l, clientinfo_loop E f d mx o acc = Ret l ->
  forall g r, (f <= g)%nat -> clientinfo_loop E g (d ++ m) mx o acc = Ret r -> exists k, r = l ++ k.
Proof.
  intros E f d m mx. induction f as [| f IH]; intros o acc l; cbn [clientinfo_loop]; [discriminate |]. intros H [| g] r L; [lia |]. 
  assert (forall x, Ret acc = Ret x -> clientinfo_loop E (S g) (d ++ m) mx o acc = Ret r -> exists k : list str, r = x ++ k) as D.
  { intros x Q. injection Q as <-. apply clientinfo_loop_acc. }
  intros R. destruct (slice d o _) as [w | |] eqn:SW; cbn [bind] in H; try discriminate.
  destruct (find w NAME) as [i |] eqn:FW; [| exact (D _ H R)].
  destruct (slice_to d _) as [b | |] eqn:SB; cbn [bind] in H; try discriminate. destruct (rfind_byte b x00) as [z |] eqn:FB; [| exact (D _ H R)].
  destruct (slice_from d _) as [a | |] eqn:SA; cbn [bind] in H; try discriminate. destruct (find_byte a x00) as [t |] eqn:FA; [| exact (D _ H R)].
  cbn [clientinfo_loop] in R. rewrite (slice_grow _ d m _ _ w SW) in R. cbn [bind] in R. rewrite FW in R.
  rewrite (slice_to_grow _ d m _ b SB) in R. cbn [bind] in R. rewrite FB in R.
  rewrite (slice_from_grow _ d m _ a SA) in R. cbn [bind] in R.
  assert (find_byte (a ++ m) x00 = Some t) as FA' by (apply find_extend; exact FA). rewrite FA' in R.
  destruct (_ && _)%bool.
  - match type of H with context [slice d ?u ?v] => destruct (slice d u v) as [s | |] eqn:SS end; cbn [bind] in H; try discriminate.
    rewrite (slice_grow _ d m _ _ s SS) in R. cbn [bind] in R.
    destruct (mx <=? _).
    + injection H as <-. injection R as <-. exists []. rewrite app_nil_r. reflexivity.
    + apply (IH _ _ _ H g r); [lia | exact R].
  - injection H as <-. injection R as <-. exists []. rewrite app_nil_r. reflexivity.
Qed.

(** and nothing more if the data ended with a NUL *)
Lemma clientinfo_loop_final : forall E f d m mx o acc l, clientinfo_loop E f (d ++ [x00]) mx o acc = Ret l ->
  forall g, (f <= g)%nat -> clientinfo_loop E g ((d ++ [x00]) ++ m) mx o acc = Ret l.
Proof.
  intros E f d0 m mx. set (d := d0 ++ [x00]). induction f as [| f IH]; intros o acc l; cbn [clientinfo_loop]; [discriminate |]. intros H [| g] L; [lia |].
  cbn [clientinfo_loop]. destruct (slice d o _) as [w | |] eqn:SW; cbn [bind] in H; try discriminate.
  rewrite (slice_grow _ d m _ _ w SW). cbn [bind]. destruct (find w NAME) as [i |] eqn:FW; [| exact H].
  destruct (slice_to d _) as [b | |] eqn:SB; cbn [bind] in H; try discriminate. rewrite (slice_to_grow _ d m _ b SB). cbn [bind].
  destruct (rfind_byte b x00) as [z |] eqn:FB; [| exact H].
  destruct (slice_from d _) as [a | |] eqn:SA; cbn [bind] in H; try discriminate. rewrite (slice_from_grow _ d m _ a SA). cbn [bind].
  destruct (find_byte a x00) as [t |] eqn:FA.
  - assert (find_byte (a ++ m) x00 = Some t) as FA' by (apply find_extend; exact FA). rewrite FA'.
    destruct (_ && _)%bool; [| exact H].
    match type of H with context [slice d ?u ?v] => destruct (slice d u v) as [s | |] eqn:SS end; cbn [bind] in H; try discriminate.
    rewrite (slice_grow _ d m _ _ s SS). cbn [bind].
    destruct (mx <=? _); [exact H |]. apply IH; [exact H | lia].
  - exfalso. apply find_none in FA. apply FA. unfold rfind_byte in FB. apply rfind_some in FB. destruct FB as [O _].
    apply occurs_at_le in O. change (len [x00]) with 1 in O. apply slice_to_inv in SB. destruct SB as [q [QB LB]].
    assert (z + 1 <= len d0) as Z1.
    { pose proof (slice_bounds _ _ _ _ _ SW) as SL. apply slice_inv in SW. destruct SW as (u & v & _ & _ & LW & _). apply find_some in FW. destruct FW as [FW _]. apply occurs_at_le in FW. change (len NAME) with 6 in FW.
      unfold MAX_LOOKAHEAD in *. unfold d in SL. rewrite len_app in SL. change (len [x00]) with 1 in SL. lia. }
    unfold slice_from in SA. destruct (z + 1 <=? len d); [| discriminate]. injection SA as <-.
    exists (skipn (N.to_nat (z + 1)) d0), []. unfold d. rewrite skipn_app.
    replace (N.to_nat (z + 1) - length d0)%nat with 0%nat by (unfold len in Z1; lia). reflexivity.
Qed.

Lemma clientinfo_strings_grow : forall E d m l r, clientinfo_strings E d = Ret (Ok l) ->
  clientinfo_strings E (d ++ m) = Ret r -> exists k, r = Ok (l ++ k).
Proof.
  intros E d m l r. unfold clientinfo_strings. destruct (find d CMD_SPAWN) as [o |] eqn:F; [| discriminate].
  rewrite (find_extend d m _ o F). intros H R.
  destruct (clientinfo_loop E (S (length d)) _ _ _ _) as [x | |] eqn:X; cbn [bind] in H; try discriminate. injection H as <-.
  destruct (clientinfo_loop E (S (length (d ++ m))) _ _ _ _) as [y | |] eqn:Y; cbn [bind] in R; try discriminate. injection R as <-.
  assert (S (length d) <= S (length (d ++ m)))%nat as L by (rewrite app_length; lia).
  destruct (clientinfo_loop_grows E _ d m _ _ _ _ X _ _ L Y) as [k ->]. eauto.
Qed.
Lemma clientinfo_strings_final : forall E d m l, clientinfo_strings E (d ++ [x00]) = Ret (Ok l) ->
  clientinfo_strings E ((d ++ [x00]) ++ m) = Ret (Ok l).
Proof.
  intros E d m l. unfold clientinfo_strings. destruct (find (d ++ [x00]) CMD_SPAWN) as [o |] eqn:F; [| discriminate].
  rewrite (find_extend (d ++ [x00]) m _ o F). intros H.
  destruct (clientinfo_loop E (S (length (d ++ [x00]))) _ _ _ _) as [x | |] eqn:X; cbn [bind] in H; try discriminate. injection H as <-.
  rewrite (clientinfo_loop_final E _ d m _ _ _ _ X); [reflexivity |]. rewrite (app_length (d ++ [x00])). lia.
Qed.

Lemma number_clients_app : forall a b i, number_clients i (a ++ b) = number_clients i a ++ number_clients (i + len a) b.
Proof.
  induction a as [| x a IH]; intros b i; cbn [app number_clients]; [rewrite N.add_0_r; reflexivity |].
  rewrite IH, len_cons. do 3 f_equal. lia.
Qed.

Lemma clients_grow_proof : forall E d m cs r, clients E d = Ret (Ok cs) -> clients E (d ++ m) = Ret r -> exists k, r = Ok (cs ++ k).
Proof.
  intros E d m cs r. unfold clients, clientinfo. destruct (clientinfo_strings E d) as [[l | e] | |] eqn:S; cbn [bind]; try discriminate.
  intros H R. injection H as <-. destruct (clientinfo_strings E (d ++ m)) as [x | |] eqn:X; cbn [bind] in R; try discriminate.
  destruct (clientinfo_strings_grow E d m l x S X) as [k ->]. cbn [bind] in R. injection R as <-.
  rewrite map_app, number_clients_app. eauto.
Qed.
Lemma clients_final_proof : forall E d m cs, clients E (d ++ [x00]) = Ret (Ok cs) -> clients E ((d ++ [x00]) ++ m) = Ret (Ok cs).
Proof.
  intros E d m cs. unfold clients, clientinfo. destruct (clientinfo_strings E (d ++ [x00])) as [[l | e] | |] eqn:S; cbn [bind]; try discriminate.
  rewrite (clientinfo_strings_final E d m l S). auto.
Qed.

(** ** The prints *)
Lemma collapse_cons : forall A (dec : forall x y : A, {x = y} + {x <> y}) a b, exists c, collapse dec (a ++ b) = collapse dec a ++ c.
Proof.
  intros A dec a b. induction a as [| x [| y a] IH]; [eexists; reflexivity | |].
  - destruct b as [| y b]; [exists []; reflexivity |]. cbn [app collapse]. destruct (dec x y); [| eexists; reflexivity].
    subst y. clear. revert x. induction b as [| z b IH]; intros x; [exists []; reflexivity |].
    cbn [collapse]. destruct (dec x z); [subst z; apply IH | eexists; reflexivity].
  - destruct IH as [c IH]. exists c. change ((x :: y :: a) ++ b) with (x :: y :: a ++ b). change ((y :: a) ++ b) with (y :: a ++ b) in IH.
    change (collapse dec (x :: y :: a ++ b)) with (if dec x y then collapse dec (y :: a ++ b) else x :: collapse dec (y :: a ++ b)).
    change (collapse dec (x :: y :: a)) with (if dec x y then collapse dec (y :: a) else x :: collapse dec (y :: a)).
    destruct (dec x y); rewrite IH; reflexivity.
Qed.

(** the frames of grown data *)
Lemma grown_frames : forall fs rest m, wf fs -> exists gs rest', (encode fs ++ rest) ++ m = encode (fs ++ gs) ++ rest' /\
  wf (fs ++ gs) /\ no_frame rest'.
Proof.
  intros fs rest m W. destruct (decompose (rest ++ m)) as [gs [rest' [D [W' N]]]]. exists gs, rest'.
  rewrite encode_app, <- !app_assoc, D. split; [reflexivity |]. split; [apply Forall_app; auto | exact N].
Qed.

Lemma demo_messages_app : forall fs gs, demo_messages (fs ++ gs) = demo_messages fs ++ demo_messages gs.
Proof. intros fs gs. unfold demo_messages. rewrite map_app, concat_app, filter_app. reflexivity. Qed.

Lemma prints_grow_proof : forall E d m l r, prints E d = Ret l -> prints E (d ++ m) = Ret r -> exists k, r = l ++ k.
Proof.
  intros E d m l r H R. destruct (cut_off_cases d) as [fs [rest [-> [W [N [[S _] | [O _]]]]]]].
  - rewrite (prints_quiet E fs rest W S) in H. injection H as <-.
    destruct (grown_frames fs rest m W) as [gs [rest' [D [W' N']]]]. rewrite D in R.
    destruct (rest_cases (len (encode (fs ++ gs) ++ rest')) rest') as [S' | O']; [rewrite len_app; lia | exact N' | |].
    + rewrite (prints_quiet E _ _ W' S') in R. injection R as <-. rewrite demo_messages_app, map_app. apply collapse_cons.
    + rewrite (prints_crash E _ _ W' O') in R. discriminate.
  - rewrite (prints_crash E fs rest W O) in H. discriminate.
Qed.

(** ** The flags *)
Lemma flags_ret : forall E fs rest tbl, wf fs -> no_frame rest -> flag_events_per_player_name E (encode fs ++ rest) = Ret tbl ->
  forall ds, Forall2 (tells_of E) fs ds -> counts tbl (concat ds) /\ (checked E = true -> forall k n, Flags.times k n (concat ds) < 256).
Proof.
  intros E fs rest tbl W N F ds D. destruct (rest_cases (len (encode fs ++ rest)) rest) as [S | O]; [rewrite len_app; lia | exact N | |].
  2: { rewrite (flags_crash_proof E fs rest W O) in F. discriminate. }
  destruct (tells_of_all E fs ds D) as [texts [per [A [T Q]]]]. rewrite <- Q.
  assert (checked E = true -> forall k n, Flags.times k n (concat per) < 256) as C.
  { intros C k n. destruct (N.lt_ge_cases (Flags.times k n (concat per)) 256) as [L | G]; [exact L |].
    rewrite (flags_overflow_proof E fs rest texts per W S A T C) in F; [discriminate | eauto]. }
  split; [| exact C]. destruct (flags_counted_proof E fs rest texts per W S A T) as [t [R X]].
  - destruct (checked E); [right; apply C; reflexivity | left; reflexivity].
  - congruence.
Qed.

Lemma times_app : forall k n a b, Flags.times k n (a ++ b) = Flags.times k n a + Flags.times k n b.
Proof. intros k n a b. unfold Flags.times. rewrite filter_app, len_app. reflexivity. Qed.

Lemma flags_grow_proof : forall E d m a b, flag_events_per_player_name E d = Ret a -> flag_events_per_player_name E (d ++ m) = Ret b ->
  forall name p, In (name, p) a -> exists q, In (name, q) b /\
    (checked E = true -> forall k, counter k p <= counter k q).
Proof.
  intros E d m a b FA FB name p I. destruct (decompose d) as [fs [rest [-> [W N]]]].
  destruct (grown_frames fs rest m W) as [gs [rest' [D [W' N']]]]. rewrite D in FB.
  destruct (tells_of_exists E fs) as [ds T]. destruct (tells_of_exists E gs) as [es U].
  destruct (flags_ret E fs rest a W N FA ds T) as [(_ & KA & CA) BA].
  destruct (flags_ret E (fs ++ gs) rest' b W' N' FB (ds ++ es) (Forall2_app T U)) as [(_ & KB & CB) BB].
  rewrite concat_app in *. assert (In name (map fst a)) as IA by (apply in_map_iff; exists (name, p); auto).
  apply KA in IA. assert (In name (map fst b)) as IB by (apply KB; rewrite map_app; apply in_or_app; auto).
  apply in_map_iff in IB. destruct IB as [[n q] [Q IB]]. cbn [fst] in Q. subst n. exists q. split; [exact IB |].
  intros C k. rewrite (CA _ _ k I), (CB _ _ k IB). specialize (BA C k name). specialize (BB C k name).
  rewrite !N.mod_small by assumption. rewrite times_app. lia.
Qed.

(** ** Marks *)
Lemma aborted_grows : forall d m, is_aborted d = true -> is_aborted (d ++ m) = true.
Proof.
  intros d m. unfold is_aborted. destruct (find d MATCH_STOPPED_PRINT) as [i |] eqn:F; [| discriminate].
  rewrite (find_extend d m _ i F). auto.
Qed.

Lemma player_clients_grow : forall E d m cs r, player_clients E d = Ret (Ok cs) -> player_clients E (d ++ m) = Ret r -> exists k, r = Ok (cs ++ k).
Proof.
  intros E d m cs r. unfold player_clients. destruct (clients E d) as [[l | e] | |] eqn:S; cbn [bind]; try discriminate.
  intros H R. injection H as <-. destruct (clients E (d ++ m)) as [x | |] eqn:X; cbn [bind] in R; try discriminate.
  destruct (clients_grow_proof E d m l x S X) as [k ->]. cbn [bind] in R. injection R as <-. rewrite filter_app. eauto.
Qed.
Lemma human_grows : forall E d m r, has_human_players E d = Ret (Ok true) -> has_human_players E (d ++ m) = Ret r -> r = Ok true.
Proof.
  intros E d m r. unfold has_human_players. destruct (player_clients E d) as [[l | e] | |] eqn:S; cbn [bind]; try discriminate.
  intros H R. destruct (player_clients E (d ++ m)) as [x | |] eqn:X; cbn [bind] in R; try discriminate.
  destruct (player_clients_grow E d m l x S X) as [k ->]. cbn [bind] in R. injection R as <-. injection H as H.
  rewrite existsb_app, H. reflexivity.
Qed.
Lemma bot_grows : forall E d m r, has_bot_players E d = Ret (Ok true) -> has_bot_players E (d ++ m) = Ret r -> r = Ok true.
Proof.
  intros E d m r. unfold has_bot_players. destruct (player_clients E d) as [[l | e] | |] eqn:S; cbn [bind]; try discriminate.
  intros H R. destruct (player_clients E (d ++ m)) as [x | |] eqn:X; cbn [bind] in R; try discriminate.
  destruct (player_clients_grow E d m l x S X) as [k ->]. cbn [bind] in R. rewrite existsb_app in R.
  destruct (existsb c_is_bot l); cbn [orb] in R; [congruence |]. destruct (existsb c_is_bot k); [congruence |].
  injection H as H. injection R as <-. f_equal.
  destruct (rfind d BOT_NEEDLE) as [i |] eqn:F; [| discriminate]. apply rfind_some in F. destruct F as [[u [v [-> LU]]] _].
  destruct (rfind ((u ++ BOT_NEEDLE ++ v) ++ m) BOT_NEEDLE) eqn:G; [reflexivity |]. apply rfind_none in G. exfalso. apply G.
  exists u, (v ++ m). rewrite <- !app_assoc. reflexivity.
Qed.
