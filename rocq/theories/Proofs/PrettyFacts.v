(** What [{:#?}] writes. *)
From Coq Require Import Lia ZifyN ZifyNat ZifyBool.
From Verif.Model Require Import Base Env Float Prot Message Clients Players Flags Ktxstats Debug Pretty.
From Verif.Spec Require Import Occ Times Faults Flags Shown Pretty.
From Verif.Proofs Require Import BaseFacts DecimalFacts LiteralFacts ServerFacts ShownFacts.
Open Scope N_scope.

Definition visible (b : byte) : Prop := 32 <= n_of b < 127.
Definition plain (x : line) : Prop := Forall visible (snd x) /\ exists c t, snd x = c :: t /\ n_of c <> 32.

(** Lines that all end with a line break. *)
Definition rows (ls : list line) : bytes := flat_map (fun x => spaces (fst x) ++ snd x ++ [x0a]) ls.

Lemma rows_app : forall a b, rows (a ++ b) = rows a ++ rows b.
Proof. intros a b. apply flat_map_app. Qed.

Lemma page_last : forall ls t, page (ls ++ [(0%nat, t)]) = rows ls ++ t.
Proof.
  induction ls as [| [d u] ls IH]; intros t; [reflexivity |]. cbn [rows flat_map fst snd app].
  assert (page ((d, u) :: ls ++ [(0%nat, t)]) = spaces d ++ u ++ [x0a] ++ page (ls ++ [(0%nat, t)])) as E by (destruct ls; reflexivity).
  rewrite E, IH. unfold rows. rewrite <- !app_assoc. reflexivity.
Qed.

Lemma visible_break : forall b, visible b -> Byte.eqb b NL = false.
Proof.
  intros b H. destruct (Byte.eqb b NL) eqn:E; [| reflexivity]. apply Byte.byte_dec_bl in E. subst b.
  unfold visible in H. change (n_of NL) with 10 in H. lia.
Qed.

Lemma pad_inside : forall t r, Forall visible t -> pad false (t ++ NL :: r) = t ++ NL :: pad true r.
Proof.
  induction t as [| b t IH]; intros r F; [reflexivity |]. inv F. cbn [app pad].
  rewrite visible_break by assumption. rewrite IH by assumption. reflexivity.
Qed.

Lemma spaces_visible : forall d, Forall visible (spaces d).
Proof.
  induction d as [| d IH]; [constructor |]. unfold spaces. cbn [repeat concat]. apply Forall_app. split; [| exact IH].
  repeat constructor; vm_compute; congruence.
Qed.

Lemma pad_line : forall t r, Forall visible t -> t <> [] -> pad true (t ++ NL :: r) = lit "    " ++ t ++ NL :: pad true r.
Proof.
  intros [| b t] r F N; [congruence |]. inv F. cbn [app pad]. rewrite visible_break by assumption.
  rewrite pad_inside by assumption. reflexivity.
Qed.

Lemma pad_rows : forall ls, Forall plain ls -> pad true (rows ls) = rows (deeper 1 ls).
Proof.
  induction ls as [| [d t] ls IH]; intros F; [reflexivity |]. inv F. destruct H1 as [V (c & t' & E & _)].
  cbn [snd] in V, E. unfold rows. cbn [flat_map deeper map fst snd]. fold (rows ls). fold (deeper 1 ls). fold (rows (deeper 1 ls)).
  replace ((spaces d ++ t ++ [x0a]) ++ rows ls) with ((spaces d ++ t) ++ NL :: rows ls) by (rewrite <- !app_assoc; reflexivity).
  rewrite pad_line.
  - rewrite IH by assumption. unfold spaces at 2. cbn [Nat.add repeat concat]. fold (spaces d). rewrite <- !app_assoc. reflexivity.
  - apply Forall_app. split; [apply spaces_visible | exact V].
  - subst t. destruct (spaces d); discriminate.
Qed.

Lemma deeper_app : forall k a b, deeper k (a ++ b) = deeper k a ++ deeper k b.
Proof. intros. apply map_app. Qed.
Lemma deeper_plain : forall k ls, Forall plain ls -> Forall plain (deeper k ls).
Proof. intros k ls F. unfold deeper. apply Forall_map. exact F. Qed.
Lemma deeper_twice : forall ls, deeper 1 (deeper 1 ls) = deeper 2 ls.
Proof. intros ls. unfold deeper. rewrite map_map. reflexivity. Qed.

(** Texts in one line. *)
Lemma lit_visible : forall s, forallb (fun b => (32 <=? n_of b) && (n_of b <? 127)) (lit s) = true -> Forall visible (lit s).
Proof.
  intros s H. rewrite forallb_forall in H. apply Forall_forall. intros b I. specialize (H b I). unfold visible. lia.
Qed.

Lemma number_visible : forall n t, shows_number n t -> Forall visible t /\ exists c u, t = c :: u /\ n_of c <> 32.
Proof.
  intros n t [ds [[W [_ F]] ->]]. split.
  - clear F. induction W as [| d ds H W IH]; constructor; [| exact IH].
    assert (n_of (digit_char d) = 48 + d) as Q by (apply n_of_digit_char; exact H). unfold visible. lia.
  - assert (exists d r, ds = d :: r) as [d [r ->]] by (destruct F as [-> | [d [r [-> _]]]]; eauto).
    inv W. exists (digit_char d), (numeral r). split; [reflexivity |].
    assert (n_of (digit_char d) = 48 + d) as Q by (apply n_of_digit_char; assumption). lia.
Qed.

Definition inline (t : bytes) : Prop := Forall visible t /\ exists c u, t = c :: u /\ n_of c <> 32.

Ltac seen := apply lit_visible; vm_compute; reflexivity.

Lemma text_inline : forall s t, shows_text s t -> inline t.
Proof.
  intros s t H. split; [exact (text_printable s t H) |]. destruct H as [ps [_ ->]]. eexists _, _. split; [reflexivity |].
  vm_compute. discriminate.
Qed.
Lemma integer_inline : forall z t, shows_integer z t -> inline t.
Proof.
  intros z t (n & u & H & [[_ ->] | [_ [_ ->]]]); [exact (number_visible n u H) |].
  split; [apply Forall_app; split; [seen | exact (proj1 (number_visible n u H))] |].
  eexists _, _. split; [reflexivity |]. vm_compute. discriminate.
Qed.
Lemma bool_inline : forall b t, shows_bool b t -> inline t.
Proof.
  intros b t [[_ ->] | [_ ->]]; (split; [seen | eexists _, _; split; [reflexivity | vm_compute; discriminate]]).
Qed.
Lemma id_inline : forall i t, shows_id i t -> inline t.
Proof.
  intros i t H. unfold shows_id in H. cbn [In] in H.
  repeat (destruct H as [H | H]; [injection H as _ <-; split; [seen | eexists _, _; split; [reflexivity | vm_compute; discriminate]] |]).
  contradiction.
Qed.
Lemma inline_comma : forall d t, inline t -> plain (d, t ++ lit ",").
Proof.
  intros d t [V (c & u & -> & N)]. split; [apply Forall_app; split; [exact V | seen] |]. eexists _, _. split; [reflexivity | exact N].
Qed.

Ltac fixed := split; [cbn [snd]; match goal with |- Forall _ ?t => let u := eval vm_compute in t in change (Forall visible u) end; repeat constructor; vm_compute; discriminate | eexists _, _; split; [reflexivity | vm_compute; discriminate]].

(** Field names. *)
Definition word (name : string) : Prop := inline (lit name).
Ltac is_word := split; [seen | eexists _, _; split; [reflexivity | vm_compute; discriminate]].

Lemma value_plain : forall name t, word name -> Forall visible t -> Forall plain (value_line name t).
Proof.
  intros name t [V (c & u & E & N)] F. constructor; [| constructor]. split.
  - cbn [snd]. apply Forall_app. split; [exact V |]. apply Forall_app. split; [seen |]. apply Forall_app. split; [exact F | seen].
  - cbn [snd]. rewrite E. eexists _, _. split; [reflexivity | exact N].
Qed.

Lemma field_line : forall name t, word name -> Forall visible t -> pretty_field name t = rows (value_line name t).
Proof.
  intros name t W F. pose proof (value_plain name t W F) as P. inv P.
  change (rows (value_line name t)) with (rows (deeper 1 [(0%nat, lit name ++ lit ": " ++ t ++ lit ",")])).
  rewrite <- pad_rows by (constructor; [exact H1 | constructor]). unfold pretty_field, rows. cbn [flat_map fst snd].
  f_equal. unfold spaces. cbn [repeat concat app]. rewrite <- !app_assoc. reflexivity.
Qed.

Lemma option_plain : forall name o ls, word name -> option_lines name o ls -> Forall plain ls.
Proof.
  intros name o ls W [[_ ->] | (s & t & _ & T & ->)]; [apply value_plain; [exact W | seen] |].
  destruct W as [V (c & u & E & N)].
  constructor; [| constructor; [apply inline_comma; exact (text_inline s t T) | constructor; [fixed | constructor]]].
  split; cbn [snd]; [apply Forall_app; split; [exact V | seen] | rewrite E; eexists _, _; split; [reflexivity | exact N]].
Qed.

(** A value in several lines as a field. *)
Lemma field_rows : forall name t l0 ls l1, Forall plain ((0%nat, lit name ++ lit ": " ++ l0) :: ls ++ [(0%nat, l1 ++ lit ",")]) ->
  t = l0 ++ [NL] ++ rows ls ++ l1 ->
  pretty_field name t = rows ((1%nat, lit name ++ lit ": " ++ l0) :: deeper 1 ls ++ [(1%nat, l1 ++ lit ",")]).
Proof.
  intros name t l0 ls l1 P ->.
  transitivity (rows (deeper 1 ((0%nat, lit name ++ lit ": " ++ l0) :: ls ++ [(0%nat, l1 ++ lit ",")]))).
  - rewrite <- pad_rows by exact P. unfold pretty_field. f_equal. unfold rows. cbn [flat_map fst snd].
    rewrite flat_map_app. cbn [flat_map fst snd]. unfold spaces. cbn [repeat concat app]. rewrite <- !app_assoc. cbn [app].
    rewrite <- !app_assoc. reflexivity.
  - unfold deeper. cbn [map]. rewrite map_app. reflexivity.
Qed.

Lemma pad_inline : forall t, inline t -> pad true (t ++ lit "," ++ [NL]) = rows [(1%nat, t ++ lit ",")].
Proof.
  intros t I. change [(1%nat, t ++ lit ",")] with (deeper 1 [(0%nat, t ++ lit ",")]).
  rewrite <- pad_rows by (constructor; [apply inline_comma; exact I | constructor]). f_equal. unfold rows. cbn [flat_map fst snd].
  unfold spaces. cbn [repeat concat app]. rewrite <- !app_assoc. reflexivity.
Qed.

Lemma option_field : forall name o, word name -> ascii_option o ->
  exists ls, option_lines name o ls /\ pretty_field name (pretty_option debug_str o) = rows ls.
Proof.
  intros name [s |] W A.
  - pose proof (text_shown s (A s eq_refl)) as T. eexists. split; [right; exists s, (debug_str s); split; [reflexivity |]; split; [exact T | reflexivity] |].
    apply (field_rows name _ (lit "Some(") [(1%nat, debug_str s ++ lit ",")] (lit ")")).
    + destruct W as [V (c & u & E & N)]. constructor.
      * split; cbn [snd]; [apply Forall_app; split; [exact V | change (Forall visible (lit ": Some(")); seen] | rewrite E; eexists _, _; split; [reflexivity | exact N]].
      * constructor; [apply inline_comma; exact (text_inline s _ T) | constructor; [fixed | constructor]].
    + unfold pretty_option. rewrite pad_inline by exact (text_inline s _ T). reflexivity.
  - exists (value_line name (lit "None")). split; [left; split; reflexivity |]. apply field_line; [exact W | seen].
Qed.

Lemma color_plain : forall m n u v, shows_number m u -> shows_number n v -> Forall plain (color_lines u v).
Proof.
  intros m n u v U V. constructor; [fixed |]. constructor; [apply inline_comma; exact (number_visible m u U) |].
  constructor; [apply inline_comma; exact (number_visible n v V) |]. constructor; [fixed | constructor].
Qed.

Lemma color_field : forall c, pretty_field "color" (pretty_color c) = rows (color_lines (debug_u (fst c)) (debug_u (snd c))).
Proof.
  intros c. pose proof (number_visible _ _ (number_shown (fst c))) as A. pose proof (number_visible _ _ (number_shown (snd c))) as B.
  apply (field_rows "color" _ (lit "[") [(1%nat, debug_u (fst c) ++ lit ","); (1%nat, debug_u (snd c) ++ lit ",")] (lit "]")).
  - constructor; [fixed |]. constructor; [apply inline_comma; exact A |]. constructor; [apply inline_comma; exact B |].
    constructor; [fixed | constructor].
  - unfold pretty_color, pretty_list. cbn [flat_map]. rewrite !pad_inline by assumption. unfold rows. cbn [flat_map].
    rewrite !app_nil_r, <- !app_assoc. reflexivity.
Qed.

Lemma struct_page : forall name fields ls, concat fields = rows ls ->
  pretty_struct name fields = page (((0%nat, lit name ++ lit " {") :: ls) ++ [(0%nat, lit "}")]).
Proof.
  intros name fields ls E. rewrite page_last. unfold pretty_struct. rewrite E. unfold rows. cbn [flat_map fst snd].
  unfold spaces. cbn [repeat concat app]. rewrite <- !app_assoc. reflexivity.
Qed.

Lemma rows_cons : forall f fs a b, f = rows a -> concat fs = rows b -> concat (f :: fs) = rows (a ++ b).
Proof. intros f fs a b -> H. cbn [concat]. rewrite H, rows_app. reflexivity. Qed.
Lemma rows_one : forall f a, f = rows a -> concat [f] = rows a.
Proof. intros f a ->. apply app_nil_r. Qed.

Definition number_seen n := proj1 (number_visible _ _ (number_shown n)).
Definition integer_seen z := proj1 (integer_inline _ _ (integer_shown z)).
Definition bool_seen b := proj1 (bool_inline _ _ (bool_shown b)).
Definition id_seen i := proj1 (id_inline _ _ (id_shown i)).
Lemma text_seen : forall s, ascii s -> Forall visible (debug_str s).
Proof. intros s A. exact (proj1 (text_inline _ _ (text_shown s A))). Qed.

Ltac value := apply field_line; [is_word | first [apply number_seen | apply integer_seen | apply bool_seen | apply id_seen | apply text_seen; assumption]].
Ltac values := repeat (apply rows_cons; [first [value | apply color_field | eassumption] |]); apply rows_one; first [value | eassumption].

Lemma print_pretty_proof : forall to_ascii p, ascii (to_ascii (pr_content p)) ->
  braced (print_lines (pr_id p) (to_ascii (pr_content p))) (pretty_print to_ascii p).
Proof.
  intros ta p A. eexists. split; [do 2 eexists; split; [apply id_shown |]; split; [apply text_shown; exact A | reflexivity] |].
  apply struct_page. values.
Qed.

Lemma deeds_pretty : forall e, braced (deeds_lines (fun k => counter k e)) (pretty_flag_events e).
Proof.
  intros e. eexists. split; [do 7 eexists; cbn [counter]; do 7 (split; [apply number_shown |]); reflexivity |].
  apply struct_page. values.
Qed.

Lemma client_pretty_proof : forall c, ascii_client c -> braced (client_lines c) (pretty_client c).
Proof.
  intros c (A1 & A2 & A3 & A4). destruct (option_field "auth_username" _ ltac:(is_word) A3) as [l7 [O7 F7]].
  destruct (option_field "auth_cc" _ ltac:(is_word) A4) as [l8 [O8 F8]].
  eexists. split.
  - do 9 eexists. split; [apply number_shown |]. split; [apply text_shown; exact A1 |]. split; [apply text_shown; exact A2 |].
    split; [apply number_shown |]. split; [apply number_shown |]. split; [apply bool_shown |]. split; [apply bool_shown |].
    split; [exact O7 |]. split; [exact O8 | reflexivity].
  - apply struct_page. values.
Qed.

Lemma player_pretty_proof : forall p, ascii_player p -> braced (player_lines p) (pretty_player p).
Proof.
  intros p (A1 & A2 & A3 & A4). destruct (option_field "auth_username" _ ltac:(is_word) A3) as [l7 [O7 F7]].
  destruct (option_field "auth_cc" _ ltac:(is_word) A4) as [l8 [O8 F8]].
  eexists. split.
  - do 9 eexists. split; [apply text_shown; exact A1 |]. split; [apply text_shown; exact A2 |].
    split; [apply number_shown |]. split; [apply number_shown |]. split; [apply integer_shown |]. split; [apply number_shown |].
    split; [apply bool_shown |]. split; [exact O7 |]. split; [exact O8 | reflexivity].
  - apply struct_page. values.
Qed.

Lemma server_pretty_proof : forall s, ascii_server s -> braced (server_lines s) (pretty_server s).
Proof.
  intros s (A1 & A2 & A3). eexists. split.
  - do 4 eexists. split; [apply text_shown; exact A1 |]. split; [apply text_shown; exact A2 |]. split; [apply text_shown; exact A3 |].
    split; [apply number_shown | reflexivity].
  - apply struct_page. values.
Qed.

(** All lines are printable and begin with something other than a space. *)
Ltac plain_value := apply value_plain; [is_word |
  first [seen | eapply number_visible; eassumption | eapply integer_inline; eassumption | eapply bool_inline; eassumption
        | eapply text_inline; eassumption | eapply id_inline; eassumption]].
Ltac plain_all := constructor; [fixed |];
  repeat (apply Forall_app; split; [first [plain_value | eapply color_plain; eassumption | (eapply option_plain; [| eassumption]; is_word)] |]);
  first [plain_value | (eapply option_plain; [| eassumption]; is_word)].

Lemma print_plain : forall i s ls, print_lines i s ls -> Forall plain ls.
Proof. intros i s ls (u & v & U & V & ->). plain_all. Qed.
Lemma deeds_plain : forall n ls, deeds_lines n ls -> Forall plain ls.
Proof. intros n ls (a1 & a2 & a3 & a4 & a5 & a6 & a7 & A1 & A2 & A3 & A4 & A5 & A6 & A7 & ->). plain_all. Qed.
Lemma client_plain : forall c ls, client_lines c ls -> Forall plain ls.
Proof. intros c ls (a1 & a2 & a3 & u & v & a5 & a6 & l7 & l8 & A1 & A2 & A3 & U & V & A5 & A6 & A7 & A8 & ->). plain_all. Qed.
Lemma player_plain : forall p ls, player_lines p ls -> Forall plain ls.
Proof. intros p ls (a1 & a2 & u & v & a4 & a5 & a6 & l7 & l8 & A1 & A2 & U & V & A4 & A5 & A6 & A7 & A8 & ->). plain_all. Qed.
Lemma server_plain : forall s ls, server_lines s ls -> Forall plain ls.
Proof. intros s ls (a1 & a2 & a3 & a4 & A1 & A2 & A3 & A4 & ->). plain_all. Qed.

Lemma entries_plain : forall A (f : A -> list line -> Prop), (forall x ls, f x ls -> Forall plain ls) ->
  forall l ls, entries f l ls -> Forall plain ls.
Proof.
  intros A f P l. induction l as [| x l IH]; intros ls H; cbn [entries] in H; [subst; constructor |].
  destruct H as (h & r & X & R & ->). apply Forall_app. split; [exact (P x h X) |]. constructor; [fixed | exact (IH r R)].
Qed.

Lemma entries_pretty : forall A (f : A -> list line -> Prop) g l,
  (forall x ls, f x ls -> Forall plain ls) -> (forall x, In x l -> braced (f x) (g x)) ->
  exists es, entries f l es /\ flat_map (fun x => pad true (g x ++ lit "," ++ [NL])) l = rows (deeper 1 es).
Proof.
  intros A f g l P. induction l as [| x l IH]; intros H; [exists []; split; reflexivity |].
  destruct IH as [r [R E]]; [intros y I; apply H; right; exact I |].
  destruct (H x) as [h [X Q]]; [left; reflexivity |].
  exists (h ++ (0%nat, lit "},") :: r). split; [exists h, r; auto |].
  cbn [flat_map]. rewrite E, Q, page_last.
  replace (h ++ (0%nat, lit "},") :: r) with ((h ++ [(0%nat, lit "},")]) ++ r) by (rewrite <- app_assoc; reflexivity).
  rewrite (deeper_app 1 (h ++ _) r), (rows_app (deeper 1 (h ++ _))). f_equal.
  rewrite <- pad_rows.
  - f_equal. rewrite rows_app, <- app_assoc. reflexivity.
  - apply Forall_app. split; [exact (P x h X) | constructor; [fixed | constructor]].
Qed.

Lemma list_pretty : forall A (f : A -> list line -> Prop) g l,
  (forall x ls, f x ls -> Forall plain ls) -> (forall x, In x l -> braced (f x) (g x)) -> list_page f l (pretty_list g l).
Proof.
  intros A f g [| x l] P H; [left; split; reflexivity |]. right.
  destruct (entries_pretty A f g (x :: l) P H) as [es [S E]]. exists es. split; [discriminate |]. split; [exact S |].
  change ((0%nat, lit "[") :: deeper 1 es ++ [(0%nat, lit "]")]) with (((0%nat, lit "[") :: deeper 1 es) ++ [(0%nat, lit "]")]).
  rewrite page_last. unfold pretty_list. rewrite E. unfold rows. cbn [flat_map fst snd]. reflexivity.
Qed.

Lemma team_plain : forall t ls, team_lines t ls -> Forall plain ls.
Proof.
  intros t ls (a1 & u & v & a3 & a4 & l5 & A1 & U & V & A3 & A4 & A5 & ->).
  constructor; [fixed |]. apply Forall_app. split; [plain_value |]. apply Forall_app. split; [eapply color_plain; eassumption |].
  apply Forall_app. split; [plain_value |]. apply Forall_app. split; [plain_value |].
  destruct A5 as [[_ ->] | (es & _ & S & ->)]; [plain_value |]. constructor; [fixed |]. apply Forall_app.
  split; [apply deeper_plain; exact (entries_plain _ _ player_plain _ _ S) | constructor; [fixed | constructor]].
Qed.

Lemma team_pretty_proof : forall t, ascii_team t -> braced (team_lines t) (pretty_team t).
Proof.
  intros t (A1 & A2).
  assert (exists l5, ((t_players t = [] /\ l5 = value_line "players" (lit "[]")) \/
     exists es, t_players t <> [] /\ entries player_lines (t_players t) es /\
       l5 = (1%nat, lit "players: [") :: deeper 2 es ++ [(1%nat, lit "],")]) /\
     pretty_field "players" (pretty_list pretty_player (t_players t)) = rows l5) as [l5 [O5 F5]].
  { destruct (t_players t) as [| p ps].
    - eexists. split; [left; split; reflexivity |]. apply field_line; [is_word | seen].
    - destruct (entries_pretty _ player_lines pretty_player (p :: ps) player_plain) as [es [X E]].
      { intros x I. apply player_pretty_proof. rewrite Forall_forall in A2. exact (A2 x I). }
      eexists. split; [right; exists es; split; [discriminate |]; split; [exact X | reflexivity] |].
      rewrite <- deeper_twice. apply (field_rows "players" _ (lit "[") (deeper 1 es) (lit "]")).
      + constructor; [fixed |]. apply Forall_app.
        split; [apply deeper_plain; exact (entries_plain _ _ player_plain _ _ X) | constructor; [fixed | constructor]].
      + unfold pretty_list. rewrite E. reflexivity. }
  eexists. split.
  - do 6 eexists. split; [apply text_shown; exact A1 |]. split; [apply number_shown |]. split; [apply number_shown |].
    split; [apply integer_shown |]. split; [apply number_shown |]. split; [exact O5 | reflexivity].
  - apply struct_page. values.
Qed.

(** The lines can be told apart. *)
Lemma spaces_parts : forall d e c t c' t', n_of c <> 32 -> n_of c' <> 32 ->
  spaces d ++ c :: t = spaces e ++ c' :: t' -> d = e /\ c :: t = c' :: t'.
Proof.
  induction d as [| d IH]; intros [| e] c t c' t' N M H.
  - auto.
  - exfalso. apply N. change (c :: t = x20 :: (x20 :: x20 :: x20 :: spaces e ++ c' :: t')) in H. injection H as -> _. reflexivity.
  - exfalso. apply M. change (x20 :: (x20 :: x20 :: x20 :: spaces d ++ c :: t) = c' :: t') in H. injection H as <- _. reflexivity.
  - change (lit "    " ++ (spaces d ++ c :: t) = lit "    " ++ (spaces e ++ c' :: t')) in H. apply app_inv_head in H.
    destruct (IH e c t c' t' N M H) as [-> Q]. auto.
Qed.

Lemma break_parts : forall t u r q, Forall visible t -> Forall visible u -> t ++ NL :: r = u ++ NL :: q -> t = u /\ r = q.
Proof.
  induction t as [| b t IH]; intros [| c u] r q T U H; cbn [app] in H.
  - injection H as ->. auto.
  - inv U. injection H as <- _. exfalso. vm_compute in H2. destruct H2 as [H2 _]. congruence.
  - inv T. injection H as -> _. exfalso. vm_compute in H2. destruct H2 as [H2 _]. congruence.
  - inv T. inv U. injection H as -> H. destruct (IH u r q H3 H5 H) as [-> ->]. auto.
Qed.

Lemma rows_unique : forall a b, Forall plain a -> Forall plain b -> rows a = rows b -> a = b.
Proof.
  assert (forall d t a, rows ((d, t) :: a) = spaces d ++ t ++ NL :: rows a) as R.
  { intros d t a. unfold rows. cbn [flat_map fst snd]. rewrite <- !app_assoc. reflexivity. }
  induction a as [| [d t] a IH]; intros [| [e u] b] A B H; rewrite ?R in H.
  - reflexivity.
  - exfalso. change (rows []) with (@nil byte) in H. destruct (spaces e), u; discriminate.
  - exfalso. change (rows []) with (@nil byte) in H. destruct (spaces d), t; discriminate.
  - inv A. inv B. destruct H2 as [V1 (c & t' & E1 & N1)]. destruct H4 as [V2 (c' & u' & E2 & N2)]. cbn [snd] in *. subst t u.
    destruct (spaces_parts d e c (t' ++ NL :: rows a) c' (u' ++ NL :: rows b) N1 N2 H) as [-> H'].
    destruct (break_parts (c :: t') (c' :: u') (rows a) (rows b) V1 V2 H') as [Q H2]. rewrite Q. f_equal. apply IH; assumption.
Qed.

Lemma page_rows : forall ls, ls <> [] -> page ls ++ [NL] = rows ls.
Proof.
  induction ls as [| [d t] ls IH]; intros N; [congruence |]. destruct ls as [| x ls].
  - cbn [page rows flat_map fst snd]. rewrite app_nil_r, <- !app_assoc. reflexivity.
  - change (page ((d, t) :: x :: ls)) with (spaces d ++ t ++ [x0a] ++ page (x :: ls)).
    change (rows ((d, t) :: x :: ls)) with ((spaces d ++ t ++ [x0a]) ++ rows (x :: ls)).
    rewrite <- IH by discriminate. rewrite <- !app_assoc. reflexivity.
Qed.

Lemma page_unique : forall a b, Forall plain a -> Forall plain b -> a <> [] -> b <> [] -> page a = page b -> a = b.
Proof. intros a b A B N M H. apply rows_unique; [assumption .. |]. rewrite <- !page_rows by assumption. congruence. Qed.

Lemma braced_unique : forall (f g : list line -> Prop) t,
  (forall ls, f ls -> Forall plain ls) -> (forall ls, g ls -> Forall plain ls) -> braced f t -> braced g t -> exists ls, f ls /\ g ls.
Proof.
  intros f g t P Q [a [A ->]] [b [B H]]. exists a. split; [exact A |].
  apply page_unique in H.
  - apply app_inj_tail in H. destruct H as [-> _]. exact B.
  - apply Forall_app. split; [exact (P a A) | constructor; [fixed | constructor]].
  - apply Forall_app. split; [exact (Q b B) | constructor; [fixed | constructor]].
  - destruct a; discriminate.
  - destruct b; discriminate.
Qed.

Definition line_parts {A} (f : A -> list line -> Prop) : Prop :=
  forall a b x y r q, f a x -> f b y -> x ++ r = y ++ q -> a = b /\ r = q.

Lemma value_parts : forall A (f : A -> bytes -> Prop) name a b t u r q, parts f -> f a t -> f b u ->
  value_line name t ++ r = value_line name u ++ q -> a = b /\ r = q.
Proof.
  intros A f name a b t u r q P T U H. cbn [value_line app] in H. injection H as H R.
  apply app_inv_head in H. apply (app_inv_head (lit ": ")) in H. destruct (P a b t u _ _ T U H eq_refl eq_refl) as [-> _]. auto.
Qed.

Lemma color_line_parts : forall c d u v u' v' r q, shows_number (fst c) u -> shows_number (snd c) v ->
  shows_number (fst d) u' -> shows_number (snd d) v' -> color_lines u v ++ r = color_lines u' v' ++ q -> c = d /\ r = q.
Proof.
  intros [c1 c2] [d1 d2] u v u' v' r q U V U' V' H. cbn [fst snd] in *. cbn [color_lines app] in H. injection H as H1 H2 H3.
  destruct (number_parts _ _ _ _ _ _ U U' H1 eq_refl eq_refl) as [-> _].
  destruct (number_parts _ _ _ _ _ _ V V' H2 eq_refl eq_refl) as [-> _]. auto.
Qed.

Lemma option_line_parts : forall name o o' x y r q, option_lines name o x -> option_lines name o' y -> x ++ r = y ++ q -> o = o' /\ r = q.
Proof.
  intros name o o' x y r q [[-> ->] | (s & t & -> & T & ->)] [[-> ->] | (s' & t' & -> & T' & ->)] H;
    cbn [value_line app] in H.
  - injection H as H. auto.
  - exfalso. injection H as H _. apply app_inv_head in H. discriminate.
  - exfalso. injection H as H _. apply app_inv_head in H. discriminate.
  - injection H as H1 H2. destruct (text_parts _ _ _ _ _ _ T T' H1 eq_refl eq_refl) as [-> _]. auto.
Qed.

Lemma id_once : forall a b t, shows_id a t -> shows_id b t -> a = b.
Proof. intros a b t A B. exact (proj1 (id_parts a b t t [] [] A B eq_refl)). Qed.

Lemma print_lines_parts : forall i j s s' ls, print_lines i s ls -> print_lines j s' ls -> i = j /\ s = s'.
Proof.
  intros i j s s' ls (u & v & U & V & ->) (u' & v' & U' & V' & H). injection H as H1 H2.
  apply (app_inj_tail u u') in H1. destruct H1 as [-> _]. apply (app_inj_tail v v') in H2. destruct H2 as [-> _].
  split; [exact (id_once _ _ _ U U') | exact (shown_once _ _ text_parts _ _ _ V V')].
Qed.

Lemma deeds_lines_parts : forall n m ls, deeds_lines n ls -> deeds_lines m ls -> forall k, n k = m k.
Proof.
  intros n m ls (a1 & a2 & a3 & a4 & a5 & a6 & a7 & A1 & A2 & A3 & A4 & A5 & A6 & A7 & ->)
    (b1 & b2 & b3 & b4 & b5 & b6 & b7 & B1 & B2 & B3 & B4 & B5 & B6 & B7 & H).
  injection H as H1 H2 H3 H4 H5 H6 H7.
  repeat match goal with H : ?a ++ _ = ?b ++ _ |- _ => apply (app_inj_tail a b) in H; destruct H as [-> _] end.
  intros []; eapply (shown_once _ _ number_parts); eassumption.
Qed.

Ltac next P A B H Q := destruct (value_parts _ _ _ _ _ _ _ _ _ P A B H) as [Q H1]; clear H; rename H1 into H.

Lemma client_line_parts : line_parts client_lines.
Proof.
  intros c d x y r q (a1 & a2 & a3 & u & v & a5 & a6 & l7 & l8 & A1 & A2 & A3 & U & V & A5 & A6 & A7 & A8 & ->)
    (b1 & b2 & b3 & u' & v' & b5 & b6 & m7 & m8 & B1 & B2 & B3 & U' & V' & B5 & B6 & B7 & B8 & ->) H.
  apply (f_equal (@tl line)) in H. cbn [app tl] in H. rewrite <- !app_assoc in H.
  next number_parts A1 B1 H Q1. next text_parts A2 B2 H Q2. next text_parts A3 B3 H Q3.
  destruct (color_line_parts _ _ _ _ _ _ _ _ U V U' V' H) as [Q4 H4].
  next bool_parts A5 B5 H4 Q5. next bool_parts A6 B6 H4 Q6.
  destruct (option_line_parts _ _ _ _ _ _ _ A7 B7 H4) as [Q7 H7].
  destruct (option_line_parts _ _ _ _ _ _ _ A8 B8 H7) as [Q8 H8].
  destruct c, d; cbn in *; subst. auto.
Qed.

Lemma player_line_parts : line_parts player_lines.
Proof.
  intros c d x y r q (a1 & a2 & u & v & a4 & a5 & a6 & l7 & l8 & A1 & A2 & U & V & A4 & A5 & A6 & A7 & A8 & ->)
    (b1 & b2 & u' & v' & b4 & b5 & b6 & m7 & m8 & B1 & B2 & U' & V' & B4 & B5 & B6 & B7 & B8 & ->) H.
  apply (f_equal (@tl line)) in H. cbn [app tl] in H. rewrite <- !app_assoc in H.
  next text_parts A1 B1 H Q1. next text_parts A2 B2 H Q2.
  destruct (color_line_parts _ _ _ _ _ _ _ _ U V U' V' H) as [Q3 H3].
  next integer_parts A4 B4 H3 Q4. next number_parts A5 B5 H3 Q5. next bool_parts A6 B6 H3 Q6.
  destruct (option_line_parts _ _ _ _ _ _ _ A7 B7 H3) as [Q7 H7].
  destruct (option_line_parts _ _ _ _ _ _ _ A8 B8 H7) as [Q8 H8].
  destruct c, d; cbn in *; subst. auto.
Qed.

Lemma server_line_parts : line_parts server_lines.
Proof.
  intros c d x y r q (a1 & a2 & a3 & a4 & A1 & A2 & A3 & A4 & ->) (b1 & b2 & b3 & b4 & B1 & B2 & B3 & B4 & ->) H.
  apply (f_equal (@tl line)) in H. cbn [app tl] in H. rewrite <- !app_assoc in H.
  next text_parts A1 B1 H Q1. next text_parts A2 B2 H Q2. next text_parts A3 B3 H Q3. next number_parts A4 B4 H Q4.
  destruct c, d; cbn in *; subst. auto.
Qed.

Lemma entries_unique : forall A (f : A -> list line -> Prop), line_parts f -> (forall x ls, f x ls -> ls <> []) ->
  forall l m ls, entries f l ls -> entries f m ls -> l = m.
Proof.
  intros A f P N l. induction l as [| x l IH]; intros [| y m] ls L M; cbn [entries] in L, M.
  - reflexivity.
  - destruct M as (h & r & X & _ & ->). destruct h; discriminate.
  - destruct L as (h & r & X & _ & ->). destruct h; discriminate.
  - destruct L as (h & r & X & R & ->). destruct M as (h' & r' & X' & R' & H).
    destruct (P x y h h' _ _ X X' H) as [-> E]. injection E as <-. f_equal. exact (IH m r R R').
Qed.

Lemma player_lines_some : forall p ls, player_lines p ls -> ls <> [].
Proof. intros p ls (a1 & a2 & u & v & a4 & a5 & a6 & l7 & l8 & _ & _ & _ & _ & _ & _ & _ & _ & _ & ->). discriminate. Qed.

Lemma deeper_inj : forall k a b, deeper k a = deeper k b -> a = b.
Proof.
  intros k. induction a as [| [d t] a IH]; intros [| [e u] b] H; try discriminate; [reflexivity |].
  unfold deeper in H. cbn [map fst snd] in H. injection H as D -> H. f_equal; [f_equal; lia | exact (IH b H)].
Qed.

Lemma team_lines_once : forall c d ls, team_lines c ls -> team_lines d ls -> c = d.
Proof.
  intros c d ls (a1 & u & v & a3 & a4 & l5 & A1 & U & V & A3 & A4 & A5 & ->)
    (b1 & u' & v' & b3 & b4 & m5 & B1 & U' & V' & B3 & B4 & B5 & H).
  apply (f_equal (@tl line)) in H. cbn [tl] in H.
  next text_parts A1 B1 H Q1. destruct (color_line_parts _ _ _ _ _ _ _ _ U V U' V' H) as [Q2 H2].
  next integer_parts A3 B3 H2 Q3. next number_parts A4 B4 H2 Q4. subst m5.
  assert (t_players c = t_players d) as Q5.
  { destruct A5 as [[-> ->] | (es & _ & S & ->)]; destruct B5 as [[-> H5] | (es' & _ & S' & H5)]; try discriminate H5; [reflexivity |].
    injection H5 as H5. apply app_inj_tail in H5. destruct H5 as [H5 _]. apply deeper_inj in H5. subst es'.
    exact (entries_unique _ _ player_line_parts player_lines_some _ _ _ S S'). }
  destruct c, d; cbn in *; subst. reflexivity.
Qed.

Lemma lines_once : forall A (f : A -> list line -> Prop), line_parts f -> (forall x ls, f x ls -> Forall plain ls) ->
  forall a b t, braced (f a) t -> braced (f b) t -> a = b.
Proof.
  intros A f P Q a b t X Y. destruct (braced_unique (f a) (f b) t (Q a) (Q b) X Y) as [ls [K L]].
  exact (proj1 (P a b ls ls [] [] K L eq_refl)).
Qed.

Lemma print_pretty_once : forall i j s s' t, braced (print_lines i s) t -> braced (print_lines j s') t -> i = j /\ s = s'.
Proof.
  intros i j s s' t X Y. destruct (braced_unique _ _ t (print_plain i s) (print_plain j s') X Y) as [ls [K L]].
  exact (print_lines_parts _ _ _ _ ls K L).
Qed.
Lemma deeds_pretty_once : forall n m t, braced (deeds_lines n) t -> braced (deeds_lines m) t -> forall k, n k = m k.
Proof.
  intros n m t X Y. destruct (braced_unique _ _ t (deeds_plain n) (deeds_plain m) X Y) as [ls [K L]].
  exact (deeds_lines_parts _ _ ls K L).
Qed.
Lemma team_pretty_once : forall a b t, braced (team_lines a) t -> braced (team_lines b) t -> a = b.
Proof.
  intros a b t X Y. destruct (braced_unique _ _ t (team_plain a) (team_plain b) X Y) as [ls [K L]].
  exact (team_lines_once a b ls K L).
Qed.

Lemma list_once : forall A (f : A -> list line -> Prop), line_parts f -> (forall x ls, f x ls -> ls <> []) ->
  (forall x ls, f x ls -> Forall plain ls) -> forall l m t, list_page f l t -> list_page f m t -> l = m.
Proof.
  assert (forall a b, Forall plain a -> Forall plain b -> page ((0%nat, lit "[") :: deeper 1 a ++ [(0%nat, lit "]")]) =
    page ((0%nat, lit "[") :: deeper 1 b ++ [(0%nat, lit "]")]) -> a = b) as U.
  { intros a b A B H. apply page_unique in H; [| | | discriminate ..].
    - injection H as H. apply app_inj_tail in H. destruct H as [H _]. exact (deeper_inj 1 a b H).
    - constructor; [fixed |]. apply Forall_app. split; [apply deeper_plain; exact A | constructor; [fixed | constructor]].
    - constructor; [fixed |]. apply Forall_app. split; [apply deeper_plain; exact B | constructor; [fixed | constructor]]. }
  assert (forall es, lit "[]" = page ((0%nat, lit "[") :: deeper 1 es ++ [(0%nat, lit "]")]) -> False) as V.
  { intros es H. destruct (deeper 1 es ++ [(0%nat, lit "]")]) eqn:D; [| discriminate H]. destruct es; discriminate D. }
  intros A f P N Q l m t [[-> ->] | (es & _ & S & ->)] [[-> H] | (es' & _ & S' & H)].
  - reflexivity.
  - destruct (V es' H).
  - destruct (V es (eq_sym H)).
  - apply U in H; [| exact (entries_plain A f Q _ _ S) | exact (entries_plain A f Q _ _ S')]. subst es'.
    exact (entries_unique A f P N _ _ _ S S').
Qed.

Lemma client_lines_some : forall c ls, client_lines c ls -> ls <> [].
Proof. intros c ls (a1 & a2 & a3 & u & v & a5 & a6 & l7 & l8 & _ & _ & _ & _ & _ & _ & _ & _ & _ & ->). discriminate. Qed.
