(** Sums that do not fit their type: C68 *)
From Coq Require Import Reals Lra Psatz Lia ZifyN ZifyNat ZifyBool Permutation.
From Coq Require Import Floats.SpecFloat.
From Flocq Require Import Core.Core Relative.
From Verif.Model Require Import Base Env Frame Clients FragEvent Float Frags Ping Players.
From Verif.Spec Require Import Mvd Messages Obituary Order Clientlist Teams Times Pings Score Wrap.
From Verif.Proofs Require Import BaseFacts FloatFacts RoundFacts PingFacts ScoreFacts ScoreProps WalkProps OrderFacts TeamFacts AgreeFacts.
Open Scope N_scope.

Lemma low_part_mod : forall b n, 0 < b -> low_part b n (n mod b).
Proof. intros b n P. split; [apply N.mod_lt; lia |]. exists (n / b). pose proof (N.div_mod n b ltac:(lia)). lia. Qed.

Lemma low_part_unique : forall b n r, 0 < b -> low_part b n r -> r = n mod b.
Proof. intros b n r P [L [k ->]]. rewrite N.mod_add by lia. rewrite N.mod_small by exact L. reflexivity. Qed.

Lemma low_part_add : forall b n r x, low_part b n r -> low_part b (n + x) ((r + x) mod b).
Proof.
  intros b n r x [L [k ->]]. split; [apply N.mod_lt; lia |]. exists (k + (r + x) / b).
  pose proof (N.div_mod (r + x) b ltac:(lia)). lia.
Qed.

Lemma signed32_wrap : forall z r d, signed32 z r -> signed32 (z + d) (wrap_i32 (r + d)).
Proof.
  intros z r d [_ [k ->]]. unfold wrap_i32. split; [unfold fits32; lia |].
  exists (k + (r + d + 2147483648) / 4294967296)%Z.
  pose proof (Z.div_mod (r + d + 2147483648) 4294967296 ltac:(lia)). lia.
Qed.

Lemma wrap_fits : forall z, fits32 z -> wrap_i32 z = z.
Proof. intros z F. unfold fits32 in F. unfold wrap_i32. rewrite Z.mod_small by lia. lia. Qed.

Lemma fits32_dec : forall z, fits32 z \/ ~ fits32 z.
Proof. intros z. unfold fits32. lia. Qed.

Lemma iadd_cases : forall E a b,
  (checked E = true /\ ~ fits32 (a + b) /\ iadd E a b = Panic POverflow) \/
  ((checked E = true -> fits32 (a + b)) /\ iadd E a b = Ret (wrap_i32 (a + b))).
Proof.
  intros E a b. unfold iadd, i32_min, i32_max. destruct ((-2147483648 <=? a + b) && (a + b <=? 2147483647))%Z eqn:C.
  - right. assert (fits32 (a + b)) as F by (unfold fits32; lia). split; [auto |]. rewrite wrap_fits by exact F. reflexivity.
  - destruct (checked E); [left; repeat split; unfold fits32; lia | right; split; [discriminate | reflexivity]].
Qed.

Lemma uadd_cases : forall E b x y, x < b ->
  (checked E = true /\ b <= x + y /\ uadd E b x y = Panic POverflow) \/
  ((checked E = true -> x + y < b) /\ uadd E b x y = Ret ((x + y) mod b)).
Proof.
  intros E b x y L. unfold uadd. destruct (x + y <? b) eqn:C.
  - right. split; [lia |]. rewrite N.mod_small by lia. reflexivity.
  - destruct (checked E); [left; repeat split; lia | right; split; [discriminate | reflexivity]].
Qed.

(** ** Pings *)
Lemma averages16_proof : forall E l, checked E = true -> (forall p, In p (map fst l) -> sum (pings_of p l) < 65536) ->
  averages16 (averages_mod E l) l.
Proof.
  intros E l C B. destruct (averages_mod_spec E l) as [A1 [A2 A3]]. split; [exact A1 |]. split; [exact A2 |].
  intros p a I. rewrite (A3 p a I). exists (sum (pings_of p l)). unfold averaged. rewrite C.
  assert (In p (map fst l)) as J by (apply A2; apply in_map_iff; exists (p, a); auto).
  specialize (B p J). rewrite ?N.mod_small by exact B. split; [| reflexivity]. split; [exact B |]. exists 0. lia.
Qed.

Lemma averages16_unchecked : forall E l, checked E = false -> averages16 (averages_mod E l) l.
Proof.
  intros E l C. destruct (averages_mod_spec E l) as [A1 [A2 A3]]. split; [exact A1 |]. split; [exact A2 |].
  intros p a I. rewrite (A3 p a I). eexists. split; [apply (low_part_mod 65536); lia |]. unfold averaged. rewrite ?C. reflexivity.
Qed.

Lemma pings_any_proof : forall E fs rest, wf fs -> sampling_ends fs rest -> sampled fs <> [] ->
  (checked E = true /\ (exists p, 65536 <= sum (pings_of p (sampled fs))) /\
   ping_per_player_number E (encode fs ++ rest) = Panic POverflow) \/
  ((checked E = true -> forall p, sum (pings_of p (sampled fs)) < 65536) /\
   exists tbl, ping_per_player_number E (encode fs ++ rest) = Ret (Ok tbl) /\ averages16 tbl (sampled fs)).
Proof.
  intros E fs rest W R Z. destruct (sample_reached E fs rest W R) as [n S].
  rewrite (pings_result E _ fs n W S). apply is_empty_false in Z. rewrite Z.
  destruct (checked E) eqn:C; cbn [andb].
  - destruct (existsb (fun x => 65536 <=? sum (snd x)) (add_pings (sampled fs) [])) eqn:X.
    + left. apply existsb_big in X. destruct X as [p [_ X]]. eauto.
    + right. assert (forall p, sum (pings_of p (sampled fs)) < 65536) as B.
      { intros p. destruct (N.lt_ge_cases (sum (pings_of p (sampled fs))) 65536) as [L | G]; [exact L |]. exfalso.
        assert (existsb (fun x => 65536 <=? sum (snd x)) (add_pings (sampled fs) []) = true) as Y; [| congruence].
        apply existsb_big. exists p. split; [| exact G]. destruct (pings_of p (sampled fs)) as [| v vs] eqn:PO; [cbn in G; lia |].
        assert (In v (pings_of p (sampled fs))) as I by (rewrite PO; left; reflexivity). unfold pings_of in I.
        apply in_map_iff in I. destruct I as [[k w] [_ I]]. apply filter_In in I. destruct I as [I Q]. cbn [fst] in Q.
        apply N.eqb_eq in Q. subst k. apply in_map_iff. exists (p, w). auto. }
      split; [auto |]. eexists. split; [reflexivity |]. apply averages16_proof; [exact C |]. intros p _. apply B.
  - right. split; [discriminate |]. eexists. split; [reflexivity |]. apply averages16_unchecked. exact C.
Qed.

(** ** Scores *)
Definition table_inv (E : env) (pre : list (str * Z)) (m : list (str * Z)) : Prop :=
  NoDup (map fst m) /\ (forall name, In name (map fst m) <-> In name (map fst pre)) /\
  (forall name v, In (name, v) m -> signed32 (Score.total name pre) v /\ (checked E = true -> v = Score.total name pre)).

Lemma total_absent : forall name l, ~ In name (map fst l) -> Score.total name l = 0%Z.
Proof.
  intros name l. induction l as [| [k d] l IH]; intros N; [reflexivity |]. unfold Score.total in *. cbn [filter fst map] in *.
  destruct (beq k name) eqn:Q; [apply beq_eq in Q; subst; exfalso; apply N; left; reflexivity |]. apply IH. intros I. apply N. right. exact I.
Qed.

Lemma aset_key_in : forall (k x : str) (v : Z) m, In x (map fst (aset beq k v m)) <-> x = k \/ In x (map fst m).
Proof.
  intros k x v m. rewrite (aset_keys beq). destruct (existsb (beq k) (map fst m)) eqn:X.
  - apply existsb_exists in X. destruct X as [y [I Q]]. apply beq_eq in Q. subst y. split; [auto | intros [-> | H]; assumption].
  - rewrite in_app_iff. cbn [In]. split; [intros [H | [<- | []]]; auto | intros [-> | H]; auto].
Qed.

Lemma add_any : forall E l pre m, table_inv E pre m ->
  (checked E = true -> forall a b name, pre = a ++ b -> fits32 (Score.total name a)) ->
  (checked E = true /\ score_leaves (pre ++ l) /\ foldM (add_entry E) l m = Panic POverflow) \/
  ((checked E = true -> ~ score_leaves (pre ++ l)) /\ exists tbl, foldM (add_entry E) l m = Ret tbl /\ table_inv E (pre ++ l) tbl).
Proof.
  intros E l. induction l as [| [k d] l IH]; intros pre m I OK.
  - right. rewrite app_nil_r. split; [| exists m; split; [reflexivity | exact I]].
    intros C [a [b [name [Q N]]]]. apply N. eapply OK; eauto.
  - cbn [foldM]. unfold add_entry at 1 3. cbn [fst snd]. unfold frag_add.
    destruct I as [ND [KE VA]].
    assert (V : signed32 (Score.total k pre) (aget_or beq k 0%Z m) /\ (checked E = true -> aget_or beq k 0%Z m = Score.total k pre)).
    { unfold aget_or. destruct (aget beq k m) as [v |] eqn:A.
      - apply (aget_in beq beq_eq) in A. apply VA. exact A.
      - apply (aget_none beq beq_eq) in A. rewrite KE in A. rewrite (total_absent k pre A). split; [| reflexivity].
        split; [unfold fits32; lia |]. exists 0%Z. reflexivity. }
    destruct V as [V1 V2].
    assert (T1 : Score.total k (pre ++ [(k, d)]) = (Score.total k pre + d)%Z) by (rewrite ScoreFacts.total_app, total_one, beq_refl; reflexivity).
    replace (pre ++ (k, d) :: l) with ((pre ++ [(k, d)]) ++ l) by (rewrite <- app_assoc; reflexivity).
    destruct (iadd_cases E (aget_or beq k 0%Z m) d) as [[C [F ->]] | [F ->]].
    + left. split; [exact C |]. split; [| reflexivity]. exists (pre ++ [(k, d)]), l, k. split; [reflexivity |]. rewrite T1, <- V2; assumption.
    + cbn [bind]. apply IH.
      * split; [apply aset_nodup; [apply beq_eq | exact ND] |]. split.
        -- intros name. rewrite aset_key_in, map_app, in_app_iff, KE. cbn [map fst In]. split; [intros [-> | H]; auto | intros [H | [-> | []]]; auto].
        -- intros name v J. assert (NDm : NoDup (map fst (aset beq k (wrap_i32 (aget_or beq k 0%Z m + d)) m))) by (apply aset_nodup; [apply beq_eq | exact ND]).
           pose proof (in_aget beq beq_eq _ _ _ NDm J) as G. rewrite (aget_aset beq beq_eq) in G. destruct (beq name k) eqn:Q.
           ++ apply beq_eq in Q. subst name. injection G as <-. rewrite T1. split; [apply signed32_wrap; exact V1 |].
              intros C. specialize (F C). rewrite wrap_fits by exact F. rewrite V2 by exact C. reflexivity.
           ++ rewrite ScoreFacts.total_app, total_one. rewrite (beq_sym k name), Q, Z.add_0_r. apply VA. apply (aget_in beq beq_eq). exact G.
      * intros C a b name Q. destruct (app_eq_app _ _ _ _ (eq_sym Q)) as [z [[Q1 Q2] | [Q1 Q2]]].
        -- destruct z as [| y z].
           ++ rewrite app_nil_r in Q1. subst a. eapply OK; [exact C | symmetry; apply app_nil_r].
           ++ assert (z = [] /\ b = []) as [-> ->].
              { injection Q2 as <- Q2. symmetry in Q2. apply app_eq_nil in Q2. exact Q2. }
              injection Q2 as <-. subst a. rewrite ScoreFacts.total_app, total_one. destruct (beq k name) eqn:X.
              ** apply beq_eq in X. subst name. rewrite <- V2 by exact C. apply F. exact C.
              ** rewrite Z.add_0_r. eapply OK; [exact C | symmetry; apply app_nil_r].
        -- eapply OK; eauto.
Qed.

Lemma scores_any_proof : forall E fs rest r per, wf fs -> stops (len (encode fs ++ rest)) rest ->
  clients E (encode fs ++ rest) = Ret r ->
  Forall2 (fun '(m, s) l => scored (match r with Ok cs => cs | Err _ => [] end) (nearby_updates m s) (to_unicode E (m_text m)) l)
    (obituaries fs) per ->
  (checked E = true /\ score_leaves (concat per) /\ frags_per_player_name E (encode fs ++ rest) = Panic POverflow) \/
  ((checked E = true -> ~ score_leaves (concat per)) /\
   exists tbl, frags_per_player_name E (encode fs ++ rest) = Ret tbl /\ tabulates32 tbl (concat per)).
Proof.
  intros E fs rest r per W S C F.
  assert (concat per = all_entries E (cs_of r) fs) as ->.
  { apply all_entries_spec. eapply Forall2_weaken; [| exact F]. intros [m s] l H. apply scored_iff in H. exact H. }
  rewrite (frags_quiet E fs rest r W S C).
  destruct (add_any E (all_entries E (cs_of r) fs) [] []) as [H | [H [tbl [T [ND [KE VA]]]]]].
  - split; [constructor |]. split; [reflexivity |]. intros name v [].
  - intros _ a b name Q. symmetry in Q. apply app_eq_nil in Q. destruct Q as [-> ->]. cbv. split; discriminate.
  - left. exact H.
  - right. split; [exact H |]. exists tbl. split; [exact T |]. split; [exact ND |]. split; [exact KE |].
    intros name v I. apply (VA name v I).
Qed.

(** ** Teams *)
Lemma sums_any : forall E ms f g f0 g0, signed32 f0 f -> (checked E = true -> f = f0) -> low_part 4294967296 g0 g ->
  (checked E = true -> g = g0) -> (checked E = true -> fits32 f0) ->
  (checked E = true /\ ((exists a b, ms = a ++ b /\ ~ fits32 (f0 + Teams.total (map p_frags a))) \/ 4294967296 <= g0 + total_ping ms) /\
   foldM (fun '(frags, ping) p =>
           let! f := iadd E frags (p_frags p) in
           let! g := uadd E u32_bound ping (p_ping p) in
           Ret (f, g)) ms (f, g) = Panic POverflow) \/
  ((checked E = true -> (forall a b, ms = a ++ b -> fits32 (f0 + Teams.total (map p_frags a))) /\ g0 + total_ping ms < 4294967296) /\
   exists f' g', foldM (fun '(frags, ping) p =>
           let! f := iadd E frags (p_frags p) in
           let! g := uadd E u32_bound ping (p_ping p) in
           Ret (f, g)) ms (f, g) = Ret (f', g') /\
     signed32 (f0 + Teams.total (map p_frags ms)) f' /\ low_part 4294967296 (g0 + total_ping ms) g').
Proof.
  intros E ms. induction ms as [| p ms IH]; intros f g f0 g0 SF CF LG CG FF.
  - right. change (total_ping []) with 0. change (Teams.total (map p_frags [])) with 0%Z. rewrite N.add_0_r, Z.add_0_r. split.
    + intros C. split; [| destruct LG; rewrite <- CG by exact C; assumption].
      intros a b Q. symmetry in Q. apply app_eq_nil in Q. destruct Q as [-> ->]. cbn [map]. change (Teams.total []) with 0%Z. rewrite Z.add_0_r. auto.
    + exists f, g. auto.
  - assert (TP : total_ping (p :: ms) = p_ping p + total_ping ms) by reflexivity.
    assert (TF : forall l, Teams.total (map p_frags (p :: l)) = (p_frags p + Teams.total (map p_frags l))%Z) by reflexivity.
    rewrite TP, N.add_assoc. cbn [foldM].
    destruct (iadd_cases E f (p_frags p)) as [[C [F ->]] | [F ->]].
    + left. split; [exact C |]. split; [| reflexivity]. left. exists [p], ms. split; [reflexivity |]. rewrite (TF []).
      change (Teams.total (map p_frags [])) with 0%Z. rewrite Z.add_0_r, <- CF by exact C. exact F.
    + cbn [bind]. destruct (uadd_cases E u32_bound g (p_ping p) (proj1 LG)) as [[C [G ->]] | [G ->]].
      * left. split; [exact C |]. split; [| reflexivity]. right. rewrite <- CG by exact C. unfold u32_bound in G. lia.
      * cbn [bind]. destruct (IH (wrap_i32 (f + p_frags p)) ((g + p_ping p) mod u32_bound) (f0 + p_frags p)%Z (g0 + p_ping p)) as [H | H].
        -- apply signed32_wrap. exact SF.
        -- intros C. rewrite wrap_fits by auto. rewrite CF by exact C. reflexivity.
        -- apply low_part_add. exact LG.
        -- intros C. rewrite N.mod_small by auto. rewrite CG by exact C. reflexivity.
        -- intros C. rewrite <- CF by exact C. auto.
        -- left. destruct H as [C [H HF]]. split; [exact C |]. split; [| exact HF]. destruct H as [[a [b [-> H]]] | H]; [left | right; exact H].
           exists (p :: a), b. split; [reflexivity |]. rewrite TF, Z.add_assoc. exact H.
        -- right. destruct H as [H [f' [g' [HF [H1 H2]]]]]. split.
           ++ intros C. destruct (H C) as [HA HB]. split; [| exact HB]. intros [| q a] b Q.
              ** cbn [map]. change (Teams.total []) with 0%Z. rewrite Z.add_0_r. auto.
              ** injection Q as <- Q. rewrite TF, Z.add_assoc. eapply HA. exact Q.
           ++ exists f', g'. split; [exact HF |]. rewrite TF, Z.add_assoc. split; [exact H1 | exact H2].
Qed.

Lemma counts_any : forall E ps m c0, NoDup (map fst m) ->
  (forall c, low_part 256 (c0 c) (aget_or color_eqb c 0 m)) ->
  (checked E = true -> forall c, aget_or color_eqb c 0 m = c0 c) ->
  (checked E = true /\ (exists c, 256 <= c0 c + worn c ps) /\
   foldM (fun m c => let! n := uadd E u8_bound (aget_or color_eqb c 0 m) 1 in Ret (aset color_eqb c n m)) (map p_color ps) m = Panic POverflow) \/
  ((checked E = true -> forall c, c0 c + worn c ps < 256) /\
   exists m', foldM (fun m c => let! n := uadd E u8_bound (aget_or color_eqb c 0 m) 1 in Ret (aset color_eqb c n m)) (map p_color ps) m = Ret m' /\
     NoDup (map fst m') /\ forall c, low_part 256 (c0 c + worn c ps) (aget_or color_eqb c 0 m')).
Proof.
  intros E ps. induction ps as [| p ps IH]; intros m c0 ND LO EX.
  - right. cbn [worn map foldM]. split.
    + intros C c. rewrite N.add_0_r, <- EX by exact C. apply LO.
    + exists m. split; [reflexivity |]. split; [exact ND |]. intros c. rewrite N.add_0_r. apply LO.
  - cbn [map foldM]. destruct (uadd_cases E u8_bound (aget_or color_eqb (p_color p) 0 m) 1 (proj1 (LO (p_color p)))) as [[C [G ->]] | [G ->]].
    + left. split; [exact C |]. split; [| reflexivity]. exists (p_color p). cbn [worn].
      assert (color_eqb (p_color p) (p_color p) = true) as -> by (apply color_eqb_eq; reflexivity).
      rewrite EX in G by exact C. unfold u8_bound in G. lia.
    + cbn [bind]. set (v := (aget_or color_eqb (p_color p) 0 m + 1) mod u8_bound) in *.
      set (c1 := fun c => c0 c + if color_eqb (p_color p) c then 1 else 0).
      assert (G1 : forall c, aget_or color_eqb c 0 (aset color_eqb (p_color p) v m) = if color_eqb (p_color p) c then v else aget_or color_eqb c 0 m).
      { intros c. rewrite (aget_or_aset color_eqb color_eqb_eq). rewrite (eqb_symm color_eqb color_eqb_eq c). reflexivity. }
      assert (W1 : forall c, c0 c + worn c (p :: ps) = c1 c + worn c ps) by (intros c; unfold c1; cbn [worn]; lia).
      destruct (IH (aset color_eqb (p_color p) v m) c1) as [H | H].
      * apply (aset_nodup color_eqb color_eqb_eq). exact ND.
      * intros c. rewrite G1. unfold c1. destruct (color_eqb (p_color p) c) eqn:Q.
        -- apply color_eqb_eq in Q. subst c. apply low_part_add. apply LO.
        -- rewrite N.add_0_r. apply LO.
      * intros C c. rewrite G1. unfold c1. destruct (color_eqb (p_color p) c) eqn:Q.
        -- apply color_eqb_eq in Q. subst c. unfold v. rewrite N.mod_small by auto. rewrite EX by exact C. reflexivity.
        -- rewrite N.add_0_r. auto.
      * left. destruct H as [C [[c H] HF]]. split; [exact C |]. split; [| exact HF]. exists c. rewrite W1. exact H.
      * right. destruct H as [H [m' [HF [ND' H']]]]. split; [intros C c; rewrite W1; auto |].
        exists m'. split; [exact HF |]. split; [exact ND' |]. intros c. rewrite W1. apply H'.
Qed.

Lemma majority_any : forall E team ps p0 r0, each_iterates (colors_order E) -> (3 <= length ps)%nat -> ps = p0 :: r0 ->
  (checked E = true /\ (exists c n, wear c ps n /\ 256 <= n) /\ majority_color E team (map p_color ps) = Panic POverflow) \/
  ((checked E = true -> forall c n, wear c ps n -> n < 256) /\
   exists mc, majority_color E team (map p_color ps) = Ret mc /\
     counted_color ps (match mc with Some c => c | None => p_color p0 end)).
Proof.
  intros E team ps q0 r0 IT L3 Q0. unfold majority_color.
  destruct ps as [| p1 [| p2 [| p3 ps]]]; try (cbn [length] in L3; lia). injection Q0 as <- <-.
  set (l := p1 :: p2 :: p3 :: ps) in *. cbn [map]. change (p_color p1 :: p_color p2 :: p_color p3 :: map p_color ps) with (map p_color l).
  unfold color_counts. destruct (counts_any E l [] (fun _ => 0)) as [H | H].
  { constructor. } { intros c. cbn. split; [lia | exists 0; reflexivity]. } { reflexivity. }
  - left. destruct H as [C [[c H] ->]]. split; [exact C |]. split; [| reflexivity]. exists c, (worn c l). split; [apply wear_worn | exact H].
  - right. destruct H as [H [m [-> [ND G]]]]. split.
    { intros C c n W. apply wear_fun in W. subst n. apply H. exact C. }
    cbn [bind]. eexists. split; [reflexivity |].
    unfold max_color. pose proof (max_color_spec (colors_order E team m) None 0) as X. cbn zeta in X. set (r := fold_left _ _ _) in *.
    destruct X as [_ [MX CC]].
    assert (INO : forall c v, In (c, v) (colors_order E team m) <-> In (c, v) m).
    { intros c v. split; apply Permutation_in; [apply IT | apply Permutation_sym, IT]. }
    assert (LE : forall d n s, wear d l n -> low_part 256 n s -> s <= snd r).
    { intros d n s W L. apply wear_fun in W. subst n. apply low_part_unique in L; [| lia]. subst s.
      pose proof (G d) as GD. cbn beta in GD. rewrite N.add_0_l in GD. apply low_part_unique in GD; [| lia]. rewrite <- GD.
      unfold aget_or. destruct (aget color_eqb d m) as [v |] eqn:A; [| lia].
      apply (MX d). apply INO. apply (aget_in color_eqb color_eqb_eq). exact A. }
    change (counted_color l (match fst r with Some c => c | None => p_color p1 end)) with
      (most_counted (match fst r with Some c => c | None => p_color p1 end) l \/
       ((forall d n, wear d l n -> low_part 256 n 0) /\ (match fst r with Some c => c | None => p_color p1 end) = p_color p1)).
    assert (Z : snd r = 0 -> forall d n, wear d l n -> low_part 256 n 0).
    { intros Z d n W. pose proof (low_part_mod 256 n ltac:(lia)) as L. pose proof (LE d n _ W L) as B. rewrite Z in B.
      assert (n mod 256 = 0) as Y by lia. rewrite Y in L. exact L. }
    destruct CC as [C | [c [C I]]].
    + right. split; [apply Z; rewrite C; reflexivity | rewrite C; reflexivity].
    + rewrite C. destruct (N.eq_dec (snd r) 0) as [Y | NZ].
      * exfalso. (* the maximum starts at 0 and only grows *)
        assert (forall (l : list ((N * N) * N)) mc mn, fst (fold_left (fun '(mc, mn) '(color, count) =>
               if mn <? count then (Some color, count) else (mc, mn)) l (mc, mn)) <> mc ->
               mn < snd (fold_left (fun '(mc, mn) '(color, count) =>
               if mn <? count then (Some color, count) else (mc, mn)) l (mc, mn))) as GR.
        { clear. induction l as [| [c v] l IH]; intros mc mn H; [contradiction |]. cbn [fold_left] in *. destruct (mn <? v) eqn:Q; [| auto].
          pose proof (max_color_spec l (Some c) v) as X. cbn zeta in X. lia. }
        specialize (GR (colors_order E team m) None 0). fold r in GR. rewrite C in GR. specialize (GR ltac:(discriminate)). lia.
      * left. exists (worn c l), (snd r). split; [apply wear_worn |]. apply INO in I.
        pose proof (in_aget color_eqb color_eqb_eq _ _ _ ND I) as A. pose proof (G c) as GC. unfold aget_or in GC. rewrite A in GC.
        cbn beta in GC. rewrite N.add_0_l in GC. split; [exact GC |]. split; [lia |]. exact LE.
Qed.

Lemma mean_ping_proof : forall s n, s < 4294967296 -> 0 < n -> n < 9223372036854775808 ->
  mean_ping s n (f32_round_to_u32 (f32_div (f32_of_N s) (f32_of_N n))).
Proof.
  intros s n S N0 N1. unfold mean_ping. apply f32_round_to_u32_stands.
  change single with r32. apply f32_div_stands.
  - apply f32_of_N_stands. lia.
  - apply f32_of_N_stands. lia.
  - rewrite <- (r32_int 1) by lia. apply r32_le. apply IZR_le. lia.
  - assert (r32 (IZR (Z.of_N s)) <= r32 (F2R (Float radix2 1 32)))%R as B.
    { apply r32_le. unfold F2R; simpl; unfold Z.pow_pos; simpl. rewrite Rmult_1_l. apply IZR_le. lia. }
    unfold r32 in B at 2. rewrite (rnd_exact 24 128) in B; [| reflexivity | vm_compute; discriminate].
    unfold F2R in B; simpl in B; unfold Z.pow_pos in B; simpl in B. lra.
Qed.

Lemma r32_relative : forall x, (/ 40000000000000000000 <= x)%R -> exists e, (Rabs e <= / 16777216)%R /\ r32 x = (x * (1 + e))%R.
Proof.
  intros x H. unfold r32, rnd.
  change (SpecFloat.fexp 24 128) with (FLT_exp (SpecFloat.emin 24 128) 24).
  destruct (relative_error_N_FLT_ex radix2 (SpecFloat.emin 24 128) 24 Hp32 (fun z => negb (Z.even z)) x) as [eps [He ->]].
  - rewrite Rabs_pos_eq by lra. apply Rle_trans with (2 := H).
    apply Rle_trans with (bpow radix2 (-66)); [apply bpow_le; vm_compute; discriminate |].
    simpl. unfold Z.pow_pos; simpl. lra.
  - exists eps. split; [| reflexivity]. apply Rle_trans with (1 := He). simpl. unfold Z.pow_pos; simpl. lra.
Qed.

Lemma mean_ping_close_proof : forall s n a, s < 4294967296 -> 0 < n -> n < 9223372036854775808 -> mean_ping s n a ->
  let mean := (IZR (Z.of_N s) / IZR (Z.of_N n))%R in
  (Rabs (IZR (Z.of_N a) - mean) <= / 2 + mean / 4194304)%R.
Proof.
  intros s n a S N0 N1 H mean. unfold mean_ping in H. change single with r32 in H.
  assert (PN : (1 <= IZR (Z.of_N n) < 9223372036854775808)%R) by (split; [apply IZR_le | apply IZR_lt]; lia).
  assert (PS : (0 <= IZR (Z.of_N s) <= 4294967295)%R) by (split; apply IZR_le; lia).
  assert (M0 : (0 <= mean)%R) by (unfold mean; apply Rmult_le_pos; [lra |]; left; apply Rinv_0_lt_compat; lra).
  assert (M1 : (mean <= 4294967295)%R).
  { unfold mean. apply Rmult_le_reg_r with (IZR (Z.of_N n)); [lra |]. unfold Rdiv. rewrite Rmult_assoc, Rinv_l, Rmult_1_r by lra. nra. }
  set (y := r32 (r32 (IZR (Z.of_N s)) / r32 (IZR (Z.of_N n)))) in *.
  assert (Y : (Rabs (y - mean) <= mean / 4194304)%R).
  { destruct (N.eq_dec s 0) as [-> | NZ].
    - assert (y = 0%R) as ->.
      { unfold y. change (IZR (Z.of_N 0)) with (IZR 0). rewrite (r32_int 0) by lia. unfold Rdiv. rewrite Rmult_0_l. apply (r32_int 0). lia. }
      assert (mean = 0%R) as -> by (unfold mean; cbn; lra). rewrite Rminus_0_r, Rabs_R0. lra.
    - assert (1 <= IZR (Z.of_N s))%R as PS1 by (apply IZR_le; lia).
      destruct (r32_relative (IZR (Z.of_N s))) as [e1 [E1 Q1]]; [lra |].
      destruct (r32_relative (IZR (Z.of_N n))) as [e2 [E2 Q2]]; [lra |].
      apply Rabs_le_inv in E1. apply Rabs_le_inv in E2.
      assert (QQ : (r32 (IZR (Z.of_N s)) / r32 (IZR (Z.of_N n)) = mean * ((1 + e1) / (1 + e2)))%R).
      { rewrite Q1, Q2. unfold mean. field. split; lra. }
      set (k := ((1 + e1) / (1 + e2))%R) in *.
      assert (KE : (k * (1 + e2) = 1 + e1)%R) by (unfold k; field; lra).
      assert (K : (1 - / 8000000 <= k <= 1 + / 8000000)%R) by (split; nra).
      assert (MB : (/ 10000000000000000000 <= mean)%R).
      { unfold mean. apply Rmult_le_reg_r with (IZR (Z.of_N n)); [lra |]. unfold Rdiv. rewrite Rmult_assoc, Rinv_l, Rmult_1_r by lra. nra. }
      destruct (r32_relative (mean * k)) as [e3 [E3 Q3]]; [nra |].
      apply Rabs_le_inv in E3. unfold y. rewrite QQ, Q3.
      replace (mean * k * (1 + e3) - mean)%R with (mean * (k * (1 + e3) - 1))%R by ring.
      rewrite Rabs_mult, (Rabs_pos_eq mean) by lra. unfold Rdiv. apply Rmult_le_compat_l; [lra |].
      assert (K2 : (1 - 2 / 16777216 - / 140000000000000 <= k <= 1 + 2 / 16777216 + / 60000000000000)%R) by (split; nra).
      apply Rabs_le. split; nra. }
  assert (FL : (Rabs (IZR (Zfloor (y + / 2)) - y) <= / 2)%R).
  { pose proof (Zfloor_lb (y + / 2)) as LB. pose proof (Zfloor_ub (y + / 2)) as UB. apply Rabs_le. split; lra. }
  assert (T : (Rabs (IZR (Zfloor (y + / 2)) - mean) <= / 2 + mean / 4194304)%R).
  { replace (IZR (Zfloor (y + / 2)) - mean)%R with ((IZR (Zfloor (y + / 2)) - y) + (y - mean))%R by ring.
    eapply Rle_trans; [apply Rabs_triang |]. lra. }
  rewrite H. destruct (Z.min_spec 4294967295 (Zfloor (y + / 2))) as [[LT ->] | [_ ->]]; [| exact T].
  apply IZR_lt in LT. apply Rabs_le_inv in T. apply Rabs_le. split; lra.
Qed.

Lemma team_any : forall E ms, each_iterates (colors_order E) -> ms <> [] -> len ms < 9223372036854775808 ->
  (checked E = true /\ team_leaves ms /\ team_from E ms = Panic POverflow) \/
  ((checked E = true -> ~ team_leaves ms) /\
   exists t, team_from E ms = Ret t /\ (exists p r, ms = p :: r /\ t_name t = p_team p) /\ t_players t = ms /\
     signed32 (Teams.total (map p_frags ms)) (t_frags t) /\
     (exists s, low_part 4294967296 (total_ping ms) s /\ mean_ping s (len ms) (t_ping t)) /\
     counted_color ms (t_color t)).
Proof.
  intros E ms IT NE L. destruct ms as [| p r] eqn:Q; [contradiction |]. rewrite <- Q in *.
  assert (TE : team_from E ms = let! st := foldM (fun '(frags, ping) p =>
                          let! f := iadd E frags (p_frags p) in
                          let! g := uadd E u32_bound ping (p_ping p) in
                          Ret (f, g)) ms (0%Z, 0) in
      let '(frags, ping) := st in
      let ping := f32_round_to_u32 (f32_div (f32_of_N ping) (f32_of_N (len ms))) in
      let! mc := majority_color E (p_team p) (map p_color ms) in
      Ret {| t_name := p_team p; t_color := match mc with Some c => c | None => p_color p end;
             t_frags := frags; t_ping := ping; t_players := ms |}) by (rewrite Q; reflexivity).
  rewrite TE. clear TE.
  destruct (sums_any E ms 0 0 0 0) as [H | H]; try reflexivity.
  { split; [unfold fits32; lia | exists 0%Z; reflexivity]. } { split; [lia | exists 0; reflexivity]. } { intros _. unfold fits32; lia. }
  - left. destruct H as [C [H ->]]. split; [exact C |]. split; [| reflexivity]. rewrite N.add_0_l in H. destruct H as [H | H].
    + left. destruct H as [a [b [S H]]]. exists a, b. split; [exact S | exact H].
    + right. left. exact H.
  - destruct H as [H [f [g [-> [SF LG]]]]]. cbn [bind]. rewrite N.add_0_l in *. rewrite Z.add_0_l in SF.
    assert (NL : forall t, t = mkTeam (p_team p) (t_color t) f (f32_round_to_u32 (f32_div (f32_of_N g) (f32_of_N (len ms)))) ms ->
      counted_color ms (t_color t) ->
      (exists p r, ms = p :: r /\ t_name t = p_team p) /\ t_players t = ms /\
      signed32 (Teams.total (map p_frags ms)) (t_frags t) /\
      (exists s, low_part 4294967296 (total_ping ms) s /\ mean_ping s (len ms) (t_ping t)) /\ counted_color ms (t_color t)).
    { intros t T CC. rewrite T. cbn [t_name t_players t_frags t_ping t_color]. split; [eauto |]. split; [reflexivity |]. split; [exact SF |].
      split; [| exact CC]. exists g. split; [exact LG |]. apply mean_ping_proof; [apply LG | rewrite Q, len_cons; lia | exact L]. }
    destruct (le_lt_dec 3 (length ms)) as [G3 | S3].
    + destruct (majority_any E (p_team p) ms p r IT G3 Q) as [M | M].
      * left. destruct M as [C [M ->]]. split; [exact C |]. split; [| reflexivity]. right. right. auto.
      * right. destruct M as [MB [mc [-> CC]]]. split.
        { intros C. destruct (H C) as [HA HB]. intros [[a [b [S N]]] | [N | [_ [c [n [W N]]]]]].
          - apply N. exact (HA a b S).
          - lia.
          - specialize (MB C c n W). lia. }
        cbn [bind]. eexists. split; [reflexivity |]. apply NL; [reflexivity | exact CC].
    + right. split.
      { intros C. destruct (H C) as [HA HB]. intros [[a [b [S N]]] | [N | [N _]]]; [apply N; exact (HA a b S) | lia | lia]. }
      assert (exists mc, majority_color E (p_team p) (map p_color ms) = Ret mc /\ counted_color ms (match mc with Some c => c | None => p_color p end)) as [mc [-> CC]].
      { rewrite Q in *. destruct r as [| b [| c' r]]; [| | cbn [length] in S3; lia]; (eexists; split; [reflexivity | reflexivity]). }
      cbn [bind]. eexists. split; [reflexivity |]. apply NL; [reflexivity | exact CC].
Qed.

Lemma mapM_cases : forall A B (f : A -> M B) (bad : A -> Prop) (good : A -> B -> Prop) l,
  (forall a, In a l -> (bad a /\ f a = Panic POverflow) \/ exists b, f a = Ret b /\ good a b) ->
  ((exists a, In a l /\ bad a) /\ mapM f l = Panic POverflow) \/ exists bs, mapM f l = Ret bs /\ Forall2 good l bs.
Proof.
  intros A B f bad good l. induction l as [| a l IH]; intros H; [right; exists []; split; [reflexivity | constructor] |].
  cbn [mapM]. destruct (H a (or_introl eq_refl)) as [[BA ->] | [b [-> GB]]].
  - left. split; [exists a; split; [left; reflexivity | exact BA] | reflexivity].
  - cbn [bind]. destruct IH as [[[x [I BX]] ->] | [bs [-> F]]]; [intros x I; apply H; right; exact I | |].
    + left. split; [exists x; split; [right; exact I | exact BX] | reflexivity].
    + right. exists (b :: bs). split; [reflexivity | constructor; assumption].
Qed.

Lemma splits_length : forall A (P : A -> Prop) l a b, splits P l a b -> len a <= len l.
Proof. intros A P l a b H. induction H; rewrite ?len_cons; lia. Qed.

Lemma teams_any_proof : forall E ps, iterates (teams_order E) -> each_iterates (colors_order E) -> len ps < 9223372036854775808 ->
  (checked E = true /\ teams_leave ps /\ teams_from_players E ps = Panic POverflow) \/
  ((checked E = true -> ~ teams_leave ps) /\
   exists ts, teams_from_players E ps = Ret ts /\ teams_of32 (to_lowercase E) ps ts).
Proof.
  intros E ps IT IC L.
  assert (EACH : forall g, In g (teams_order E (group_by_team ps)) ->
    (checked E = true /\ team_leaves (snd g) /\ team_from E (snd g) = Panic POverflow) \/
    ((checked E = true -> ~ team_leaves (snd g)) /\ exists t, team_from E (snd g) = Ret t /\ fst g = t_name t /\ team_of32 ps t)).
  { intros [n ms] I. apply (Permutation_in _ (IT _)) in I. destruct (group_entry _ _ _ I) as [V NE]. cbn [fst snd].
    pose proof (group_splits ps n) as SP. rewrite <- V in SP. pose proof (splits_length _ _ _ _ _ SP) as LM.
    destruct (team_any E ms IC NE ltac:(lia)) as [H | [H [t [T [[p [r [Q NM]]] [PL [FR [PG TC]]]]]]]]; [left; exact H | right].
    split; [exact H |]. exists t. split; [exact T |].
    assert (NN : n = t_name t).
    { rewrite NM. assert (IP : In p ms) by (rewrite Q; left; reflexivity). rewrite V in IP. apply filter_In in IP.
      destruct IP as [_ B]. apply beq_eq in B. congruence. }
    split; [exact NN |]. split; rewrite ?PL; [rewrite <- NN; eauto | exact NE | exact FR | exact PG | exact TC]. }
  assert (LEAVE : teams_leave ps -> exists g, In g (teams_order E (group_by_team ps)) /\ team_leaves (snd g)).
  { intros [n [ms [o [SP TL]]]]. destruct (splits_unique _ _ _ _ _ SP _ _ (group_splits ps n)) as [-> _].
    destruct (filter (fun p => beq (p_team p) n) ps) as [| p r] eqn:F.
    { exfalso. destruct TL as [[a [b [S N]]] | [N | [N _]]].
      - symmetry in S. apply app_eq_nil in S. destruct S as [-> ->]. apply N. cbv. split; discriminate.
      - cbn in N. lia.
      - cbn [length] in N. lia. }
    assert (In p (filter (fun p => beq (p_team p) n) ps)) as I by (rewrite F; left; reflexivity).
    apply filter_In in I. destruct I as [I B]. apply beq_eq in B.
    assert (In n (map fst (group_by_team ps))) as K by (apply group_keys; eauto).
    apply in_map_iff in K. destruct K as [[n' ms] [X K]]. cbn [fst] in X. subst n'. exists (n, ms). split.
    - apply (Permutation_in _ (Permutation_sym (IT _))). exact K.
    - cbn [snd]. destruct (group_entry _ _ _ K) as [-> _]. rewrite F. exact TL. }
  unfold teams_from_players.
  destruct (mapM_cases _ _ (team_from E) (fun ms => checked E = true /\ exists n, In (n, ms) (group_by_team ps) /\ team_leaves ms)
    (fun ms t => team_from E ms = Ret t) (map snd (teams_order E (group_by_team ps)))) as [[[ms [I [C [n [J TL]]]]] ->] | [us [MM _]]].
  - intros ms I. apply in_map_iff in I. destruct I as [[n ms'] [X I]]. cbn [snd] in X. subst ms'.
    destruct (EACH _ I) as [[C [TL T]] | [_ [t [T _]]]]; cbn [snd] in *; [left | right; eauto].
    split; [| exact T]. split; [exact C |]. exists n. split; [apply (Permutation_in _ (IT _)); exact I | exact TL].
  - left. split; [exact C |]. split; [| reflexivity]. destruct (group_entry _ _ _ J) as [V _].
    exists n, ms. rewrite V in TL |- *. eexists. split; [apply group_splits | exact TL].
  - right. rewrite MM. cbn [bind]. apply mapM_inv in MM.
    assert (Forall2 (fun g t => (checked E = true -> ~ team_leaves (snd g)) /\ fst g = t_name t /\ team_of32 ps t) (teams_order E (group_by_team ps)) us) as F.
    { revert us MM EACH. generalize (teams_order E (group_by_team ps)) as gs. clear. induction gs as [| g gs IH]; intros us MM EACH; cbn [map] in MM; inversion MM as [| ? t ? us' T M']; subst; [constructor |].
      constructor; [| apply IH; [exact M' | intros g' I; apply EACH; right; exact I]].
      destruct (EACH g (or_introl eq_refl)) as [[_ [_ T']] | [N [t' [T' [FN TO]]]]]; [congruence |]. assert (t' = t) as -> by congruence. auto. }
    split.
    + intros C TL. destruct (LEAVE TL) as [g [I X]]. destruct (EACH g I) as [[_ [_ T']] | [N _]]; [| exact (N C X)].
      apply (in_map snd) in I. revert I T' MM. generalize (map snd (teams_order E (group_by_team ps))) as l. clear. intros l I T MM.
      induction MM as [| a b l bs FA MM IH]; [exact I |]. destruct I as [-> | I]; [congruence | auto].
    + eexists. split; [reflexivity |].
      assert (NM : map t_name us = map fst (teams_order E (group_by_team ps))).
      { symmetry. apply Forall2_map_eq. eapply Forall2_impl; [| exact F]. intros a b [_ [H _]]. exact H. }
      assert (P : Permutation (map t_name (sort_by (team_cmp E) us)) (map fst (group_by_team ps))).
      { transitivity (map t_name us); [apply Permutation_map, sort_by_perm |]. rewrite NM. apply Permutation_map. apply IT. }
      split.
      * eapply Permutation_NoDup; [apply Permutation_sym, P | apply group_nodup].
      * intros n. rewrite <- group_keys. split; apply Permutation_in; [exact P | apply Permutation_sym, P].
      * apply Forall_forall. intros t I. apply (Permutation_in _ (sort_by_perm _ _ _)) in I.
        destruct (Forall2_in _ _ _ _ _ _ F I) as [g [_ [_ [_ H]]]]. exact H.
      * apply sort_teams.
Qed.

(** ** Many kills of one player *)
Lemma total_repeat : forall name k n, Score.total name (repeat (k, 1%Z) n) = if beq k name then Z.of_nat n else 0%Z.
Proof.
  intros name k. induction n as [| n IH]; [cbn; destruct (beq k name); reflexivity |].
  change (repeat (k, 1%Z) (S n)) with ([(k, 1%Z)] ++ repeat (k, 1%Z) n).
  rewrite ScoreFacts.total_app, ScoreFacts.total_one, IH. destruct (beq k name); lia.
Qed.
Lemma many_kills : forall k n, (2147483648 <= Z.of_nat n)%Z -> score_leaves (repeat (k, 1%Z) n).
Proof.
  intros k n N. exists (repeat (k, 1%Z) n), [], k. split; [symmetry; apply app_nil_r |].
  rewrite total_repeat, (proj2 (beq_eq k k) eq_refl). unfold fits32. lia.
Qed.
Lemma fewer_kills : forall k n, (Z.of_nat n < 2147483648)%Z -> ~ score_leaves (repeat (k, 1%Z) n).
Proof.
  intros k n N [a [b [name [Q H]]]]. apply H.
  assert (exists m, (m <= n)%nat /\ a = repeat (k, 1%Z) m) as [m [L ->]].
  { clear - Q. revert n Q. induction a as [| x a IH]; intros n Q; [exists O; split; [lia | reflexivity] |].
    destruct n as [| n]; [discriminate |]. cbn [repeat app] in Q. injection Q as <- Q. destruct (IH n Q) as [m [L ->]].
    exists (S m). split; [lia | reflexivity]. }
  rewrite total_repeat. unfold fits32. destruct (beq k name); lia.
Qed.
