(** What [{:?}] and [{:#?}] write for a value is one text. *)
From Coq Require Import Lia ZifyN ZifyNat ZifyBool.
From Verif.Model Require Import Base Env Prot Message Clients Players Flags Ktxstats.
From Verif.Spec Require Import Occ Times Faults Flags Shown Pretty.
From Verif.Proofs Require Import BaseFacts LiteralFacts.
Open Scope N_scope.

Definition one_way {A B} (f : A -> B -> Prop) : Prop := forall a t u, f a t -> f a u -> t = u.

Definition lean (ds : list N) : Prop := match ds with [] => True | d :: _ => d <> 0 end.

Lemma lean_positive : forall ds, lean ds -> ds <> [] -> 0 < number ds.
Proof.
  intros ds L H. destruct ds as [| d ds]; [contradiction |]. cbn [lean] in L. clear H. unfold number. cbn [fold_left].
  assert (forall v, 0 < v -> 0 < fold_left (fun v d => 10 * v + d) ds v) as G; [| apply G; lia].
  induction ds as [| e ds IH]; intros v V; cbn [fold_left]; [exact V | apply IH; lia].
Qed.
Lemma lean_init : forall ds d, lean (ds ++ [d]) -> lean ds.
Proof. intros [| e ds] d H; [exact I | exact H]. Qed.

Lemma lean_unique : forall ds es, wf_digits ds -> wf_digits es -> lean ds -> lean es -> number ds = number es -> ds = es.
Proof.
  intros ds. induction ds as [| d ds IH] using rev_ind; intros es W V L M H.
  - destruct es as [| e es]; [reflexivity |]. pose proof (lean_positive _ M ltac:(discriminate)) as P. rewrite <- H in P. unfold number in P. cbn [fold_left] in P. lia.
  - destruct es as [| e es _] using rev_ind.
    + pose proof (lean_positive _ L ltac:(destruct ds; discriminate)) as P. rewrite H in P. unfold number in P. cbn [fold_left] in P. lia.
    + rewrite !number_last in H. apply Forall_app in W. apply Forall_app in V. destruct W as [W WD], V as [V VE]. inversion WD; inversion VE; subst.
      assert (d = e) by lia. subst e. f_equal. apply IH; [exact W | exact V | apply (lean_init _ _ L) | apply (lean_init _ _ M) | lia].
Qed.

Lemma decimal_unique : forall ds es n, decimal_of ds n -> decimal_of es n -> ds = es.
Proof.
  intros ds es n (W & P & C) (V & Q & D).
  destruct C as [-> | (d & r & -> & C)], D as [-> | (e & q & -> & D)]; [reflexivity | | |].
  - pose proof (lean_positive (e :: q) D ltac:(discriminate)) as X. rewrite Q in X. unfold number in P. cbn [fold_left] in P. lia.
  - pose proof (lean_positive (d :: r) C ltac:(discriminate)) as X. rewrite P in X. unfold number in Q. cbn [fold_left] in Q. lia.
  - apply lean_unique; try assumption. congruence.
Qed.

Lemma number_one : one_way shows_number.
Proof. intros a t u [ds [D ->]] [es [F ->]]. f_equal. apply (decimal_unique _ _ _ D F). Qed.
Lemma integer_one : one_way shows_integer.
Proof.
  intros z t u (n & v & S & C) (m & w & R & D).
  destruct C as [(C & ->) | (C & N & ->)], D as [(D & ->) | (D & M & ->)]; try lia.
  - assert (n = m) by lia. subst m. apply (number_one n); assumption.
  - assert (n = m) by lia. subst m. f_equal. apply (number_one n); assumption.
Qed.
Lemma bool_one : one_way shows_bool.
Proof. intros b t u [(A & ->) | (A & ->)] [(B & ->) | (B & ->)]; congruence. Qed.

Lemma hex_one : one_way hex_char.
Proof. intros n c d [(A & C) | (A & C)] [(B & D) | (B & D)]; apply n_of_inj; lia. Qed.
Lemma char_one : one_way shows_char.
Proof.
  intros b t u H K. unfold shows_char in H, K. cbv zeta in H, K.
  destruct H as [(H & H1 & H2 & ->) | [(H & ->) | [(H & ->) | [(H & ->) | [(H & ->) | [(H & ->) | (H & H1 & H2 & H3 & H4 & X)]]]]]],
    K as [(K & K1 & K2 & ->) | [(K & ->) | [(K & ->) | [(K & ->) | [(K & ->) | [(K & ->) | (K & K1 & K2 & K3 & K4 & Y)]]]]]]; try reflexivity; try lia.
  destruct X as (h & l & ch & cl & Q & A & B & ->), Y as (h' & l' & ch' & cl' & Q' & A' & B' & ->).
  assert (l < 16 /\ l' < 16) by (destruct B as [[? _] | [? _]], B' as [[? _] | [? _]]; lia).
  assert (h = h' /\ l = l') as [<- <-] by lia. rewrite (hex_one h ch ch' A A'), (hex_one l cl cl' B B'). reflexivity.
Qed.
Lemma text_one : one_way shows_text.
Proof.
  intros s t u (ps & F & ->) (qs & G & ->). do 2 f_equal. revert qs G.
  enough (forall qs, Forall2 shows_char s qs -> ps = qs) as X by (intros qs G; rewrite (X qs G); reflexivity).
  induction F as [| b p s ps P F IH]; intros qs G; inversion G; subst; [reflexivity |]. f_equal; [eapply char_one; eassumption | apply IH; assumption].
Qed.
Lemma option_one : one_way shows_option.
Proof.
  intros o t u [(A & ->) | (s & v & A & S & ->)] [(B & ->) | (r & w & B & R & ->)]; try congruence.
  assert (s = r) by congruence. subst r. rewrite (text_one s v w S R). reflexivity.
Qed.
Lemma color_one : one_way shows_color.
Proof. intros c t u (a & b & A & B & ->) (x & y & X & Y & ->). rewrite (number_one _ _ _ A X), (number_one _ _ _ B Y). reflexivity. Qed.
Lemma id_one : one_way shows_id.
Proof.
  intros i t u A B. unfold shows_id in A, B. cbn [In] in A, B.
  repeat (destruct A as [A | A]; [injection A as <- <-; repeat (destruct B as [B | B]; [congruence |]); destruct B |]). destruct A.
Qed.

Lemma rest_one : forall A (f : A -> bytes -> Prop), one_way f -> one_way (shows_rest f).
Proof.
  intros A f F l. induction l as [| x l IH]; intros t u T U; cbn [shows_rest] in T, U; [congruence |].
  destruct T as (a & b & T1 & T2 & ->), U as (c & d & U1 & U2 & ->). rewrite (F _ _ _ T1 U1), (IH _ _ T2 U2). reflexivity.
Qed.
Lemma list_one : forall A (f : A -> bytes -> Prop), one_way f -> one_way (shows_list f).
Proof.
  intros A f F [| x l] t u T U; cbn [shows_list] in T, U; [congruence |].
  destruct T as (a & b & T1 & T2 & ->), U as (c & d & U1 & U2 & ->). rewrite (F _ _ _ T1 U1), (rest_one A f F _ _ _ T2 U2). reflexivity.
Qed.

Lemma print_one : forall i s t u, shows_print i s t -> shows_print i s u -> t = u.
Proof. intros i s t u (a & b & A & B & ->) (x & y & X & Y & ->). rewrite (id_one _ _ _ A X), (text_one _ _ _ B Y). reflexivity. Qed.
Lemma deeds_one : one_way shows_deeds.
Proof.
  intros n t u (a1 & a2 & a3 & a4 & a5 & a6 & a7 & A1 & A2 & A3 & A4 & A5 & A6 & A7 & ->)
    (b1 & b2 & b3 & b4 & b5 & b6 & b7 & B1 & B2 & B3 & B4 & B5 & B6 & B7 & ->).
  rewrite (number_one _ _ _ A1 B1), (number_one _ _ _ A2 B2), (number_one _ _ _ A3 B3), (number_one _ _ _ A4 B4), (number_one _ _ _ A5 B5),
    (number_one _ _ _ A6 B6), (number_one _ _ _ A7 B7). reflexivity.
Qed.
Lemma client_one : one_way shows_client.
Proof.
  intros c t u (a1 & a2 & a3 & a4 & a5 & a6 & a7 & a8 & A1 & A2 & A3 & A4 & A5 & A6 & A7 & A8 & ->)
    (b1 & b2 & b3 & b4 & b5 & b6 & b7 & b8 & B1 & B2 & B3 & B4 & B5 & B6 & B7 & B8 & ->).
  rewrite (number_one _ _ _ A1 B1), (text_one _ _ _ A2 B2), (text_one _ _ _ A3 B3), (color_one _ _ _ A4 B4), (bool_one _ _ _ A5 B5),
    (bool_one _ _ _ A6 B6), (option_one _ _ _ A7 B7), (option_one _ _ _ A8 B8). reflexivity.
Qed.
Lemma player_one : one_way shows_player.
Proof.
  intros c t u (a1 & a2 & a3 & a4 & a5 & a6 & a7 & a8 & A1 & A2 & A3 & A4 & A5 & A6 & A7 & A8 & ->)
    (b1 & b2 & b3 & b4 & b5 & b6 & b7 & b8 & B1 & B2 & B3 & B4 & B5 & B6 & B7 & B8 & ->).
  rewrite (text_one _ _ _ A1 B1), (text_one _ _ _ A2 B2), (color_one _ _ _ A3 B3), (integer_one _ _ _ A4 B4), (number_one _ _ _ A5 B5),
    (bool_one _ _ _ A6 B6), (option_one _ _ _ A7 B7), (option_one _ _ _ A8 B8). reflexivity.
Qed.
Lemma team_one : one_way shows_team.
Proof.
  intros c t u (a1 & a2 & a3 & a4 & a5 & A1 & A2 & A3 & A4 & A5 & ->) (b1 & b2 & b3 & b4 & b5 & B1 & B2 & B3 & B4 & B5 & ->).
  rewrite (text_one _ _ _ A1 B1), (color_one _ _ _ A2 B2), (integer_one _ _ _ A3 B3), (number_one _ _ _ A4 B4),
    (list_one _ _ player_one _ _ _ A5 B5). reflexivity.
Qed.
Lemma server_one : one_way shows_server.
Proof.
  intros c t u (a1 & a2 & a3 & a4 & A1 & A2 & A3 & A4 & ->) (b1 & b2 & b3 & b4 & B1 & B2 & B3 & B4 & ->).
  rewrite (text_one _ _ _ A1 B1), (text_one _ _ _ A2 B2), (text_one _ _ _ A3 B3), (number_one _ _ _ A4 B4). reflexivity.
Qed.

(** One below the other *)
Lemma option_lines_one : forall name, one_way (option_lines name).
Proof.
  intros name o t u [(A & ->) | (s & v & A & S & ->)] [(B & ->) | (r & w & B & R & ->)]; try congruence.
  assert (s = r) by congruence. subst r. rewrite (text_one s v w S R). reflexivity.
Qed.
Lemma print_lines_one : forall i s t u, print_lines i s t -> print_lines i s u -> t = u.
Proof. intros i s t u (a & b & A & B & ->) (x & y & X & Y & ->). rewrite (id_one _ _ _ A X), (text_one _ _ _ B Y). reflexivity. Qed.
Lemma deeds_lines_one : one_way deeds_lines.
Proof.
  intros n t u (a1 & a2 & a3 & a4 & a5 & a6 & a7 & A1 & A2 & A3 & A4 & A5 & A6 & A7 & ->)
    (b1 & b2 & b3 & b4 & b5 & b6 & b7 & B1 & B2 & B3 & B4 & B5 & B6 & B7 & ->).
  rewrite (number_one _ _ _ A1 B1), (number_one _ _ _ A2 B2), (number_one _ _ _ A3 B3), (number_one _ _ _ A4 B4), (number_one _ _ _ A5 B5),
    (number_one _ _ _ A6 B6), (number_one _ _ _ A7 B7). reflexivity.
Qed.
Lemma client_lines_one : one_way client_lines.
Proof.
  intros c t u (a1 & a2 & a3 & a4 & a4' & a5 & a6 & a7 & a8 & A1 & A2 & A3 & A4 & A4' & A5 & A6 & A7 & A8 & ->)
    (b1 & b2 & b3 & b4 & b4' & b5 & b6 & b7 & b8 & B1 & B2 & B3 & B4 & B4' & B5 & B6 & B7 & B8 & ->).
  rewrite (number_one _ _ _ A1 B1), (text_one _ _ _ A2 B2), (text_one _ _ _ A3 B3), (number_one _ _ _ A4 B4), (number_one _ _ _ A4' B4'),
    (bool_one _ _ _ A5 B5), (bool_one _ _ _ A6 B6), (option_lines_one _ _ _ _ A7 B7), (option_lines_one _ _ _ _ A8 B8). reflexivity.
Qed.
Lemma player_lines_one : one_way player_lines.
Proof.
  intros c t u (a1 & a2 & a3 & a3' & a4 & a5 & a6 & a7 & a8 & A1 & A2 & A3 & A3' & A4 & A5 & A6 & A7 & A8 & ->)
    (b1 & b2 & b3 & b3' & b4 & b5 & b6 & b7 & b8 & B1 & B2 & B3 & B3' & B4 & B5 & B6 & B7 & B8 & ->).
  rewrite (text_one _ _ _ A1 B1), (text_one _ _ _ A2 B2), (number_one _ _ _ A3 B3), (number_one _ _ _ A3' B3'), (integer_one _ _ _ A4 B4),
    (number_one _ _ _ A5 B5), (bool_one _ _ _ A6 B6), (option_lines_one _ _ _ _ A7 B7), (option_lines_one _ _ _ _ A8 B8). reflexivity.
Qed.
Lemma entries_one : forall A (f : A -> list line -> Prop), one_way f -> one_way (entries f).
Proof.
  intros A f F l. induction l as [| x l IH]; intros t u T U; cbn [entries] in T, U; [congruence |].
  destruct T as (a & b & T1 & T2 & ->), U as (c & d & U1 & U2 & ->). rewrite (F _ _ _ T1 U1), (IH _ _ T2 U2). reflexivity.
Qed.
Lemma team_lines_one : one_way team_lines.
Proof.
  intros c t u (a1 & a2 & a2' & a3 & a4 & a5 & A1 & A2 & A2' & A3 & A4 & A5 & ->) (b1 & b2 & b2' & b3 & b4 & b5 & B1 & B2 & B2' & B3 & B4 & B5 & ->).
  rewrite (text_one _ _ _ A1 B1), (number_one _ _ _ A2 B2), (number_one _ _ _ A2' B2'), (integer_one _ _ _ A3 B3), (number_one _ _ _ A4 B4).
  assert (a5 = b5) as ->; [| reflexivity].
  destruct A5 as [(A5 & ->) | (es & A5 & A6 & ->)], B5 as [(B5 & ->) | (es' & B5 & B6 & ->)]; try congruence.
  rewrite (entries_one _ _ player_lines_one _ _ _ A6 B6). reflexivity.
Qed.
Lemma server_lines_one : one_way server_lines.
Proof.
  intros c t u (a1 & a2 & a3 & a4 & A1 & A2 & A3 & A4 & ->) (b1 & b2 & b3 & b4 & B1 & B2 & B3 & B4 & ->).
  rewrite (text_one _ _ _ A1 B1), (text_one _ _ _ A2 B2), (text_one _ _ _ A3 B3), (number_one _ _ _ A4 B4). reflexivity.
Qed.
Lemma braced_one : forall A (f : A -> list line -> Prop), one_way f -> one_way (fun a => braced (f a)).
Proof. intros A f F a t u (x & X & ->) (y & Y & ->). rewrite (F a x y X Y). reflexivity. Qed.
Lemma list_page_one : forall A (f : A -> list line -> Prop), one_way f -> one_way (list_page f).
Proof.
  intros A f F l t u [(X & ->) | (x & X & X1 & ->)] [(Y & ->) | (y & Y & Y1 & ->)]; try congruence.
  rewrite (entries_one A f F l x y X1 Y1). reflexivity.
Qed.

Lemma shown_one_way_proof :
  (forall n t u, shows_deeds n t -> shows_deeds n u -> t = u) /\
  (forall i s t u, shows_print i s t -> shows_print i s u -> t = u) /\
  (forall c t u, shows_client c t -> shows_client c u -> t = u) /\
  (forall p t u, shows_player p t -> shows_player p u -> t = u) /\
  (forall x t u, shows_team x t -> shows_team x u -> t = u) /\
  (forall s t u, shows_server s t -> shows_server s u -> t = u).
Proof.
  split; [exact deeds_one |]. split; [exact print_one |]. split; [exact client_one |]. split; [exact player_one |].
  split; [exact team_one | exact server_one].
Qed.
Lemma pretty_one_way_proof :
  (forall n t u, braced (deeds_lines n) t -> braced (deeds_lines n) u -> t = u) /\
  (forall i s t u, braced (print_lines i s) t -> braced (print_lines i s) u -> t = u) /\
  (forall s t u, braced (server_lines s) t -> braced (server_lines s) u -> t = u) /\
  (forall l t u, list_page client_lines l t -> list_page client_lines l u -> t = u) /\
  (forall l t u, list_page player_lines l t -> list_page player_lines l u -> t = u) /\
  (forall l t u, list_page team_lines l t -> list_page team_lines l u -> t = u).
Proof.
  split; [exact (braced_one _ _ deeds_lines_one) |].
  split; [intros i s t u (x & X & ->) (y & Y & ->); rewrite (print_lines_one i s x y X Y); reflexivity |].
  split; [exact (braced_one _ _ server_lines_one) |]. split; [exact (list_page_one _ _ client_lines_one) |].
  split; [exact (list_page_one _ _ player_lines_one) | exact (list_page_one _ _ team_lines_one)].
Qed.
