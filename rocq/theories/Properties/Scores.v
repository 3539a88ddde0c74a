(** Obituaries and frags_per_player_name(): C13, C14, C15. *)
From Verif.Model Require Import Base Env Frame Clients FragEvent Frags.
From Verif.Spec Require Import Occ Mvd Messages Obituary Score.
From Verif.Proofs Require Import BaseFacts ObituaryFacts ScoreProps.
From Verif.Properties Require Import Sample.

(** C13 *)
Theorem obituary_event : forall p x y, In p phrases -> ~ In x20 x -> plain y ->
  (has_two_names (ph_kind p) = false -> y = []) ->
  frag_event_from (obituary p x y) = Ok (event (ph_kind p) x y).
Proof. intros p x y P X Y O. apply reads_iff. apply obituary_reads; assumption. Qed.

(** Exactly what is read from any text, names with spaces included *)
Theorem obituary_exact : forall msg e, frag_event_from msg = Ok e <-> reads msg e.
Proof. exact reads_iff. Qed.

Theorem obituary_unknown : forall msg, (exists m, frag_event_from msg = Err m) <->
  forall p x y, In p phrases -> ~ fits p msg x y.
Proof. exact reads_none. Qed.

(** For every exclusion in [plain] there is a phrase that is misread with that name. *)
Theorem obituary_event_refuted : forall y,
  (exists r, y = lit "cratered" ++ r) \/ (exists r, y = lit "died" ++ r) \/
  y = lit "suicides" \/ y = lit "stomps" \/ y = lit "squishes" ->
  exists p x, In p phrases /\ ~ In x20 x /\ has_two_names (ph_kind p) = true /\
    frag_event_from (obituary p x y) <> Ok (event (ph_kind p) x y).
Proof. exact obituary_misread. Qed.

Example obituary_examples :
  frag_event_from (lit "anna rides bert's rocket") = Ok (Frag (lit "bert") (lit "anna")) /\
  frag_event_from (lit "anna rips bert a new one") = Ok (Frag (lit "anna") (lit "bert")) /\
  frag_event_from (lit "anna was telefragged by his teammate") = Ok (TeamkillByUnknown (lit "anna")) /\
  frag_event_from (lit "anna was telefragged by his") = Ok (Frag (lit "his") (lit "anna")) /\
  frag_event_from (lit "bob was nailed by cratered") = Ok (Death (lit "bob was nailed by")) /\
  In (two KKilledBy " rides " "'s rocket") phrases /\ plain (lit "bert").
Proof.
  split; [apply (obituary_event (two KKilledBy " rides " "'s rocket") (lit "anna") (lit "bert")) |].
  all: repeat match goal with
    | |- _ /\ _ => split
    | |- plain _ => unfold plain
    | |- In _ _ => vm_compute; tauto
    | |- ~ In _ _ => vm_compute; intros I; repeat (destruct I as [I | I]; [discriminate I |]); exact I
    | |- frag_event_from _ = _ => vm_compute; reflexivity
    | |- forall r, _ <> _ => intros r X; vm_compute in X; discriminate X
    | |- _ <> _ => intros X; vm_compute in X; discriminate X
    | |- _ = false -> _ => intros X; vm_compute in X; discriminate X
    end.
Qed.

(** C14 *)
Theorem frags_score_table : forall E fs rest r per,
  wf fs -> stops (len (encode fs ++ rest)) rest -> len (encode fs ++ rest) < 2147483648 ->
  clients E (encode fs ++ rest) = Ret r ->
  Forall2 (fun '(m, s) l =>
             scored (match r with Ok cs => cs | Err _ => [] end) (nearby_updates m s)
                    (to_unicode E (m_text m)) l)
          (obituaries fs) per ->
  exists tbl, frags_per_player_name E (encode fs ++ rest) = Ret tbl /\ tabulates tbl (concat per).
Proof. exact score_table_proof. Qed.

(** The entries exist (so the hypothesis above can always be met). *)
Theorem scored_exists : forall cs nums text, exists l, scored cs nums text l.
Proof. exact scored_exists_proof. Qed.

(** If no team kill is anonymous the clients do not matter, not even whether reading them
    would panic. *)
Theorem frags_score_table_named : forall E fs rest per,
  wf fs -> stops (len (encode fs ++ rest)) rest -> len (encode fs ++ rest) < 2147483648 ->
  (forall m s t v, In (m, s) (obituaries fs) -> trimmed (to_unicode E (m_text m)) t ->
     ~ reads t (TeamkillByUnknown v)) ->
  Forall2 (fun '(m, s) l => scored [] [] (to_unicode E (m_text m)) l) (obituaries fs) per ->
  exists tbl, frags_per_player_name E (encode fs ++ rest) = Ret tbl /\ tabulates tbl (concat per).
Proof. exact score_table_named_proof. Qed.

(** C15 *)
Theorem anonymous_teamkill : forall E fs rest r m s t victim,
  wf fs -> stops (len (encode fs ++ rest)) rest ->
  clients E (encode fs ++ rest) = Ret r ->
  obituaries fs = [(m, s)] ->
  trimmed (to_unicode E (m_text m)) t -> reads t (TeamkillByUnknown victim) ->
  let cs := match r with Ok cs => cs | Err _ => [] end in
  (forall k, charged cs victim (nearby_updates m s) k ->
     frags_per_player_name E (encode fs ++ rest) = Ret [(k, (-1)%Z)]) /\
  ((forall k, ~ charged cs victim (nearby_updates m s) k) ->
     frags_per_player_name E (encode fs ++ rest) = Ret []).
Proof. exact teamkill_proof. Qed.

(** A demo with four players in two teams.  The clients are read from the userinfo strings
    behind "cmd spawn". *)
Definition userinfo (s : string) : bytes := lit s ++ [x00].
Definition clients_frame : frame :=
  frame_all x00 (x09 :: lit "cmd spawn" ++ [x00]
    ++ userinfo "\name\anna\team\red\topcolor\4\bottomcolor\4"
    ++ userinfo "\name\bert\team\red\topcolor\4\bottomcolor\4"
    ++ userinfo "\name\carl\team\blue\topcolor\13\bottomcolor\13"
    ++ userinfo "\name\dora\team\blue\topcolor\13\bottomcolor\13" ++ repeat x00 600).

Definition update (player : byte) : bytes := [x0e; player; x01; x00].

Definition score_demo : list frame :=
  [ clients_frame;
    frame_all x01 (say x01 "anna rides carl's rocket");
    frame_all x01 (say x01 "dora was telefragged by her teammate" ++ [x01]);
    frame_all x01 []; frame_all x01 (update x03);
    frame_all x01 (update x02);
    frame_all x01 (say x01 "bert suicides"); frame_all x01 (say x01 "anna cratered");
    frame_all x01 (say x03 "carl died") ].

Example score_demo_wf : wf score_demo.
Proof. repeat constructor. Qed.

Example score_demo_clients : exists cs, clients (sample true) (encode score_demo) = Ret (Ok cs) /\
  map c_name cs = [lit "anna"; lit "bert"; lit "carl"; lit "dora"] /\ map c_number cs = [0; 1; 2; 3].
Proof. eexists. split; [vm_compute; reflexivity | split; vm_compute; reflexivity]. Qed.

Example score_demo_obituaries : map (fun x => m_text (fst x)) (obituaries score_demo) =
  [lit "anna rides carl's rocket"; lit "dora was telefragged by her teammate"; lit "bert suicides"; lit "anna cratered"].
Proof. vm_compute. reflexivity. Qed.

(** carl: +1 for anna, -1 for dora (the update of dora itself does not count) *)
Example score_demo_result : frags_per_player_name (sample true) (encode score_demo) =
  Ret [(lit "carl", 0%Z); (lit "bert", (-2)%Z); (lit "anna", (-1)%Z)].
Proof. vm_compute. reflexivity. Qed.

Example score_demo_charged : forall cs, clients (sample true) (encode score_demo) = Ret (Ok cs) ->
  charged cs (lit "dora") [3; 2] (lit "carl").
Proof.
  intros cs H. vm_compute in H. injection H as <-. eexists. split.
  - eexists [_; _; _], []. split; [reflexivity |]. split; [reflexivity |]. repeat (constructor; [intros X; vm_compute in X; discriminate X |]); constructor.
  - exists 2. eexists. split; [| split].
    + exists [3], []. split; [reflexivity |]. split.
      * eexists. split.
        -- eexists [_; _], [_]. split; [reflexivity |]. split; [reflexivity |].
           repeat (constructor; [intros X; vm_compute in X; discriminate X |]); constructor.
        -- split; [reflexivity | intros X; vm_compute in X; discriminate X].
      * constructor; [| constructor]. intros [c [[l1 [l2 [E [P F]]]] [_ N]]]. apply N.
        repeat (destruct l1 as [| ? l1]; [injection E; intros; subst; try discriminate; try reflexivity | injection E as ? E; subst]).
        destruct l1; discriminate.
    + eexists [_; _], [_]. split; [reflexivity |]. split; [reflexivity |]. repeat (constructor; [intros X; vm_compute in X; discriminate X |]); constructor.
    + reflexivity.
Qed.

Print Assumptions obituary_event.
Print Assumptions obituary_exact.
Print Assumptions obituary_unknown.
Print Assumptions obituary_event_refuted.
Print Assumptions scored_exists.
Print Assumptions frags_score_table.
Print Assumptions frags_score_table_named.
Print Assumptions anonymous_teamkill.
