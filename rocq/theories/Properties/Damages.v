(** C93: what damaged frames can do to the scores *)
From Coq Require Import Lia ZifyN ZifyNat ZifyBool.
From Verif.Model Require Import Base Env Clients Frags.
From Verif.Spec Require Import Mvd Teams Score Join Damage.
From Verif.Proofs Require Import BaseFacts DamageFacts.
From Verif.Properties Require Import Sample Scores Joins.

(** [k] changed, lost or added frames change the scores of at most [3 k] players, each by at most [3 k], if they leave the
    list of clients alone. *)
Theorem frags_edits : forall E fs gs k r, wf fs -> wf gs -> len (encode fs) < 2147483648 -> len (encode gs) < 2147483648 ->
  clients E (encode fs) = Ret r -> clients E (encode gs) = Ret r -> edits k fs gs ->
  exists a b names, frags_per_player_name E (encode fs) = Ret a /\ frags_per_player_name E (encode gs) = Ret b /\
    len names <= 3 * k /\ agree_except names a b /\
    forall n x y, looked_up a n 0%Z x -> looked_up b n 0%Z y -> (Z.abs (y - x) <= 3 * Z.of_N k)%Z.
Proof. exact edits_proof. Qed.

(** Whatever the clients, if no obituary leaves the killer unnamed; then of at most [2 k] players. *)
Theorem frags_edits_named : forall E fs gs k, wf fs -> wf gs -> len (encode fs) < 2147483648 -> len (encode gs) < 2147483648 ->
  all_named E fs -> all_named E gs -> edits k fs gs ->
  exists a b names, frags_per_player_name E (encode fs) = Ret a /\ frags_per_player_name E (encode gs) = Ret b /\
    len names <= 2 * k /\ agree_except names a b /\
    forall n x y, looked_up a n 0%Z x -> looked_up b n 0%Z y -> (Z.abs (y - x) <= 3 * Z.of_N k)%Z.
Proof. exact edits_named_proof. Qed.

(** One lost frame that changes three scores *)
Definition whole : list frame :=
  [ clients_frame; frame_all x01 (say x01 "bert was telefragged by his teammate");
    frame_all x01 (say x01 "dora was telefragged by her teammate"); frame_all x01 (say x01 "bert suicides");
    frame_all x01 (update x00); frame_all x01 (update x02) ].
Definition holed : list frame := firstn 3 whole ++ skipn 4 whole.
Example lost_frame : edits 1 whole holed /\ wf whole /\ wf holed /\
  clients (sample true) (encode whole) = clients (sample true) (encode holed) /\
  frags_per_player_name (sample true) (encode whole) = Ret [(lit "bert", (-2)%Z)] /\
  frags_per_player_name (sample true) (encode holed) = Ret [(lit "anna", (-1)%Z); (lit "carl", (-1)%Z)].
Proof.
  split; [do 3 apply edit_keep; apply (edit_lose 0); repeat constructor |].
  split; [repeat constructor |]. split; [repeat constructor |]. repeat split; vm_compute; reflexivity.
Qed.
(** One changed frame that changes a score by three *)
Definition changed : list frame := firstn 3 whole ++ frame_all x01 (say x01 "anna rides bert's rocket") :: skipn 4 whole.
Example changed_frame : edits 1 whole changed /\ wf changed /\
  clients (sample true) (encode whole) = clients (sample true) (encode changed) /\
  frags_per_player_name (sample true) (encode changed) = Ret [(lit "bert", 1%Z)].
Proof.
  split; [do 3 apply edit_keep; apply (edit_change 0); repeat constructor |].
  split; [repeat constructor |]. split; vm_compute; reflexivity.
Qed.

(** So neither three can be replaced by two. *)
Theorem frags_edits_tight : exists fs gs hs a b c, edits 1 fs gs /\ edits 1 fs hs /\
  frags_per_player_name (sample true) (encode fs) = Ret a /\ frags_per_player_name (sample true) (encode gs) = Ret b /\
  frags_per_player_name (sample true) (encode hs) = Ret c /\
  (forall names, agree_except names a b -> 3 <= len names) /\
  exists n x y, looked_up a n 0%Z x /\ looked_up c n 0%Z y /\ Z.abs (y - x) = 3%Z.
Proof.
  destruct lost_frame as [D [_ [_ [_ [F G]]]]]. destruct changed_frame as [D' [_ [_ H]]].
  do 6 eexists. split; [exact D |]. split; [exact D' |]. split; [exact F |]. split; [exact G |]. split; [exact H |]. split.
  - intros names A. destruct (in_dec (list_eq_dec Byte.byte_eq_dec) (lit "anna") names) as [I1 | N].
    2: { apply (A _ (-1)%Z) in N. destruct N as [_ N]. destruct (N (or_introl eq_refl)) as [X | []]. discriminate X. }
    destruct (in_dec (list_eq_dec Byte.byte_eq_dec) (lit "bert") names) as [I2 | N].
    2: { apply (A _ (-2)%Z) in N. destruct N as [N _]. destruct (N (or_introl eq_refl)) as [X | [X | []]]; discriminate X. }
    destruct (in_dec (list_eq_dec Byte.byte_eq_dec) (lit "carl") names) as [I3 | N].
    2: { apply (A _ (-1)%Z) in N. destruct N as [_ N]. destruct (N (or_intror (or_introl eq_refl))) as [X | []]. discriminate X. }
    assert (K : (length [lit "anna"; lit "bert"; lit "carl"] <= length names)%nat).
    { apply NoDup_incl_length; [repeat constructor; cbn [In]; intuition discriminate |]. intros n [<- | [<- | [<- | []]]]; assumption. }
    unfold len. cbn [length] in K. lia.
  - exists (lit "bert"), (-2)%Z, 1%Z. split; [left; left; reflexivity |]. split; [left; left; reflexivity | reflexivity].
Qed.

(** A frame that changes the list of clients can change a score by more. *)
Definition kills : list frame :=
  concat (repeat [frame_all x01 (say x01 "dora was telefragged by her teammate"); frame_all x01 (update x02)] 4).
Theorem frags_edits_clients_refuted : exists fs gs, edits 1 fs gs /\ wf fs /\ wf gs /\
  frags_per_player_name (sample true) (encode fs) = Ret [(lit "carl", (-4)%Z)] /\
  frags_per_player_name (sample true) (encode gs) = Ret [].
Proof.
  exists (clients_frame :: kills), kills. split; [apply (edit_lose 0); repeat apply edit_keep; apply edit_none |].
  split; [repeat constructor |]. split; [repeat constructor |]. split; vm_compute; reflexivity.
Qed.

Print Assumptions frags_edits.
Print Assumptions frags_edits_named.
Print Assumptions frags_edits_tight.
Print Assumptions frags_edits_clients_refuted.
