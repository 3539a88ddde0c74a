(** ping_per_player_number(): C12. *)
From Verif.Model Require Import Base Env Frame Ping.
From Verif.Spec Require Import Mvd Messages Pings.
From Verif.Proofs Require Import PingFacts.
From Verif.Properties Require Import Sample.
Open Scope N_scope.

(** What [ping_records] reads from a body is what the server wrote there. *)
Theorem ping_records_inverse : forall us tail, Forall wf_ping us -> (forall r, tail <> x24 :: r) ->
  ping_records (concat (map encode_ping us) ++ tail) = map (fun u => (n_of (pu_player u), pu_ping u)) us.
Proof. exact ping_records_encode. Qed.

Theorem pings_average : forall E fs rest, wf fs -> sampling_ends fs rest ->
  sampled fs <> [] ->
  (forall p, In p (map fst (sampled fs)) -> sum (pings_of p (sampled fs)) < 65536) ->
  exists tbl, ping_per_player_number E (encode fs ++ rest) = Ret (Ok tbl) /\ averages tbl (sampled fs).
Proof. exact pings_average_proof. Qed.

Theorem pings_none : forall E fs rest, wf fs -> sampling_ends fs rest -> sampled fs = [] ->
  ping_per_player_number E (encode fs ++ rest) = Ret (Err "Unable to read pings").
Proof. exact pings_none_proof. Qed.

(** Without the bound on the sum: a panic with overflow checks, a mean of the wrapped sum
    without. *)
Theorem pings_overflow : forall E fs rest p, wf fs -> sampling_ends fs rest ->
  In p (map fst (sampled fs)) -> 65536 <= sum (pings_of p (sampled fs)) ->
  if checked E then ping_per_player_number E (encode fs ++ rest) = Panic POverflow
  else exists tbl a, ping_per_player_number E (encode fs ++ rest) = Ret (Ok tbl) /\ In (p, a) tbl /\
       a = (sum (pings_of p (sampled fs)) mod 65536) / len (pings_of p (sampled fs)).
Proof. exact pings_overflow_proof. Qed.

(** A frame that overruns the data before eight frames were sampled makes it panic. *)
Theorem pings_truncated : forall E fs rest, wf fs -> overruns (len (encode fs ++ rest)) rest ->
  len (ping_frames fs) < 8 -> ping_per_player_number E (encode fs ++ rest) = Panic PSlice.
Proof. exact pings_crash_proof. Qed.

Definition ping_frame (l : list ping_update) : frame := frame_all x05 (concat (map encode_ping l) ++ [x01]).

(** Two players in two frames, one with a mean that is not an integer, and a frame without
    pings in between. *)
Definition ping_demo : list frame :=
  [ ping_frame [mkPingUpdate x00 26 x00; mkPingUpdate x03 300 x02];
    frame_all x05 (say x02 "hi");
    ping_frame [mkPingUpdate x00 29 x00; mkPingUpdate x03 301 x02] ].

Example ping_demo_wf : wf ping_demo /\ sampling_ends ping_demo [] /\ sampled ping_demo <> [] /\
  forall p, In p (map fst (sampled ping_demo)) -> sum (pings_of p (sampled ping_demo)) < 65536.
Proof.
  split; [repeat constructor |]. split; [left; exact I |]. split; [discriminate |].
  intros p H. vm_compute in H. repeat destruct H as [H | H]; subst; try reflexivity. contradiction.
Qed.

Example ping_demo_result :
  ping_per_player_number (sample true) (encode ping_demo) = Ret (Ok [(0, 27); (3, 300)]).
Proof. vm_compute. reflexivity. Qed.

(** nine frames; the ninth is not sampled *)
Example ping_demo_eight :
  ping_per_player_number (sample true)
    (encode (repeat (ping_frame [mkPingUpdate x00 10 x00]) 8 ++ [ping_frame [mkPingUpdate x00 1000 x00]])) =
  Ret (Ok [(0, 10)]).
Proof. vm_compute. reflexivity. Qed.

(** The claim without the bound is false, in both build profiles. *)
Theorem pings_average_refuted : forall debug, exists fs, wf fs /\ sampled fs <> [] /\
  ~ exists tbl, ping_per_player_number (sample debug) (encode fs) = Ret (Ok tbl) /\ averages tbl (sampled fs).
Proof.
  intros debug. exists (repeat (ping_frame [mkPingUpdate x00 65535 x00]) 2).
  split; [repeat constructor |]. split; [discriminate |]. intros [tbl [H [_ [_ A]]]].
  destruct debug; vm_compute in H; [discriminate |]. inversion H. subst.
  specialize (A 0 32767 (or_introl eq_refl)). vm_compute in A. discriminate.
Qed.

Print Assumptions ping_records_inverse.
Print Assumptions pings_average.
Print Assumptions pings_none.
Print Assumptions pings_overflow.
Print Assumptions pings_truncated.
Print Assumptions pings_average_refuted.
