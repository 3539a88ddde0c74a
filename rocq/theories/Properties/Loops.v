(** C82: the loops end, and they give what the source gives round by round. *)
From Verif.Model Require Import Base Utf8Error Env Primitives Prot Frame Message Prints FlagEvent Flags Frags Float Ping Clients Clientinfo
  Ktxstats Matchdate Duration.
From Verif.Spec Require Import Mvd Messages Loops.
From Verif.Proofs Require Import LoopFacts.
From Verif.Properties Require Import Sample.
Open Scope N_scope.

Theorem prints_loop : forall E data, exists o, gives (frame_round E data (prints_frame E data)) (0, []) (length data + 2) o /\
  prints E data = let! ps := o in Ret (dedup print_eqb ps).
Proof. exact prints_gives. Qed.

Theorem pings_loop : forall E data, exists o, gives (frame_round E data (pings_frame E data)) (0, (0, [])) (length data + 2) o /\
  ping_per_player_number E data =
    let! st := o in
    match snd st with
    | [] => Ret (Err "Unable to read pings")
    | total => let! avg := foldM (fun m '(pnum, l) => let! a := average E l in Ret (aset N.eqb pnum a m)) total [] in Ret (Ok avg)
    end.
Proof. exact ping_function. Qed.

Theorem flags_loop : forall E data, exists o, gives (frame_round E data (flags_frame E data)) (0, []) (length data + 2) o /\
  flag_events_per_player_name E data = let! ps := o in foldM (count_flag_print E) ps [].
Proof. exact flag_function. Qed.

Theorem frags_loop : forall E data, exists o, gives (frame_round E data (frags_frame E data)) (0, []) (length data + 2) o /\
  frags_per_player_name E data = let! l := o in foldM (score_print E data) l [].
Proof. exact frag_function. Qed.

Theorem team_killer_loop : forall E data index victim, exists o,
  gives (frame_round E data (killer_frame E data)) (index, (1, [])) (length data + 2) o /\
  (forall p, o = Panic p -> find_team_killer E data index victim = Panic p) /\
  (forall k, o = Ret (k, []) -> find_team_killer E data index victim = Ret (Err "Unable to find nearby frag updates")) /\
  (forall k nums cs v, o = Ret (k, nums) -> nums <> [] -> clients E data = Ret (Ok cs) ->
     List.find (fun c => beq (c_name c) victim) cs = Some v ->
     find_team_killer E data index victim =
       Ret (match List.find (fun c => beq (c_team c) (c_team v) && negb (beq (c_name c) (c_name v)))
                    (flat_map (fun n => match List.find (fun c => c_number c =? n) cs with Some c => [c] | None => [] end) nums) with
            | Some killer => Ok (c_name killer)
            | None => Err "Unable to find team killer"
            end)).
Proof. exact killer_function. Qed.

Theorem clock_loop : forall E data target, exists o, gives (frame_round E data (clock_frame E target)) (0, 0) (length data + 2) o /\
  duration_until_offset E data target = let! ms := o in from_secs (f32_div (f32_of_N ms) (f32_of_N 1000)).
Proof. exact clock_function. Qed.

Theorem clientinfo_strings_loop : forall E data offset, find data (x09 :: lit "cmd spawn") = Some offset ->
  exists o, gives (just (clientinfo_round E data (offset + 24 * 512))) (offset, []) (length data + 2) o /\
  clientinfo_strings E data = let! l := o in Ret (Ok l).
Proof. exact clientinfo_function. Qed.

Theorem ktxstats_string_loop : forall E data offset o, len data < 2 ^ 63 -> rfind data (lit "{""version"": ") = Some o ->
  usub E usize_bound o 18 = Ret offset -> exists r, gives (stats_round E data) (offset, []) (length data + 2) r /\
  ktxstats_string E data = let! content := r in if utf8_valid content then Ret (Ok content) else Ret (Err (utf8_error_text content)).
Proof. exact stats_gives. Qed.

(** ** Cases *)
(** A loop that goes on forever has no number of rounds. *)
Example forever : forall n s (o : M N), ~ ends (just (fun s : N => Ret (inl s))) n s o.
Proof. intros n s o H. induction H as [n s s' o A B IH | s r A | s p A]; [exact IH | discriminate A | discriminate A]. Qed.

(** A demo of two frames: the loop over the frames takes three rounds, the one over the messages of the first frame three. *)
Definition two_frames : bytes := encode [frame_all x05 (say x02 "hello" ++ say x02 "" ++ [x01]); mkFrame x0a x02 [] (repeat x00 8)].

Example two_frames_rounds :
  ends (frame_round (sample true) two_frames (prints_frame (sample true) two_frames)) 3 (0, []) (Ret [mkPrint PiHigh (lit "hello")]).
Proof.
  eapply ends_later; [eapply round_goes_on; [vm_compute; reflexivity |] |].
  - eapply prints_body; [vm_compute; discriminate | vm_compute; reflexivity |].
    eapply ends_later; [vm_compute; reflexivity |]. eapply ends_later; [vm_compute; reflexivity |]. apply ends_now. vm_compute. reflexivity.
  - eapply ends_later; [eapply round_goes_on; [vm_compute; reflexivity |] |].
    + eapply prints_body; [vm_compute; discriminate | vm_compute; reflexivity |]. apply ends_now. vm_compute. reflexivity.
    + apply ends_now. eapply round_no_frame. vm_compute. reflexivity.
Qed.

Example two_frames_clock : ends (frame_round (sample true) two_frames (clock_frame (sample true) 20)) 3 (0, 0) (Ret 15).
Proof.
  eapply ends_later; [eapply round_goes_on; [vm_compute; reflexivity | apply clock_runs; vm_compute; reflexivity] |].
  eapply ends_later; [eapply round_goes_on; [vm_compute; reflexivity | apply clock_runs; vm_compute; reflexivity] |].
  apply ends_now. eapply round_no_frame. vm_compute. reflexivity.
Qed.

Print Assumptions prints_loop.
Print Assumptions pings_loop.
Print Assumptions flags_loop.
Print Assumptions frags_loop.
Print Assumptions team_killer_loop.
Print Assumptions clock_loop.
Print Assumptions clientinfo_strings_loop.
Print Assumptions ktxstats_string_loop.
