(** The frame walk and prints(): C02, C03, C04, C05 (prints), C40 (prints), C41, C45. *)
From Verif.Model Require Import Base Env Prot Frame Message Prints.
From Verif.Spec Require Import Occ Mvd Messages Score.
From Verif.Proofs Require Import PrintFacts PrintProps WalkProps.
From Verif.Properties Require Import Sample.

(** Every body opens with exactly one list of print messages. *)
Theorem openings_exist : forall body,
  exists ms, opens_with body ms /\ forall ms', opens_with body ms' -> ms' = ms.
Proof. exact opens_with_total. Qed.

(** C02 *)
Theorem prints_well_formed : forall E fs rest openings,
  wf fs -> announced rest = None ->
  Forall2 (fun f ms => opens_with (f_body f) ms) fs openings ->
  prints E (encode fs ++ rest) =
  Ret (collapse print_dec (map as_print (filter has_text (concat openings)))).
Proof. exact prints_well_formed_proof. Qed.

(** C03 *)
Theorem prints_result_shape : forall E data ps, prints E data = Ret ps ->
  (forall p, In p ps -> pr_content p <> [] /\ ~ In x00 (pr_content p) /\
     exists level, level_of level = pr_id p /\ occurs data (x08 :: level :: pr_content p ++ [x00])) /\
  (forall a p q b, ps = a ++ p :: q :: b -> p <> q).
Proof. exact prints_shape. Qed.

(** C04 *)
Theorem walk_split : forall data, exists fs rest,
  data = encode fs ++ rest /\ wf fs /\ no_frame rest /\
  forall fs' rest', data = encode fs' ++ rest' -> wf fs' -> no_frame rest' -> fs' = fs /\ rest' = rest.
Proof. exact walk_split_proof. Qed.

Theorem prints_exact : forall E fs rest, wf fs -> no_frame rest ->
  (stops (len (encode fs ++ rest)) rest ->
     prints E (encode fs ++ rest) = Ret (collapse print_dec (map as_print (demo_messages fs)))) /\
  (overruns (len (encode fs ++ rest)) rest -> prints E (encode fs ++ rest) = Panic PSlice) /\
  (stops (len (encode fs ++ rest)) rest \/ overruns (len (encode fs ++ rest)) rest).
Proof. exact prints_exact_proof. Qed.

(** C40, prints *)
Theorem prints_concatenation : forall E fs gs a b, wf fs -> wf gs ->
  prints E (encode fs) = Ret a -> prints E (encode gs) = Ret b ->
  prints E (encode fs ++ encode gs) = Ret (join a b).
Proof. exact prints_concat. Qed.

(** C41 *)
Theorem obituaries_printed : forall E fs rest ps m s,
  wf fs -> no_frame rest -> prints E (encode fs ++ rest) = Ret ps ->
  In (m, s) (obituaries fs) -> In (mkPrint PiMedium (m_text m)) ps.
Proof. exact obituaries_printed_proof. Qed.

(** C45 *)
Theorem print_byte_size : forall m,
  byte_size (as_print m) + 1 = len (encode_message m).
Proof. exact byte_size_encode. Qed.

(** A demo with two visible prints, an empty one, a repeated one, a message behind another
    kind of message, and an incomplete header at the end. *)
Definition demo1 : list frame :=
  [ frame_all x05 (say x02 "hello" ++ say x02 "" ++ say x02 "hello" ++ [x01] ++ say x02 "hidden");
    mkFrame x0a x02 [] (repeat x00 8);
    mkFrame x01 x03 [x01; x00; x00; x00] (say x01 "bob died");
    mkFrame x02 x07 [] [];
    frame_all x02 (say x03 "bye") ].
Definition rest1 : bytes := [x01; x06; xff].

Example demo1_wf : wf demo1 /\ announced rest1 = None /\ no_frame rest1.
Proof. repeat split; try (repeat constructor; fail); repeat (constructor; [split; reflexivity |]); constructor. Qed.

Example demo1_openings :
  Forall2 (fun f ms => opens_with (f_body f) ms) demo1
    [ [mkMessage x02 (lit "hello"); mkMessage x02 []; mkMessage x02 (lit "hello")]; [];
      [mkMessage x01 (lit "bob died")]; []; [mkMessage x03 (lit "bye")] ].
Proof. repeat (constructor; [apply opens_with_messages; vm_compute; reflexivity |]). constructor. Qed.

Example demo1_prints : prints (sample true) (encode demo1 ++ rest1) =
  Ret [mkPrint PiHigh (lit "hello"); mkPrint PiMedium (lit "bob died"); mkPrint PiChat (lit "bye")].
Proof. vm_compute. reflexivity. Qed.

Example demo1_obituary : In (mkMessage x01 (lit "bob died"), skipn 2 demo1) (obituaries demo1).
Proof. vm_compute. left. reflexivity. Qed.

(** cutting the last byte off leaves a frame that overruns the data *)
Example demo1_cut : overruns (len (encode demo1) - 1)
    (firstn (length (encode_frame (frame_all x02 (say x03 "bye"))) - 1) (encode_frame (frame_all x02 (say x03 "bye")))) /\
  prints (sample true) (firstn (length (encode demo1) - 1) (encode demo1)) = Panic PSlice.
Proof. split; [exists 12 | ]; vm_compute; auto. split; [reflexivity | split; [reflexivity | discriminate]]. Qed.

Print Assumptions openings_exist.
Print Assumptions prints_well_formed.
Print Assumptions prints_result_shape.
Print Assumptions walk_split.
Print Assumptions prints_exact.
Print Assumptions prints_concatenation.
Print Assumptions obituaries_printed.
Print Assumptions print_byte_size.
