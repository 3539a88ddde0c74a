(** Single protocol structures: C46 frame headers, C47 records, C48 number tables, C49 hidden
    block headers. *)
From Verif.Model Require Import Base Env Primitives Prot Frame Message.
From Verif.Spec Require Import Occ Mvd Messages Codes.
From Verif.Proofs Require Import DecodeProps.
From Verif.Properties Require Import Sample.

(** C46 *)
Theorem header_decoded : forall E before f after, wf_frame f ->
  exists h i,
    len (encode_frame f) = h + len (f_body f) /\
    from_data_and_index E (before ++ encode_frame f ++ after) (len before) = Ret (Ok i) /\
    i_duration i = n_of (f_time f) /\
    target_code (i_target i) = addressee (f_type f) /\
    command_code (i_command i) = frame_class (f_type f) /\
    i_index i = len before /\
    i_size i = len (encode_frame f) /\
    i_header_size i = h /\
    i_header_range i = (len before, len before + h) /\
    i_body_size i = len (f_body f) /\
    i_body_range i = (len before + h, len before + len (encode_frame f)).
Proof. exact header_decoded_proof. Qed.

Theorem header_total : forall E before rest,
  (announced rest = None ->
     from_data_and_index E (before ++ rest) (len before) =
     Ret (Err (if len rest <? 2 then "failed to read byte" else "failed to read long"))) /\
  (forall s, announced rest = Some s -> len (before ++ rest) < s ->
     from_data_and_index E (before ++ rest) (len before) =
     Ret (Err "Frame is smaller than expected size")) /\
  (forall s, announced rest = Some s -> s <= len (before ++ rest) ->
     exists time t r h i, rest = time :: t :: r /\
       h = 2 + (if has_mask t then 4 else 0) + (if has_length t then 4 else 0) /\ h <= s /\
       from_data_and_index E (before ++ rest) (len before) = Ret (Ok i) /\
       i_duration i = n_of time /\ target_code (i_target i) = addressee t /\
       command_code (i_command i) = frame_class t /\ i_index i = len before /\
       i_size i = s /\ i_header_size i = h /\ i_header_range i = (len before, len before + h) /\
       i_body_size i = s - h /\ i_body_range i = (len before + h, len before + s)).
Proof. exact header_total_proof. Qed.

Theorem header_index : forall E data index, len data < index ->
  from_data_and_index E data index = Panic PSlice.
Proof. exact header_past_end. Qed.

(** A frame for several players behind three other bytes. *)
Definition multi : frame := mkFrame x0d x0b [x01; x00; x00; x80] [x08; x02; x41; x00].

Example multi_wf : wf_frame multi.
Proof. split; reflexivity. Qed.

Example multi_header :
  from_data_and_index (sample true) ([x00; x01; x02] ++ encode_frame multi ++ [xff]) 3 =
  Ret (Ok {| i_duration := 13; i_target := TMultiple; i_command := CRead; i_index := 3;
             i_size := 14; i_header_size := 10; i_header_range := (3, 13);
             i_body_size := 4; i_body_range := (13, 17) |}).
Proof. reflexivity. Qed.

Example headers_refused :
  from_data_and_index (sample true) [x05] 0 = Ret (Err "failed to read byte") /\
  from_data_and_index (sample true) [x05; x01; x00; x00; x00] 0 = Ret (Err "failed to read long") /\
  from_data_and_index (sample true) [x05; x01; x01; x00; x00; x00] 0 =
    Ret (Err "Frame is smaller than expected size").
Proof. repeat split; reflexivity. Qed.

(** The announced size is only compared with all of the data, so the body may lie outside. *)
Example header_overrun :
  from_data_and_index (sample true) [x00; x00; x00; x00; x09; x01; x04; x00; x00; x00; xff] 4 =
  Ret (Ok {| i_duration := 9; i_target := TNone; i_command := CRead; i_index := 4;
             i_size := 10; i_header_size := 6; i_header_range := (4, 10);
             i_body_size := 4; i_body_range := (10, 14) |}).
Proof. reflexivity. Qed.

(** C47 *)
Theorem byte_value : forall E v b c,
  read_byte E (cursor_new v) = (Ok b, c) <-> exists rest, v = b :: rest /\ c = mkCursor 1 rest.
Proof. exact read_byte_value. Qed.

Theorem u16_value : forall E v n c,
  read_u16 E (cursor_new v) = (Ok n, c) <->
  n < 65536 /\ exists rest, v = enc16 n ++ rest /\ c = mkCursor 2 rest.
Proof. exact read_u16_value. Qed.

Theorem u32_value : forall E v n c,
  read_u32 E (cursor_new v) = (Ok n, c) <->
  n < 4294967296 /\ exists rest, v = enc32 n ++ rest /\ c = mkCursor 4 rest.
Proof. exact read_u32_value. Qed.

Theorem bstring_value : forall v s c,
  read_bstring (cursor_new v) = (Ok s, c) <->
  ~ In x00 s /\ exists rest, v = s ++ x00 :: rest /\ c = mkCursor (len s + 1) rest.
Proof. exact read_bstring_value. Qed.

Theorem score_record : forall E v u,
  update_frags_try_from E v = Ok u <->
  exists player score rest, score < 65536 /\ v = encode_score player score ++ rest /\
    u = mkUpdateFrags (n_of player) score.
Proof. exact update_frags_value. Qed.

Theorem score_record_errors : forall E v,
  (v = [] -> update_frags_try_from E v = Err "failed to read byte") /\
  (1 <= len v -> len v < 3 -> update_frags_try_from E v = Err "failed to read short") /\
  (3 <= len v -> exists u, update_frags_try_from E v = Ok u).
Proof. exact update_frags_error. Qed.

Theorem ping_record : forall E v u,
  update_ping_try_from E v = Ok u <->
  exists player ping loss rest, ping < 65536 /\ v = encode_ping player ping loss ++ rest /\
    u = mkUpdatePing (n_of player) ping.
Proof. exact update_ping_value. Qed.

Theorem ping_record_errors : forall E v,
  (v = [] \/ len v = 3 -> update_ping_try_from E v = Err "failed to read byte") /\
  (1 <= len v -> len v < 3 -> update_ping_try_from E v = Err "failed to read short") /\
  (4 <= len v -> exists u, update_ping_try_from E v = Ok u).
Proof. exact update_ping_error. Qed.

Theorem print_record : forall E v p,
  print_try_from E v = Ok p <->
  exists level text rest, ~ In x00 text /\ v = encode_text level text ++ rest /\
    p = mkPrint (level_of level) text.
Proof. exact print_value. Qed.

Theorem print_record_errors : forall E v,
  (v = [] -> print_try_from E v = Err "failed to read byte") /\
  (forall level d, v = level :: d -> ~ In x00 d -> print_try_from E v = Err "failed to read string") /\
  (forall level d, v = level :: d -> In x00 d -> exists p, print_try_from E v = Ok p).
Proof. exact print_error. Qed.

Example records :
  update_frags_try_from (sample true) (encode_score x02 513 ++ [xff]) = Ok (mkUpdateFrags 2 513) /\
  update_ping_try_from (sample true) (encode_ping x03 12 x05) = Ok (mkUpdatePing 3 12) /\
  print_try_from (sample true) (encode_text x01 [x41; x42] ++ [x00]) = Ok (mkPrint PiMedium [x41; x42]) /\
  update_frags_try_from (sample true) [x02; x01] = Err "failed to read short" /\
  update_ping_try_from (sample true) [x03; x0c; x00] = Err "failed to read byte" /\
  print_try_from (sample true) [x01; x41] = Err "failed to read string".
Proof. repeat split; reflexivity. Qed.

(** C48 *)
Theorem message_type_table : forall b t, t <> MtUnknown ->
  (message_type_from b = t <-> n_of b = message_type_code t).
Proof. exact message_type_codes. Qed.

Theorem message_type_rest : forall b,
  message_type_from b = MtUnknown <->
  forall t, t <> MtUnknown -> message_type_code t <> n_of b.
Proof. exact message_type_unknown. Qed.

Theorem hidden_message_table : forall n t, t <> HmUnknown ->
  (hidden_message_from n = t <-> n = hidden_message_code t).
Proof. exact hidden_message_codes. Qed.

Theorem hidden_message_rest : forall n,
  hidden_message_from n = HmUnknown <-> 10 < n /\ n <> 65535.
Proof. exact hidden_message_unknown. Qed.

Theorem print_id_table : forall b t, t <> PiUnknown ->
  (print_id_from b = t <-> n_of b = print_id_code t).
Proof. exact print_id_codes. Qed.

Theorem print_id_rest : forall b, print_id_from b = PiUnknown <-> 3 < n_of b.
Proof. exact print_id_unknown. Qed.

(** The codes that are declared for everything else *)
Theorem unknown_codes :
  message_type_code MtUnknown = 0xFF /\ hidden_message_code HmUnknown = 0xDEAD /\ print_id_code PiUnknown = 0xDEAD.
Proof. repeat split; reflexivity. Qed.

Theorem codes_distinct :
  (forall t u, message_type_code t = message_type_code u -> t = u) /\
  (forall t u, hidden_message_code t = hidden_message_code u -> t = u) /\
  (forall t u, print_id_code t = print_id_code u -> t = u).
Proof. repeat split; intros t u; destruct t; destruct u; intros H; try reflexivity; discriminate H. Qed.

Theorem target_table : forall b,
  target_code (target_from b) = addressee b /\
  forall t, target_code t = addressee b -> t = target_from b.
Proof.
  exact (fun b => conj (target_codes b)
    (fun t H => target_code_inj t (target_from b) (eq_trans H (eq_sym (target_codes b))))).
Qed.

Theorem command_table : forall b,
  command_code (command_from b) = frame_class b /\
  forall t, command_code t = frame_class b -> t = command_from b.
Proof.
  exact (fun b => conj (command_codes b)
    (fun t H => command_code_inj t (command_from b) (eq_trans H (eq_sym (command_codes b))))).
Qed.

Example tables :
  message_type_from x24 = MtUpdatePing /\ message_type_from x37 = MtUnknown /\
  message_type_from xff = MtUnknown /\
  hidden_message_from 0xFFFF = HmExtended /\ hidden_message_from 0xDEAD = HmUnknown /\
  print_id_from x03 = PiChat /\ print_id_from x04 = PiUnknown /\
  target_from x0b = TMultiple /\ command_from x0b = CRead /\ command_from x0f = CEmpty.
Proof. repeat split; reflexivity. Qed.

(** C49 *)
Theorem block_header : forall E size type number rest,
  size < 4294967296 -> type < 65536 -> number < 65536 ->
  block_try_from E (encode_block size type number ++ rest) =
  if 2 <=? size then
    Ret (Ok (mkBlock (size - 2) (size + 6) (hidden_message_from type) number))
  else if checked E then Panic POverflow
  else Ret (Ok (mkBlock (18446744073709551614 + size) (size + 6) (hidden_message_from type) number)).
Proof. exact block_value. Qed.

Theorem block_header_errors : forall E v,
  (len v < 4 -> block_try_from E v = Ret (Err "failed to read long")) /\
  (forall size rest, v = enc32 size ++ rest -> size < 4294967296 -> len rest < 4 ->
     block_try_from E v =
     if (size <? 2) && checked E then Panic POverflow else Ret (Err "failed to read short")).
Proof. exact block_error. Qed.

Example block_sample :
  block_try_from (sample true) (encode_block 8086 3 1 ++ [x7b]) = Ret (Ok (mkBlock 8084 8092 HmDemoinfo 1)) /\
  block_try_from (sample true) [x00; x00; x01] = Ret (Err "failed to read long") /\
  block_try_from (sample true) [x09; x00; x00; x00; x03; x00; x01] = Ret (Err "failed to read short") /\
  block_try_from (sample true) (encode_block 1 3 1) = Panic POverflow /\
  block_try_from (sample true) [x01; x00; x00; x00; x03] = Panic POverflow /\
  block_try_from (sample false) [x01; x00; x00; x00; x03] = Ret (Err "failed to read short") /\
  block_try_from (sample false) (encode_block 1 3 1) =
    Ret (Ok (mkBlock 18446744073709551615 7 HmDemoinfo 1)).
Proof. repeat split; reflexivity. Qed.

Print Assumptions header_decoded.
Print Assumptions header_total.
Print Assumptions header_index.
Print Assumptions byte_value.
Print Assumptions u16_value.
Print Assumptions u32_value.
Print Assumptions bstring_value.
Print Assumptions score_record.
Print Assumptions score_record_errors.
Print Assumptions ping_record.
Print Assumptions ping_record_errors.
Print Assumptions print_record.
Print Assumptions print_record_errors.
Print Assumptions message_type_table.
Print Assumptions message_type_rest.
Print Assumptions hidden_message_table.
Print Assumptions hidden_message_rest.
Print Assumptions print_id_table.
Print Assumptions print_id_rest.
Print Assumptions unknown_codes.
Print Assumptions codes_distinct.
Print Assumptions target_table.
Print Assumptions command_table.
Print Assumptions block_header.
Print Assumptions block_header_errors.
