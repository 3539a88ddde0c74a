(** The exact texts of the errors: C51, C52. *)
From Verif.Model Require Import Base Utf8Error Env Serverinfo Timezone Matchdate FragEvent FlagEvent Ktxstats Duration.
From Verif.Spec Require Import Occ Mvd Texts Times Utf8 Dates Obituary Flags Stats Faults.
From Verif.Proofs Require Import BaseFacts Utf8Facts FaultFacts TimeFacts ErrorProps.
From Verif.Properties Require Import Sample Texts Dates.
Open Scope N_scope.

(** C51 *)
Theorem utf8_fault_exists : forall d, ~ utf8_text d -> exists i n, utf8_fault d i n.
Proof. exact fault_exists. Qed.

Theorem utf8_fault_one : forall d i n j m, utf8_fault d i n -> utf8_fault d j m -> i = j /\ n = m.
Proof. exact fault_unique. Qed.

Theorem utf8_fault_text : forall d i n, utf8_fault d i n -> ~ utf8_text d.
Proof. exact fault_no_text. Qed.

Theorem matchdate_string_fault : forall data text from i n,
  stands_between data matchdate_mark [x0a] text from -> 22 <= len text <= 25 -> utf8_fault text i n ->
  exists m, matchdate_string data = Ret (Err m) /\ fault_message m i n.
Proof. intros data. exact (proj2 (proj2 (matchdate_string_errors_proof data))). Qed.

Theorem ktxstats_fault : forall E data k text i n, last_at data version_mark k -> 18 <= k ->
  len data < usize_bound -> embeds (skipn (N.to_nat (k - 18)) data) text -> utf8_fault text i n ->
  exists m, ktxstats_string E data = Ret (Err m) /\ fault_message m i n.
Proof. exact ktxstats_fault_proof. Qed.

(** three of the four bytes of a character and then a letter, a character cut off by the end,
    a byte that starts no character *)
Example fault_samples :
  utf8_fault (lit "ab" ++ [xf0; x9f; x98; x78]) 2 (Some 3) /\
  utf8_fault (lit "ab" ++ [xf0; x9f; x98]) 2 None /\
  utf8_fault (encode_char 0x20AC ++ [xff]) 3 (Some 1) /\
  utf8_error_text (lit "ab" ++ [xf0; x9f; x98; x78]) = "invalid utf-8 sequence of 3 bytes from index 2"%string /\
  utf8_error_text (lit "ab" ++ [xf0; x9f; x98]) = "incomplete utf-8 byte sequence from index 2"%string.
Proof.
  split; [apply scan_fault; vm_compute; reflexivity |]. split; [apply scan_fault; vm_compute; reflexivity |].
  split; [apply scan_fault; vm_compute; reflexivity |]. split; vm_compute; reflexivity.
Qed.

(** a name in Latin-1 in the place of the time zone *)
Example fault_matchdate :
  matchdate_string (lit "xx" ++ [x08; x02] ++ lit "matchdate: 2024-04-02 21:02:17 C" ++ [xe9] ++ lit "T" ++ [x0a]) =
  Ret (Err "invalid utf-8 sequence of 1 bytes from index 21").
Proof. vm_compute. reflexivity. Qed.

(** C52 *)
Theorem matchdate_string_texts : forall data,
  (~ occurs data matchdate_mark -> matchdate_string data = Ret (Err "Matchdate not found")) /\
  (occurs data matchdate_mark ->
   (forall text from, stands_between data matchdate_mark [x0a] text from -> ~ 22 <= len text <= 25) ->
   matchdate_string data = Ret (Err "Invalid matchdate")).
Proof. intros data. destruct (matchdate_string_errors_proof data) as [H [K _]]. auto. Qed.

Theorem matchdate_texts : forall E data,
  (forall m, matchdate_string data = Ret (Err m) -> matchdate E data = Ret (Err m)) /\
  (forall text, has_matchdate data text -> ~ inside_char text 20 -> utc_offset (skipn 20 text) = Ret None ->
     matchdate E data = Ret (Err "Invalid timezone abbreviation")).
Proof. exact matchdate_errors_proof. Qed.

Theorem serverinfo_texts : forall E data, 1280 <= len data ->
  ((forall info, ~ has_serverinfo data info) ->
     serverinfo E data = Ret (Err "Serverinfo not found") /\
     timestamp_from_epoch E data = Ret (Err "Serverinfo not found") /\
     filename E data = Ret (Err "Serverinfo not found")) /\
  (forall info, has_serverinfo data info ->
     (st_epoch (settings_from E (to_utf8 E info)) = None ->
        timestamp_from_epoch E data = Ret (Err "Epoch not found in serverinfo")) /\
     (st_serverdemo (settings_from E (to_utf8 E info)) = None ->
        filename E data = Ret (Err "Filename not found"))).
Proof. exact serverinfo_errors_proof. Qed.

Theorem countdown_text : forall E data r, serverinfo E data = Ret r ->
  (forall s, r = Ok s -> st_mode s <> Some (lit "hoonymode")) ->
  ~ occurs data matchdate_marker -> countdown_duration E data = Ret (Err "Countdown not found").
Proof. exact countdown_missing_proof. Qed.

Theorem obituary_text : forall msg, (forall p x y, In p phrases -> ~ fits p msg x y) ->
  exists m, frag_event_from msg = Err m /\ lit m = lit "Unable to parse message: """ ++ msg ++ lit """".
Proof. exact obituary_error_proof. Qed.

Theorem flag_event_text : forall msg, (forall q, In q flag_phrases -> ~ occurs msg (snd q)) ->
  exists m, flag_event_from msg = Err m /\ lit m = lit "Unable to parse as flag event: """ ++ msg ++ lit """".
Proof. exact flag_error_proof. Qed.

Example error_texts :
  matchdate_string (lit "foo") = Ret (Err "Matchdate not found") /\
  matchdate_string (dated "2024-04-02 21:02:17") = Ret (Err "Invalid matchdate") /\
  matchdate (sample true) (dated "2024-05-20 19:25:42 XYZ") = Ret (Err "Invalid timezone abbreviation") /\
  timestamp_from_epoch (sample true) info_data = Ret (Err "Epoch not found in serverinfo") /\
  filename (sample true) info_data = Ret (Err "Filename not found") /\
  filename (sample true) (repeat x01 1300) = Ret (Err "Serverinfo not found") /\
  countdown_duration (sample true) info_data = Ret (Err "Countdown not found") /\
  frag_event_from (lit "hello") = Err "Unable to parse message: ""hello"""%string /\
  flag_event_from (lit "hello") = Err "Unable to parse as flag event: ""hello"""%string.
Proof. repeat (split; [vm_compute; reflexivity |]). vm_compute. reflexivity. Qed.

Print Assumptions utf8_fault_exists.
Print Assumptions utf8_fault_one.
Print Assumptions utf8_fault_text.
Print Assumptions matchdate_string_fault.
Print Assumptions ktxstats_fault.
Print Assumptions matchdate_string_texts.
Print Assumptions matchdate_texts.
Print Assumptions serverinfo_texts.
Print Assumptions countdown_text.
Print Assumptions obituary_text.
Print Assumptions flag_event_text.
