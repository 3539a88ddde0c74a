(** C10, C11: the embedded statistics. *)
From Coq Require Import Lia.
From Verif.Model Require Import Base Env Ktxstats.
From Verif.Spec Require Import Occ Mvd Stats Utf8 Faults.
From Verif.Proofs Require Import BaseFacts Utf8Facts StatsFacts ErrorProps.
From Verif.Properties Require Import Sample.

(** C10: the contents of a chain of blocks that ends with block 0, with the first content
    starting with the last [{"version": ] of the data.  Nothing is assumed about [pre] and [post]. *)
Theorem ktxstats_chain : forall E pre init b post text,
  Forall wf_block (init ++ [b]) -> Forall (fun b => sb_number b <> 0) init -> sb_number b = 0 ->
  let data := pre ++ concat (map encode_block (init ++ [b])) ++ post in
  text = concat (map sb_content (init ++ [b])) -> utf8_text text ->
  last_at data version_mark (len pre + 18) -> len data < usize_bound ->
  ktxstats_string E data = Ret (Ok text).
Proof.
  intros E pre init b post text W F Z data T U LA LD. apply utf8_valid_iff in U.
  rewrite (ktxstats_embedded_proof E data (len pre + 18) text); [rewrite U; reflexivity | exact LA | lia | exact LD |].
  replace (len pre + 18 - 18) with (len pre) by lia. unfold data. rewrite skipn_len_app.
  exists (init ++ [b]), post. split; [reflexivity |]. split; [exact W |]. split; [exact T |].
  left. exists init, b. auto.
Qed.

(** ... and, more generally, whatever way the chain ends *)
Theorem ktxstats_embedded : forall E data k text, last_at data version_mark k -> 18 <= k ->
  len data < usize_bound -> embeds (skipn (N.to_nat (k - 18)) data) text ->
  (utf8_text text -> ktxstats_string E data = Ret (Ok text)) /\
  (forall i n, utf8_fault text i n ->
     exists m, ktxstats_string E data = Ret (Err m) /\ fault_message m i n).
Proof.
  intros E data k text L K B S. split.
  - intros U. apply utf8_valid_iff in U. rewrite (ktxstats_embedded_proof E data k text L K B S), U. reflexivity.
  - intros i n U. exact (ktxstats_fault_proof E data k text i n L K B S U).
Qed.

(** C11 *)
Theorem ktxstats_missing : forall E data,
  ktxstats_string E data = Ret (Err "ktxstats not found") <-> ~ occurs data version_mark.
Proof. exact ktxstats_missing_proof. Qed.

Theorem ktxstats_returns : forall E data k r, checked E = true -> len data < usize_bound ->
  last_at data version_mark k -> ktxstats_string E data = Ret r ->
  18 <= k /\ exists text, embeds (skipn (N.to_nat (k - 18)) data) text.
Proof. exact ktxstats_returns_proof. Qed.

(** Not every input that contains the prefix is processed without a panic: prefix at the start
    (both build profiles), block size below two, and a chain cut off in the second block. *)
Theorem ktxstats_returns_refuted :
  (forall E, exists data p, occurs data version_mark /\ ktxstats_string E data = Panic p) /\
  (exists data, last_at data version_mark 18 /\ ktxstats_string (sample true) data = Panic POverflow /\
     ktxstats_string (sample false) data <> Panic POverflow) /\
  (forall E, exists data, last_at data version_mark 18 /\ ktxstats_string E data = Panic PSlice).
Proof.
  split; [| split].
  - intros E. exists version_mark.
    assert (ktxstats_string E version_mark = if checked E then Panic POverflow else Panic PSlice) as H.
    { unfold ktxstats_string. change (rfind version_mark VERSION) with (Some 0).
      unfold usub. change (TOTAL_HEADER_SIZE <=? 0) with false. destruct (checked E) eqn:C; [reflexivity |].
      cbn [bind]. rewrite ktxstats_loop_S. unfold uadd. rewrite C. vm_compute. reflexivity. }
    rewrite H. destruct (checked E); eexists; (split; [exists [], []; reflexivity | reflexivity]).
  - exists (repeat x00 10 ++ enc32 1 ++ enc16 3 ++ enc16 0 ++ version_mark).
    split; [apply rfind_some; vm_compute; reflexivity |]. split; vm_compute; [reflexivity | discriminate].
  - intros E. exists (encode (stats_frame 1 (version_mark ++ lit "3}") :: nil)).
    split; [apply rfind_some; vm_compute; reflexivity |].
    destruct (ktxstats_string E _) eqn:X; destruct E as [c e]; destruct c; vm_compute in X; discriminate X || (inv X; reflexivity).
Qed.

Definition stats_text1 : bytes := lit "{""version"": 3, ""mo".
Definition stats_text2 : bytes := lit "de"": ""duel""}".
Definition stats_data : bytes :=
  encode [info_frame "\mode\duel"; stats_frame 1 stats_text1; stats_frame 0 stats_text2] ++ lit "more".

(** The hypotheses of [ktxstats_chain] hold for two blocks in the middle of a demo. *)
Example stats_data_chain :
  let b1 := mkSblock [x00; x03; x00; x00; x00; x00; x1a; x00; x00; x00] 1 stats_text1 in
  let b0 := mkSblock [x00; x03; x00; x00; x00; x00; x14; x00; x00; x00] 0 stats_text2 in
  stats_data = encode [info_frame "\mode\duel"] ++ concat (map encode_block [b1; b0]) ++ lit "more" /\
  Forall wf_block [b1; b0] /\ last_at stats_data version_mark (len (encode [info_frame "\mode\duel"]) + 18) /\
  ktxstats_string (sample true) stats_data = Ret (Ok (stats_text1 ++ stats_text2)).
Proof.
  split; [vm_compute; reflexivity |]. split; [repeat constructor |].
  split; [apply rfind_some; vm_compute; reflexivity | vm_compute; reflexivity].
Qed.
Example stats_data_dead_end :
  embeds (encode [stats_frame 1 stats_text1] ++ repeat x02 12) stats_text1.
Proof.
  exists [mkSblock [x00; x03; x00; x00; x00; x00; x1a; x00; x00; x00] 1 stats_text1], (repeat x02 12).
  split; [vm_compute; reflexivity |]. split; [repeat constructor |]. split; [vm_compute; reflexivity |].
  right. split; [repeat constructor; discriminate |]. split; [vm_compute; discriminate | exact I].
Qed.

Print Assumptions ktxstats_chain.
Print Assumptions ktxstats_embedded.
Print Assumptions ktxstats_missing.
Print Assumptions ktxstats_returns.
Print Assumptions ktxstats_returns_refuted.
