(** C58, C59: the client search and the statistics on any bytes. *)
From Coq Require Import Lia.
From Verif.Model Require Import Base Env Clientinfo Ktxstats.
From Verif.Spec Require Import Occ Mvd Texts Clientlist Stats Utf8 Faults Userinfo Lax.
From Verif.Proofs Require Import BaseFacts ClientFacts Utf8Facts StatsFacts ErrorProps UserinfoFacts BuildFacts LaxFacts.
From Verif.Properties Require Import Sample Clients Stats.

(** C58 *)
Theorem clientinfo_exact : forall E data spawn, first_at data spawn_mark spawn ->
  (forall l, clientinfo_strings E data = Ret (Ok l) <->
     exists st, search data (spawn + 12288) spawn st /\ l = map (to_unicode E) st) /\
  (forall p, clientinfo_strings E data = Panic p <-> p = PSlice /\ search_short data (spawn + 12288) spawn).
Proof. exact clientinfo_exact_proof. Qed.

(** The search ends in exactly one of the two ways, with one list. *)
Theorem search_decided : forall data limit offset,
  ((exists st, search data limit offset st /\ forall st', search data limit offset st' -> st' = st) /\
   ~ search_short data limit offset) \/
  ((forall st, ~ search data limit offset st) /\ search_short data limit offset).
Proof. exact search_decides. Qed.

Definition few_clients : bytes := lit "junk" ++ spawn_mark ++ run three_records (repeat x01 511).

Example search_example :
  search few_clients (4 + 12288) 4 [lit "\team\red\name\alice"; lit "\name\bob\*spectator\1"; lit "\name\carol"] /\
  search_short (firstn 540 few_clients) (4 + 12288) 4.
Proof.
  split.
  - assert (first_at few_clients spawn_mark 4) as F by (apply find_some; vm_compute; reflexivity).
    destruct (clientinfo_exact (sample true) few_clients 4 F) as [X _]. pose proof (proj1 (X _) three_records_result) as [st [S EQ]]. unfold sample in EQ; cbn [to_unicode] in EQ.
    replace (map _ st) with st in EQ by (symmetry; apply map_id). rewrite EQ. exact S.
  - assert (first_at (firstn 540 few_clients) spawn_mark 4) as F by (apply find_some; vm_compute; reflexivity).
    apply (clientinfo_exact (sample true) _ 4 F) with (p := PSlice). vm_compute. reflexivity.
Qed.

(** C59 *)
Theorem ktxstats_unchecked : forall E data k, checked E = false -> len data < 2 ^ 63 -> last_at data version_mark k ->
  (forall text, 8 <= k -> embeds_lax (from_block data k) text ->
     (utf8_text text -> ktxstats_string E data = Ret (Ok text)) /\
     (forall i n, utf8_fault text i n -> exists m, ktxstats_string E data = Ret (Err m) /\ fault_message m i n)) /\
  ((forall text, 8 <= k -> ~ embeds_lax (from_block data k) text) -> ktxstats_string E data = Panic PSlice).
Proof.
  intros E data k C LD LA. split.
  - intros text K EM. rewrite (ktxstats_unchecked_proof E data k text C LD LA K EM). split.
    + intros U. apply utf8_valid_iff in U. rewrite U. reflexivity.
    + intros i n F. destruct (utf8_valid text) eqn:V.
      * exfalso. apply utf8_valid_iff in V. exact (fault_no_text _ _ _ F V).
      * eexists. split; [reflexivity |]. apply error_text_fault. exact F.
  - intros N. destruct (ktxstats_string E data) as [r | p |] eqn:R.
    + exfalso. destruct (ktxstats_unchecked_inv E data k r C LD LA R) as [K [text EM]]. exact (N text K EM).
    + rewrite (ktxstats_unchecked_panic E data k p C LD LA R). reflexivity.
    + exfalso. exact (ktxstats_string_terminates E data LD R).
Qed.

Theorem ktxstats_checked : forall E data k, checked E = true -> len data < 2 ^ 63 -> last_at data version_mark k ->
  (forall text, 18 <= k -> ~ embeds (skipn (N.to_nat (k - 18)) data) text) ->
  exists p, ktxstats_string E data = Panic p.
Proof.
  intros E data k C LD LA N. destruct (ktxstats_string E data) as [r | p |] eqn:R.
  - exfalso. assert (len data < usize_bound) as B by (unfold usize_bound; lia).
    destruct (ktxstats_returns_proof E data k r C B LA R) as [K [text EM]]. exact (N text K EM).
  - eexists. reflexivity.
  - exfalso. exact (ktxstats_string_terminates E data LD R).
Qed.

(** A mark ten bytes into the data: without checks the block header in front of it is used. *)
Example ktxstats_unchecked_example :
  let data := [x00; x00] ++ enc32 16 ++ enc16 3 ++ enc16 0 ++ lit "{""version"": 3}more" in
  last_at data version_mark 10 /\ embeds_lax (from_block data 10) (lit "{""version"": 3}") /\
  ktxstats_string (sample false) data = Ret (Ok (lit "{""version"": 3}")) /\
  ktxstats_string (sample true) data = Panic POverflow /\
  embeds_lax (from_block (lit "12345678{""version"": ") 8) [] /\
  ktxstats_string (sample false) (lit "12345678{""version"": ") = Ret (Ok []) /\
  ktxstats_string (sample false) (lit "1234567{""version"": ") = Panic PSlice.
Proof.
  split; [apply rfind_some; vm_compute; reflexivity |]. split; [| split; [vm_compute; reflexivity |]; split; [vm_compute; reflexivity |]; split].
  - exists [mkSblock (repeat x00 10) 0 (lit "{""version"": 3}")], (lit "more").
    split; [vm_compute; reflexivity |]. split; [repeat constructor |]. split; [vm_compute; reflexivity |].
    left. exists [], (mkSblock (repeat x00 10) 0 (lit "{""version"": 3}")). repeat constructor.
  - exists [], (from_block (lit "12345678{""version"": ") 8). split; [reflexivity |]. split; [constructor |].
    split; [reflexivity |]. right. split; [constructor |]. split; [vm_compute; discriminate |].
    right. right. vm_compute. discriminate.
  - split; vm_compute; reflexivity.
Qed.

Print Assumptions clientinfo_exact.
Print Assumptions search_decided.
Print Assumptions ktxstats_unchecked.
Print Assumptions ktxstats_checked.
