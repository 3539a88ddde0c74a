(** C80: the standard library as it is modelled meets its documentation. *)
From Coq Require Import Permutation Sorted Floats.SpecFloat.
From Verif.Model Require Import Base Env Float.
From Verif.Spec Require Import Occ Order Mvd Utf8 Obituary Times Wrap Library.
From Verif.Proofs Require Import BaseFacts Utf8Facts OrderFacts PrintFacts ObituaryFacts LibraryFacts.
From Verif.Properties Require Import Sample.
Open Scope N_scope.

(** ** Comparing and searching *)
Theorem library_affixes : forall d p,
  (beq d p = true <-> d = p) /\
  (starts_with d p = true <-> exists r, d = p ++ r) /\
  (ends_with d p = true <-> exists r, d = r ++ p).
Proof. exact (fun d p => conj (beq_eq d p) (conj (starts_with_true p d) (ends_with_true d p))). Qed.

Theorem library_search : forall d p,
  (forall i, find d p = Some i <-> first_at d p i) /\ (find d p = None <-> ~ occurs d p) /\
  (forall i, rfind d p = Some i <-> last_at d p i) /\ (rfind d p = None <-> ~ occurs d p).
Proof. exact (fun d p => conj (find_some d p) (conj (find_none d p) (conj (rfind_some d p) (rfind_none d p)))). Qed.

Theorem library_split : forall d p,
  (forall a b, split_once d p = Some (a, b) <-> d = a ++ p ++ b /\ first_at d p (len a)) /\
  (split_once d p = None <-> ~ occurs d p).
Proof. exact (fun d p => conj (split_once_iff d p) (split_once_none d p)). Qed.

Theorem library_first_of_table : forall A B (f : A -> option B) l r, find_map f l = r <-> first_some f l r.
Proof. exact find_map_contract. Qed.

Example library_search_case :
  find (lit "a rides b rides c") (lit " rides ") = Some 1 /\ rfind (lit "a rides b rides c") (lit " rides ") = Some 9 /\
  split_once (lit "a rides b rides c") (lit " rides ") = Some (lit "a", lit "b rides c") /\
  find (lit "aab") [] = Some 0 /\ rfind (lit "aab") [] = Some 3 /\ rfind (lit "aaab") (lit "aa") = Some 1.
Proof. vm_compute. auto 10. Qed.

(** ** Slices *)
Theorem library_slice : forall A (d : list A) a b,
  (forall x, slice d a b = Ret x <-> part d a b x) /\
  (slice d a b = Panic PSlice <-> ~ (a <= b /\ b <= len d)) /\
  ((exists x, slice d a b = Ret x) \/ slice d a b = Panic PSlice).
Proof. exact slice_contract. Qed.

Theorem library_slice_from : forall A (d : list A) a,
  (forall x, slice_from d a = Ret x <-> part d a (len d) x) /\
  (slice_from d a = Panic PSlice <-> len d < a) /\
  ((exists x, slice_from d a = Ret x) \/ slice_from d a = Panic PSlice).
Proof. exact slice_from_contract. Qed.

Theorem library_slice_to : forall A (d : list A) b,
  (forall x, slice_to d b = Ret x <-> part d 0 b x) /\
  (slice_to d b = Panic PSlice <-> len d < b) /\
  ((exists x, slice_to d b = Ret x) \/ slice_to d b = Panic PSlice).
Proof. exact slice_to_contract. Qed.

(** ** Text *)
Theorem library_utf8 : forall d, utf8_valid d = true <-> utf8_text d.
Proof. exact utf8_valid_iff. Qed.

Theorem library_chars : forall cs, Forall scalar cs -> char_count (encode_text cs) = len cs.
Proof. exact char_count_text. Qed.

Theorem library_text_from : forall d a, utf8_text d ->
  (forall x, str_from d a = Ret x <-> between_chars d a /\ part d a (len d) x) /\
  (str_from d a = Panic PCharBoundary <-> ~ between_chars d a).
Proof. exact str_from_contract. Qed.

Theorem library_text_to : forall d b, utf8_text d ->
  (forall x, str_to d b = Ret x <-> between_chars d b /\ part d 0 b x) /\
  (str_to d b = Panic PCharBoundary <-> ~ between_chars d b).
Proof. exact str_to_contract. Qed.

Theorem library_text_slice : forall d a b, utf8_text d ->
  (forall x, str_slice d a b = Ret x <-> between_chars d a /\ between_chars d b /\ part d a b x) /\
  (str_slice d a b = Panic PCharBoundary <-> ~ (a <= b /\ between_chars d a /\ between_chars d b)).
Proof. exact str_slice_contract. Qed.

Theorem library_trim : forall s t, trim_end s = t <-> trimmed s t.
Proof. exact (fun s t => conj (fun H => proj2 (trimmed_iff s t) (eq_sym H)) (fun H => eq_sym (proj1 (trimmed_iff s t) H))). Qed.

Theorem library_trim_matches : forall b s x, b <> [] ->
  ends_with s b = true /\ x = trim_end_matches s b <->
  (exists n, s = x ++ concat (repeat b (S n))) /\ ~ (exists z, x = z ++ b).
Proof. exact trim_matches_iff. Qed.

Example library_text_case :
  let s := lit "aé→𝄞 " in
  utf8_valid s = true /\ len s = 11 /\ char_count s = 5 /\
  str_from s 3 = Ret (lit "→𝄞 ") /\ str_from s 2 = Panic PCharBoundary /\ str_to s 6 = Ret (lit "aé→") /\
  str_to s 12 = Panic PCharBoundary /\ str_slice s 3 6 = Ret (lit "→") /\ str_slice s 6 3 = Panic PCharBoundary /\
  trim_end s = lit "aé→𝄞" /\ trim_end_matches (lit "x.s.s") (lit ".s") = lit "x".
Proof. vm_compute. auto 15. Qed.

(** ** Orders *)
Theorem library_order : forall a b,
  (str_cmp a b = Lt <-> text_lt a b) /\ (str_cmp a b = Eq <-> a = b) /\ (str_cmp a b = Gt <-> text_lt b a).
Proof. exact str_cmp_contract. Qed.

Theorem library_sort : forall A (before : A -> A -> Prop) cmp, key_order before ->
  (forall x y, cmp x y = Gt <-> before y x) ->
  forall l r, sort_by cmp l = r <-> stable_order before l r.
Proof. exact sort_contract. Qed.

Theorem library_dedup : forall A (eqb : A -> A -> bool) dec l,
  (forall a b, eqb a b = true <-> a = b) -> dedup eqb l = collapse dec l.
Proof. exact dedup_collapse. Qed.

Example library_order_case :
  str_cmp (lit "ab") (lit "abc") = Lt /\ str_cmp (lit "b") (lit "abc") = Gt /\
  sort_by (fun x y => str_cmp (fst x) (fst y)) [(lit "b", 1); (lit "a", 2); (lit "b", 3); (lit "B", 4)]
  = [(lit "B", 4); (lit "a", 2); (lit "b", 1); (lit "b", 3)] /\
  dedup N.eqb [1; 1; 2; 1; 1] = [1; 2; 1].
Proof. vm_compute. auto 10. Qed.

(** ** Maps *)
Theorem library_map : forall K V (eqb : K -> K -> bool), (forall a b, eqb a b = true <-> a = b) ->
  forall k (v d : V) m,
  put k v (fun x => aget eqb x m) (fun x => aget eqb x (aset eqb k v m)) /\
  (aget eqb k m = None <-> ~ In k (map fst m)) /\
  (NoDup (map fst m) -> (aget eqb k m = Some v <-> In (k, v) m)) /\
  (NoDup (map fst m) -> NoDup (map fst (aset eqb k v m))) /\
  (aget eqb k m = None -> aset eqb k v m = m ++ [(k, v)] /\ aget_or eqb k d m = d) /\
  (forall w, aget eqb k m = Some w -> map fst (aset eqb k v m) = map fst m /\ aget_or eqb k d m = w).
Proof. exact map_contract. Qed.

Example library_map_case :
  aset N.eqb 2 9 [(1, 5); (2, 6)] = [(1, 5); (2, 9)] /\ aset N.eqb 3 9 [(1, 5); (2, 6)] = [(1, 5); (2, 6); (3, 9)] /\
  aget_or N.eqb 4 7 [(1, 5)] = 7.
Proof. vm_compute. auto. Qed.

(** ** Integers *)
Theorem library_unsigned_sum : forall E bound a b, 0 < bound ->
  (a + b < bound -> uadd E bound a b = Ret (a + b)) /\
  (bound <= a + b -> if checked E then uadd E bound a b = Panic POverflow
                     else exists r, uadd E bound a b = Ret r /\ low_part bound (a + b) r).
Proof. exact uadd_contract. Qed.

Theorem library_unsigned_difference : forall E bound a b, b < bound ->
  (b <= a -> exists r, usub E bound a b = Ret r /\ r + b = a) /\
  (a < b -> if checked E then usub E bound a b = Panic POverflow
            else exists r, usub E bound a b = Ret r /\ r < bound /\ r + b = a + bound).
Proof. exact usub_contract. Qed.

Theorem library_signed_sum : forall E a b,
  (fits32 (a + b) -> iadd E a b = Ret (a + b)%Z) /\
  (~ fits32 (a + b) -> if checked E then iadd E a b = Panic POverflow
                       else exists r, iadd E a b = Ret r /\ signed32 (a + b) r).
Proof. exact iadd_contract. Qed.

Theorem library_casts : forall z,
  (as_u8 z < 256 /\ exists k, z = (Z.of_N (as_u8 z) + k * 256)%Z) /\
  (as_u32 z < 4294967296 /\ exists k, z = (Z.of_N (as_u32 z) + k * 4294967296)%Z).
Proof. exact casts_contract. Qed.

Theorem library_float_casts : forall x r,
  (cast_of integer_part x r <-> r = f32_to_u32 x) /\ (cast_of nearest x r <-> r = f32_round_to_u32 x).
Proof. exact float_casts_contract. Qed.

(** 2.5, 2^33, and minus 2.5 *)
Example library_floats_case :
  f32_to_u32 (S754_finite false 5 (-1)) = 2 /\ f32_round_to_u32 (S754_finite false 5 (-1)) = 3 /\
  f32_round_to_u32 (S754_finite false 8388608 10) = 4294967295 /\ f32_round_to_u32 (S754_finite true 5 (-1)) = 0.
Proof. vm_compute. auto. Qed.

Example library_integers_case :
  uadd (sample false) 256 200 100 = Ret 44 /\ uadd (sample true) 256 200 100 = Panic POverflow /\
  usub (sample false) 256 3 5 = Ret 254 /\ iadd (sample false) 2147483647 1 = Ret (-2147483648)%Z /\
  iadd (sample true) (-2147483648) (-1) = Panic POverflow /\ as_u8 (-3) = 253 /\ as_u32 (-3) = 4294967293.
Proof. vm_compute. auto 10. Qed.

Print Assumptions library_affixes.
Print Assumptions library_search.
Print Assumptions library_split.
Print Assumptions library_first_of_table.
Print Assumptions library_slice.
Print Assumptions library_slice_from.
Print Assumptions library_slice_to.
Print Assumptions library_utf8.
Print Assumptions library_chars.
Print Assumptions library_text_from.
Print Assumptions library_text_to.
Print Assumptions library_text_slice.
Print Assumptions library_trim.
Print Assumptions library_trim_matches.
Print Assumptions library_order.
Print Assumptions library_sort.
Print Assumptions library_dedup.
Print Assumptions library_map.
Print Assumptions library_unsigned_sum.
Print Assumptions library_unsigned_difference.
Print Assumptions library_signed_sum.
Print Assumptions library_casts.
Print Assumptions library_float_casts.
