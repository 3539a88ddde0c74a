(** Bytes, the outcome monad, slices, substring search and association lists:
    the vocabulary every other model file is written in.  Nothing in this file
    models a function of /repo; each definition models a piece of the Rust
    standard library (or of the `bstr` crate) that /repo calls. *)
From Coq Require Export String.
From Coq Require Export NArith ZArith Bool List.
From Coq Require Export Strings.Byte.
Export ListNotations.
Open Scope N_scope.
Open Scope list_scope.

(** A Rust [u8] is a [byte] (256 constructors x00 .. xff), so a [&[u8]] needs no
    well-formedness side condition.  A Rust [String]/[&str] is modelled by its
    UTF-8 bytes ([str]). *)
Definition bytes := list byte.
Definition str := bytes.

Definition n_of (b : byte) : N := Byte.to_N b.

(** Text literals: Coq source is UTF-8, so this yields the UTF-8 bytes, as a Rust
    string literal does. *)
Definition lit (s : string) : str := list_byte_of_string s.

(** Why a computation panicked. *)
Inductive panic :=
| PSlice          (* slice index out of range / start > end *)
| POverflow       (* arithmetic overflow, only with overflow checks on *)
| PCharBoundary   (* str slicing inside a UTF-8 sequence, or past the end *)
| PDurationSub    (* "overflow when subtracting durations" *)
| PDurationFrom.  (* Duration::from_secs_f64 on a negative / NaN / too large value *)

(** Result of running code that may panic.  [OutOfFuel] is not a Rust behaviour:
    it is what a loop model returns if it iterates more often than its fuel; a
    loop that could run forever would return it for every fuel.  C01 proves that
    no public entry point ever returns it. *)
Inductive M (A : Type) :=
| Ret (a : A)
| Panic (p : panic)
| OutOfFuel.
Arguments Ret {A} a.
Arguments Panic {A} p.
Arguments OutOfFuel {A}.

Definition bind {A B} (m : M A) (k : A -> M B) : M B :=
  match m with
  | Ret a => k a
  | Panic p => Panic p
  | OutOfFuel => OutOfFuel
  end.

(** Rust [Result<A, anyhow::Error>] (and io::Result): the error is its message. *)
Inductive result (A : Type) :=
| Ok (a : A)
| Err (msg : string).
Arguments Ok {A} a.
Arguments Err {A} msg.

Definition is_ok {A} (r : result A) : bool :=
  match r with Ok _ => true | Err _ => false end.

(** [Result::is_ok_and]. *)
Definition is_ok_and {A} (r : result A) (p : A -> bool) : bool :=
  match r with Ok a => p a | Err _ => false end.

Declare Scope m_scope.
Delimit Scope m_scope with m.
Notation "'let!' x ':=' m 'in' k" := (bind m (fun x => k))
  (at level 200, x pattern, m at level 100, k at level 200, right associativity) : m_scope.
(** the [?] operator on a [Result]-valued expression, in a [Result]-valued function *)
Notation "'let?' x ':=' m 'in' k" :=
  (bind m (fun r => match r with Ok x => k | Err e => Ret (Err e) end))
  (at level 200, x pattern, m at level 100, k at level 200, right associativity) : m_scope.
Open Scope m_scope.

(** Slices.  [len] is [data.len()]; [slice] is [&d[a..b]], [slice_from] is
    [&d[a..]], [slice_to] is [&d[..b]]; each panics exactly when Rust does. *)
Definition len {A} (d : list A) : N := N.of_nat (length d).

Definition sub_list {A} (d : list A) (a b : N) : list A :=
  firstn (N.to_nat (b - a)) (skipn (N.to_nat a) d).

Definition slice {A} (d : list A) (a b : N) : M (list A) :=
  if (a <=? b) && (b <=? len d) then Ret (sub_list d a b) else Panic PSlice.

Definition slice_from {A} (d : list A) (a : N) : M (list A) :=
  if a <=? len d then Ret (skipn (N.to_nat a) d) else Panic PSlice.

Definition slice_to {A} (d : list A) (b : N) : M (list A) :=
  if b <=? len d then Ret (firstn (N.to_nat b) d) else Panic PSlice.

(** Byte string equality, prefix, suffix. *)
Fixpoint beq (a b : bytes) : bool :=
  match a, b with
  | [], [] => true
  | x :: a', y :: b' => Byte.eqb x y && beq a' b'
  | _, _ => false
  end.

Fixpoint starts_with (d p : bytes) {struct p} : bool :=
  match p, d with
  | [], _ => true
  | x :: p', y :: d' => Byte.eqb x y && starts_with d' p'
  | _ :: _, [] => false
  end.

Definition ends_with (d p : bytes) : bool :=
  starts_with (rev d) (rev p).

(** [bstr::ByteSlice::find] / [str::find]: offset of the first occurrence. *)
Fixpoint find_at (i : N) (d p : bytes) {struct d} : option N :=
  if starts_with d p then Some i
  else match d with
       | [] => None
       | _ :: d' => find_at (N.succ i) d' p
       end.
Definition find (d p : bytes) : option N := find_at 0 d p.

(** [bstr::ByteSlice::rfind]: offset of the last occurrence. *)
Fixpoint rfind_at (i : N) (d p : bytes) {struct d} : option N :=
  match d with
  | [] => if starts_with [] p then Some i else None
  | _ :: d' =>
      match rfind_at (N.succ i) d' p with
      | Some j => Some j
      | None => if starts_with d p then Some i else None
      end
  end.
Definition rfind (d p : bytes) : option N := rfind_at 0 d p.

Definition find_byte (d : bytes) (b : byte) : option N := find d [b].
Definition rfind_byte (d : bytes) (b : byte) : option N := rfind d [b].

(** [Vec::is_empty] / [str::is_empty] *)
Definition is_empty {A} (l : list A) : bool := match l with [] => true | _ => false end.

Definition is_some {A} (o : option A) : bool :=
  match o with Some _ => true | None => false end.

(** [str::split_once]: around the first occurrence. *)
Definition split_once (d p : bytes) : option (bytes * bytes) :=
  match find d p with
  | None => None
  | Some i => Some (firstn (N.to_nat i) d, skipn (N.to_nat (i + len p)) d)
  end.

(** [Iterator::find_map] over a table. *)
Fixpoint find_map {A B} (f : A -> option B) (l : list A) : option B :=
  match l with
  | [] => None
  | x :: l' => match f x with Some b => Some b | None => find_map f l' end
  end.

(** Little-endian integers ([u16::from_le_bytes], [u32::from_le_bytes]). *)
Definition le16 (a b : byte) : N := n_of a + 256 * n_of b.
Definition le32 (a b c d : byte) : N :=
  n_of a + 256 * n_of b + 65536 * n_of c + 16777216 * n_of d.

(** Lexicographic comparison of byte strings: Rust's [Ord for str]. *)
Fixpoint str_cmp (a b : str) : comparison :=
  match a, b with
  | [], [] => Eq
  | [], _ :: _ => Lt
  | _ :: _, [] => Gt
  | x :: a', y :: b' =>
      match N.compare (n_of x) (n_of y) with
      | Eq => str_cmp a' b'
      | c => c
      end
  end.

(** [slice::sort_by]: a stable sort.  All stable sorts by a total preorder compute
    the same list, so insertion sort stands for Rust's merge sort. *)
Fixpoint insert_by {A} (cmp : A -> A -> comparison) (x : A) (l : list A) : list A :=
  match l with
  | [] => [x]
  | y :: l' =>
      match cmp x y with
      | Gt => y :: insert_by cmp x l'
      | _ => x :: y :: l'
      end
  end.
Fixpoint sort_by {A} (cmp : A -> A -> comparison) (l : list A) : list A :=
  match l with
  | [] => []
  | x :: l' => insert_by cmp x (sort_by cmp l')
  end.

(** [Vec::dedup]: drops every element equal to the last one kept. *)
Fixpoint dedup_from {A} (eqb : A -> A -> bool) (prev : A) (l : list A) : list A :=
  match l with
  | [] => []
  | x :: l' => if eqb x prev then dedup_from eqb prev l' else x :: dedup_from eqb x l'
  end.
Definition dedup {A} (eqb : A -> A -> bool) (l : list A) : list A :=
  match l with
  | [] => []
  | x :: l' => x :: dedup_from eqb x l'
  end.

(** [HashMap] as an association list with at most one entry per key; a new key goes
    to the end.  Where /repo iterates over a map the order comes from an oracle in
    [Env.v]. *)
Section AList.
  Context {K V : Type} (eqb : K -> K -> bool).
  Fixpoint aget (k : K) (m : list (K * V)) : option V :=
    match m with
    | [] => None
    | (k', v) :: m' => if eqb k k' then Some v else aget k m'
    end.
  (** [HashMap::insert] *)
  Fixpoint aset (k : K) (v : V) (m : list (K * V)) : list (K * V) :=
    match m with
    | [] => [(k, v)]
    | (k', v') :: m' => if eqb k k' then (k', v) :: m' else (k', v') :: aset k v m'
    end.
  (** the value [entry(k).or_insert(d)] refers to *)
  Definition aget_or (k : K) (d : V) (m : list (K * V)) : V :=
    match aget k m with Some v => v | None => d end.
End AList.

(** A [for] loop over a list whose body may panic. *)
Fixpoint foldM {A B} (f : A -> B -> M A) (l : list B) (a : A) : M A :=
  match l with
  | [] => Ret a
  | b :: l' => let! a' := f a b in foldM f l' a'
  end.

(** What one pass through a [while] body decides. *)
Inductive step (A : Type) :=
| Continue (a : A)
| Break (a : A).
Arguments Continue {A} a.
Arguments Break {A} a.

(** UTF-8 validation ([std::str::from_utf8]): the table of well-formed byte
    sequences of the Unicode standard, section 3.9, which std implements. *)
Definition in_range (b : byte) (lo hi : N) : bool := (lo <=? n_of b) && (n_of b <=? hi).
Definition is_cont (b : byte) : bool := in_range b 0x80 0xBF.

Fixpoint utf8_valid (d : bytes) {struct d} : bool :=
  match d with
  | [] => true
  | b0 :: r0 =>
      if n_of b0 <? 0x80 then utf8_valid r0
      else match r0 with
      | [] => false
      | b1 :: r1 =>
          if in_range b0 0xC2 0xDF then is_cont b1 && utf8_valid r1
          else match r1 with
          | [] => false
          | b2 :: r2 =>
              if (n_of b0 =? 0xE0) then in_range b1 0xA0 0xBF && is_cont b2 && utf8_valid r2
              else if in_range b0 0xE1 0xEC || in_range b0 0xEE 0xEF then
                     is_cont b1 && is_cont b2 && utf8_valid r2
              else if (n_of b0 =? 0xED) then in_range b1 0x80 0x9F && is_cont b2 && utf8_valid r2
              else match r2 with
              | [] => false
              | b3 :: r3 =>
                  if (n_of b0 =? 0xF0) then
                    in_range b1 0x90 0xBF && is_cont b2 && is_cont b3 && utf8_valid r3
                  else if in_range b0 0xF1 0xF3 then
                    is_cont b1 && is_cont b2 && is_cont b3 && utf8_valid r3
                  else if (n_of b0 =? 0xF4) then
                    in_range b1 0x80 0x8F && is_cont b2 && is_cont b3 && utf8_valid r3
                  else false
              end
          end
      end
  end.

(** [str::is_char_boundary] on a valid string. *)
Definition is_char_boundary (s : str) (i : N) : bool :=
  if i =? len s then true
  else match nth_error s (N.to_nat i) with
       | Some b => negb (is_cont b)
       | None => false
       end.

(** [&s[a..]] and [&s[..b]] on a [str]. *)
Definition str_from (s : str) (a : N) : M str :=
  if (a <=? len s) && is_char_boundary s a then Ret (skipn (N.to_nat a) s) else Panic PCharBoundary.
Definition str_to (s : str) (b : N) : M str :=
  if (b <=? len s) && is_char_boundary s b then Ret (firstn (N.to_nat b) s) else Panic PCharBoundary.

Definition str_slice (s : str) (a b : N) : M str :=
  if (a <=? b) && (b <=? len s) && is_char_boundary s a && is_char_boundary s b
  then Ret (sub_list s a b) else Panic PCharBoundary.

(** [str::chars().count()] on a valid string. *)
Definition char_count (s : str) : N := len (filter (fun b => negb (is_cont b)) s).

(** [str::trim_end]: strips Unicode White_Space characters, given by their UTF-8
    encodings. *)
Definition whitespace : list str :=
  [ [x09]; [x0a]; [x0b]; [x0c]; [x0d]; [x20];
    [xc2;x85]; [xc2;xa0]; [xe1;x9a;x80];
    [xe2;x80;x80]; [xe2;x80;x81]; [xe2;x80;x82]; [xe2;x80;x83]; [xe2;x80;x84];
    [xe2;x80;x85]; [xe2;x80;x86]; [xe2;x80;x87]; [xe2;x80;x88]; [xe2;x80;x89];
    [xe2;x80;x8a]; [xe2;x80;xa8]; [xe2;x80;xa9]; [xe2;x80;xaf]; [xe2;x81;x9f];
    [xe3;x80;x80] ].

(** Strips from the front of [r] any of the [pats], as often as possible; used on
    reversed strings.  Every pattern is non-empty, so [length r] steps suffice. *)
Fixpoint strip_front (fuel : nat) (pats : list bytes) (r : bytes) : bytes :=
  match fuel with
  | O => r
  | S f =>
      match find_map (fun p => if starts_with r p then Some (skipn (length p) r) else None) pats with
      | Some r' => strip_front f pats r'
      | None => r
      end
  end.
Definition strip_end (pats : list bytes) (s : str) : str :=
  rev (strip_front (length s) (map (@rev byte) pats) (rev s)).

Definition trim_end (s : str) : str := strip_end whitespace s.
(** [str::trim_end_matches(&str)] *)
Definition trim_end_matches (s p : str) : str := strip_end [p] s.
