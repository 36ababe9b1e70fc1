(* Python runtime layer: exceptions, results, bytes, strings, dicts, struct,
   binary files.  No proofs in this file. *)
From Coq Require Export List NArith ZArith Bool.
From Coq Require Export Strings.Byte.
Export ListNotations.
#[global] Open Scope list_scope.
#[global] Open Scope N_scope.

(* Exception classes that the modelled code can raise.  One constructor per
   Python class; messages are dropped.
   FinalfusionFormatError: io.py 206-209; the others are Python's own. *)
Inductive exn : Set :=
| FormatError          (* finalfusion.io.FinalfusionFormatError, io.py 206-209 *)
| ValueError | TypeError | KeyError | IndexError | AssertionError
| AttributeError | EOFError | OverflowError | ZeroDivisionError
| NotImplementedError | StructError | UnicodeDecodeError
| UnicodeEncodeError | OSError | StopIteration | SystemExit
| OracleError.         (* an exception raised inside a library that is not modelled *)

(* Outcome of a Python statement or call (no source line of its own; used for every modelled function, e.g. io.py 270-275). *)
Inductive result (A : Type) : Type :=
| Ok (a : A)
| Err (e : exn).
Arguments Ok {A} _.
Arguments Err {A} _.

(* One statement after another, e.g. io.py 122-132. *)
Definition bind {A B} (m : result A) (k : A -> result B) : result B :=
  match m with
  | Ok a => k a
  | Err e => Err e
  end.
Notation "x <- m ;; k" := (bind m (fun x => k))
  (at level 61, m at next level, right associativity).
Notation "' p <- m ;; k" := (bind m (fun p => k))
  (at level 61, p pattern, m at next level, right associativity).

(* The call returned, e.g. io.py 271. *)
Definition is_ok {A} (r : result A) : bool :=
  match r with Ok _ => true | Err _ => false end.

(* [assert cond].  E.g. vocab/vocab.py 176-179, embeddings.py 647-663. *)
Definition py_assert (c : bool) : result unit :=
  if c then Ok tt else Err AssertionError.

(* ---------------------------------------------------------------- *)
(* Bytes and strings                                                 *)

(* Python bytes, e.g. io.py 122. *)
Definition bytes := list byte.
(* Python str: a list of code points.  E.g. vocab/vocab.py 133. *)
Definition str := list N.

(* len(l), e.g. io.py 136, 263. *)
Definition lenN {A} (l : list A) : N := N.of_nat (length l).

(* l[:n] and l[n:] for n >= 0.  Guarded so that evaluation never builds a
   unary number larger than the list.  E.g. subword/ngrams.pyx 51. *)
Definition takeN {A} (n : N) (l : list A) : list A :=
  if lenN l <=? n then l else firstn (N.to_nat n) l.
(* E.g. subword/ngrams.pyx 51. *)
Definition dropN {A} (n : N) (l : list A) : list A :=
  if lenN l <=? n then [] else skipn (N.to_nat n) l.

(* l1 == l2 on lists, e.g. vocab/vocab.py 95. *)
Fixpoint list_eqb {A} (eqb : A -> A -> bool) (x y : list A) : bool :=
  match x, y with
  | [], [] => true
  | a :: x', b :: y' => eqb a b && list_eqb eqb x' y'
  | _, _ => false
  end.

(* s1 == s2 on str, e.g. the keys of the dict in vocab/vocab.py 174. *)
Definition str_eqb : str -> str -> bool := list_eqb N.eqb.
(* b1 == b2 on bytes, io.py 123. *)
Definition bytes_eqb : bytes -> bytes -> bool := list_eqb Byte.eqb.

(* The low byte of an integer, for struct.pack in io.py 234. *)
Definition byte_of_N (n : N) : byte :=
  match Byte.of_N (n mod 256) with Some b => b | None => x00 end.

(* Little-endian encoding of n in k bytes (n is reduced modulo 256^k).
   The '<' formats of struct.pack, io.py 234. *)
Fixpoint le_bytes (k : nat) (n : N) : bytes :=
  match k with
  | O => []
  | S k' => byte_of_N n :: le_bytes k' (n / 256)
  end.

(* The '<' formats of struct.unpack, io.py 267. *)
Fixpoint le_val (bs : bytes) : N :=
  match bs with
  | [] => 0
  | b :: bs' => Byte.to_N b + 256 * le_val bs'
  end.

(* ---------------------------------------------------------------- *)
(* dict: insertion-ordered association list; assignment to a present  *)
(* key keeps its position.                                            *)

(* E.g. vocab/vocab.py 156, 174. *)
Definition dict (K V : Type) := list (K * V).

(* d.get(k), e.g. vocab/vocab.py 80, subword/explicit_indexer.pyx 168. *)
Fixpoint dget {K V} (eqb : K -> K -> bool) (k : K) (d : dict K V) : option V :=
  match d with
  | [] => None
  | (k', v) :: d' => if eqb k k' then Some v else dget eqb k d'
  end.

(* d[k] = v, vocab/vocab.py 162. *)
Fixpoint dset {K V} (eqb : K -> K -> bool) (k : K) (v : V) (d : dict K V)
  : dict K V :=
  match d with
  | [] => [(k, v)]
  | (k', v') :: d' =>
      if eqb k k' then (k', v) :: d' else (k', v') :: dset eqb k v d'
  end.

(* k in d, subword/explicit_indexer.pyx 52, 200; vocab/subword.py 465-468. *)
Definition dmem {K V} (eqb : K -> K -> bool) (k : K) (d : dict K V) : bool :=
  match dget eqb k d with Some _ => true | None => false end.

(* dict(pairs).  vocab/vocab.py 174, subword/explicit_indexer.pyx 42-43. *)
Definition dict_of {K V} (eqb : K -> K -> bool) (kvs : list (K * V))
  : dict K V :=
  fold_left (fun d kv => dset eqb (fst kv) (snd kv) d) kvs [].

(* d1 == d2 for dicts (order does not matter).  subword/explicit_indexer.pyx 189-196. *)
Definition dict_eqb {K V} (eqb : K -> K -> bool) (veqb : V -> V -> bool)
  (d1 d2 : dict K V) : bool :=
  Nat.eqb (length d1) (length d2) &&
  forallb (fun kv => match dget eqb (fst kv) d2 with
                     | Some v => veqb (snd kv) v
                     | None => false
                     end) d1.

(* Dicts with str keys, vocab/vocab.py 156-162, 174. *)
Definition sget {V} : str -> dict str V -> option V := dget str_eqb.
(* Dicts with str keys, vocab/vocab.py 156-162, 174. *)
Definition sset {V} : str -> V -> dict str V -> dict str V := dset str_eqb.

(* enumerate(l) with Python ints.  E.g. vocab/vocab.py 174, compat/word2vec.py 92. *)
Fixpoint enumerate_from {A} (i : Z) (l : list A) : list (A * Z) :=
  match l with
  | [] => []
  | a :: l' => (a, i) :: enumerate_from (i + 1)%Z l'
  end.
(* E.g. vocab/vocab.py 174, compat/word2vec.py 92. *)
Definition enumerate {A} (l : list A) : list (A * Z) := enumerate_from 0%Z l.

(* len(set(l)): number of distinct elements.
   subword/explicit_indexer.pyx 48-57, vocab/vocab.py 175. *)
Fixpoint mem_eqb {A} (eqb : A -> A -> bool) (a : A) (l : list A) : bool :=
  match l with
  | [] => false
  | b :: l' => eqb a b || mem_eqb eqb a l'
  end.
(* subword/explicit_indexer.pyx 48-57, vocab/vocab.py 175. *)
Fixpoint dedup {A} (eqb : A -> A -> bool) (l : list A) : list A :=
  match l with
  | [] => []
  | a :: l' => if mem_eqb eqb a l' then dedup eqb l' else a :: dedup eqb l'
  end.

(* ---------------------------------------------------------------- *)
(* struct                                                            *)

(* The struct format characters used: I, Q, B, f, i, q, ?, x; io.py 127-137, compat/fasttext.py 103-107, 119-195, storage/quantized.py 317-333. *)
Inductive field : Set :=
| fU32 | fU64 | fI32 | fI64 | fI8
| fBool
| fF64                (* "d": the value is the bit pattern of the double *)
| fPad.               (* "x" *)

(* io.py 226, 261; storage/ndarray.py 87. *)
Definition field_size (f : field) : nat :=
  match f with
  | fU32 | fI32 => 4
  | fU64 | fI64 | fF64 => 8
  | fI8 | fBool | fPad => 1
  end%nat.

(* struct.calcsize for the standard ("<") formats used in the code.
   io.py 226, 261; storage/ndarray.py 87. *)
Fixpoint calcsize (fmt : list field) : nat :=
  match fmt with
  | [] => 0
  | f :: fmt' => field_size f + calcsize fmt'
  end%nat.

(* The range check of struct.pack, io.py 234. *)
Definition in_range (lo hi v : Z) : bool := ((lo <=? v) && (v <? hi))%Z.

(* two's complement encoding of a k-byte signed value.
   The signed formats of struct, compat/fasttext.py 119-195, 257-274. *)
Definition signed_bytes (k : nat) (v : Z) : bytes :=
  le_bytes k (Z.to_N (v mod 2 ^ (8 * Z.of_nat k))%Z).
(* The signed formats of struct, compat/fasttext.py 119-195, 257-274. *)
Definition signed_val (k : nat) (bs : bytes) : Z :=
  let n := Z.of_N (le_val bs) in
  if (n <? 2 ^ (8 * Z.of_nat k - 1))%Z then n
  else (n - 2 ^ (8 * Z.of_nat k))%Z.

(* io.py 234. *)
Definition pack_field (f : field) (v : Z) : result bytes :=
  match f with
  | fU32 => if in_range 0 (2 ^ 32) v then Ok (le_bytes 4 (Z.to_N v)) else Err StructError
  | fU64 => if in_range 0 (2 ^ 64) v then Ok (le_bytes 8 (Z.to_N v)) else Err StructError
  | fF64 => if in_range 0 (2 ^ 64) v then Ok (le_bytes 8 (Z.to_N v)) else Err StructError
  | fI32 => if in_range (- 2 ^ 31) (2 ^ 31) v then Ok (signed_bytes 4 v) else Err StructError
  | fI64 => if in_range (- 2 ^ 63) (2 ^ 63) v then Ok (signed_bytes 8 v) else Err StructError
  | fI8 => if in_range (- 2 ^ 7) (2 ^ 7) v then Ok (signed_bytes 1 v) else Err StructError
  | fBool => Ok [if (v =? 0)%Z then x00 else x01]
  | fPad => Ok [x00]
  end.

(* struct.pack: padding fields take no argument; a wrong number of arguments
   is a struct.error.  io.py 234. *)
Fixpoint pack (fmt : list field) (vs : list Z) : result bytes :=
  match fmt with
  | [] => match vs with [] => Ok [] | _ => Err StructError end
  | fPad :: fmt' => bs <- pack fmt' vs ;; Ok (x00 :: bs)
  | f :: fmt' =>
      match vs with
      | [] => Err StructError
      | v :: vs' => b <- pack_field f v ;; bs <- pack fmt' vs' ;; Ok (b ++ bs)
      end
  end.

(* io.py 267. *)
Definition unpack_field (f : field) (bs : bytes) : Z :=
  match f with
  | fU32 | fU64 | fF64 => Z.of_N (le_val bs)
  | fI32 => signed_val 4 bs
  | fI64 => signed_val 8 bs
  | fI8 => signed_val 1 bs
  | fBool => if (le_val bs =? 0)%N then 0%Z else 1%Z
  | fPad => 0%Z
  end.

(* struct.unpack on a buffer whose length is calcsize fmt (checked by the
   caller in io.py 265). *)
Fixpoint unpack (fmt : list field) (bs : bytes) : list Z :=
  match fmt with
  | [] => []
  | fPad :: fmt' => unpack fmt' (skipn 1 bs)
  | f :: fmt' =>
      unpack_field f (firstn (field_size f) bs)
        :: unpack fmt' (skipn (field_size f) bs)
  end.

(* ---------------------------------------------------------------- *)
(* Files opened for reading: constant contents and a position.        *)

(* A function that reads from an open BinaryIO, e.g. io.py 238-267. *)
Definition reader (A : Type) := bytes -> N -> result (A * N).

(* Statement sequencing in such a function, e.g. io.py 121-132. *)
Definition rret {A} (a : A) : reader A := fun _ p => Ok (a, p).
(* Statement sequencing in such a function, e.g. io.py 121-132. *)
Definition rfail {A} (e : exn) : reader A := fun _ _ => Err e.
(* Statement sequencing in such a function, e.g. io.py 121-132. *)
Definition rbind {A B} (m : reader A) (k : A -> reader B) : reader B :=
  fun d p => match m d p with
             | Ok (a, p') => k a d p'
             | Err e => Err e
             end.
(* Statement sequencing in such a function, e.g. io.py 121-132. *)
Definition rlift {A} (r : result A) : reader A :=
  fun _ p => match r with Ok a => Ok (a, p) | Err e => Err e end.
Notation "x <~ m ;; k" := (rbind m (fun x => k))
  (at level 61, m at next level, right associativity).

(* PY_SSIZE_T_MAX + 1, the bound on the argument of file.read in io.py 262. *)
Definition ssize_limit : N := 2 ^ 63.

(* file.read(n), n >= 0.  At or past the end of the file nothing is read; a
   count that does not fit ssize_t raises OverflowError.
   io.py 122, 262; vocab/vocab.py 133, 159. *)
Definition read (n : N) : reader bytes := fun d p =>
  if ssize_limit <=? n then Err OverflowError
  else let bs := takeN n (dropN p d) in Ok (bs, p + lenN bs).

(* storage/ndarray.py 86, 123, 128; norms.py 59. *)
Definition tell : reader N := fun _ p => Ok (p, p).

(* file.seek(p).  io.py 169. *)
Definition seek_set (q : N) : reader unit := fun _ _ =>
  if ssize_limit <=? q then Err OverflowError else Ok (tt, q).

(* file.seek(n, 1), n >= 0; seeking past the end of the file is allowed.
   Offsets that do not fit off_t raise (OverflowError or OSError, modelled as
   OverflowError).  io.py 178, storage/ndarray.py 87, 123. *)
Definition seek_fwd (n : N) : reader unit := fun _ p =>
  if (ssize_limit <=? n) || (ssize_limit <=? p + n) then Err OverflowError
  else Ok (tt, p + n).

(* file.seek(-n, 1).  metadata.py 42. *)
Definition seek_back (n : N) : reader unit := fun _ p =>
  if n <=? p then Ok (tt, p - n) else Err OSError.

(* [for _ in range(n)] collecting the results.  vocab/vocab.py 131, 157. *)
Fixpoint rrepeat {A} (n : nat) (m : reader A) : reader (list A) :=
  match n with
  | O => rret []
  | S n' => a <~ m ;; l <~ rrepeat n' m ;; rret (a :: l)
  end.

(* ---------------------------------------------------------------- *)
(* Files opened with mode 'wb'.  All writers of the library only append,  *)
(* so a writer maps the current position to the bytes it appends and its  *)
(* outcome; on failure the bytes appended so far stay in the file.        *)

(* A function that writes to an open BinaryIO, e.g. io.py 134-138. *)
Definition writer := N -> bytes * result unit.

(* Statement sequencing in such a function, e.g. io.py 47-52. *)
Definition wret : writer := fun _ => ([], Ok tt).
(* Statement sequencing in such a function, e.g. io.py 47-52. *)
Definition wfail (e : exn) : writer := fun _ => ([], Err e).
(* Statement sequencing in such a function, e.g. io.py 47-52. *)
Definition wseq (w1 w2 : writer) : writer := fun p =>
  let (b1, r1) := w1 p in
  match r1 with
  | Ok _ => let (b2, r2) := w2 (p + lenN b1) in (b1 ++ b2, r2)
  | Err e => (b1, Err e)
  end.
Notation "w1 ;w; w2" := (wseq w1 w2) (at level 61, right associativity).
(* evaluate an expression that may raise, then go on writing.  E.g. vocab/vocab.py 167. *)
Definition wlet {A} (r : result A) (k : A -> writer) : writer :=
  match r with Ok a => k a | Err e => wfail e end.
(* storage/ndarray.py 128, norms.py 68. *)
Definition wtell (k : N -> writer) : writer := fun p => k p p.
(* file.write(bs).  io.py 135, 235. *)
Definition wbytes (bs : bytes) : writer := fun _ => (bs, Ok tt).
(* E.g. vocab/subword.py 384-388. *)
Fixpoint wfor {A} (f : A -> writer) (l : list A) : writer :=
  match l with
  | [] => wret
  | a :: l' => f a ;w; wfor f l'
  end.

(* with open(path, 'wb') as f: w(f) -- the old contents are gone whatever
   happens afterwards.  io.py 47, embeddings.py 427. *)
Definition run_writer (w : writer) : bytes * result unit := w 0.
