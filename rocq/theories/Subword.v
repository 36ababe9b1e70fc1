(* Model of src/finalfusion/subword/*.pyx and src/fnv/hash_64a.c.
   No proofs in this file. *)
From Verif Require Import Py Utf8.

(* range(n) and range(hi, lo - 1, -1).
   subword/ngrams.pyx 48-49, subword/hash_indexers.pyx 134-136, 262-266, subword/explicit_indexer.pyx 164-165. *)
Definition range_up (n : N) : list N := map N.of_nat (seq 0 (N.to_nat n)).
(* subword/ngrams.pyx 48-49, subword/hash_indexers.pyx 134-136, 262-266, subword/explicit_indexer.pyx 164-165. *)
Definition range_down (hi lo : N) : list N :=
  map (fun k => hi - N.of_nat k) (seq 0 (N.to_nat (hi + 1 - lo))).

(* word[i:i + j].
   subword/ngrams.pyx 51, subword/hash_indexers.pyx 140, 272, subword/explicit_indexer.pyx 167. *)
Definition substr {A} (w : list A) (i j : N) : list A := takeN j (dropN i w).

(* f"<{word}>", "<%s>" % word.  subword/ngrams.pyx 39-40, subword/hash_indexers.pyx 125. *)
Definition bracketed (bracket : bool) (word : str) : str :=
  if bracket then [0x3C] ++ word ++ [0x3E] else word.

(* ngrams.pyx 7-52.  min_n and max_n are uint32_t arguments. *)
Definition ngrams (word : str) (min_n max_n : N) (bracket : bool)
  : result (list str) :=
  _ <- py_assert ((min_n <=? max_n) && (0 <? min_n)) ;;
  let w := bracketed bracket word in
  let length := lenN w in
  if length <? min_n then Ok []
  else
    let max_n := N.min max_n length in
    Ok (flat_map (fun i =>
          flat_map (fun j => if j + i <=? length then [substr w i j] else [])
            (range_down max_n min_n))
        (range_up (length + 1 - min_n))).

(* ---------------------------------------------------------------- *)
(* FNV hashes                                                        *)

(* uint64_t and uint32_t arithmetic, hash_64a.c 105-117 and subword/hash_indexers.pyx 308-331. *)
Definition wrap64 (n : N) : N := n mod 2 ^ 64.
(* uint64_t and uint32_t arithmetic, hash_64a.c 105-117 and subword/hash_indexers.pyx 308-331. *)
Definition wrap32 (n : N) : N := n mod 2 ^ 32.

Definition FNV1A_64_INIT : N := 0xcbf29ce484222325.  (* fnv.h *)
Definition FNV_64_PRIME : N := 0x100000001b3.        (* hash_64a.c 75 *)
Definition FNV1_32_INIT : N := 0x811c9dc5.           (* fnv.h *)
Definition PRIME32 : N := 16777619.                  (* hash_indexers.pyx 308 *)

(* hash_64a.c 105-117, the default (shift) variant of one loop iteration *)
Definition fnv_step_shift (h : N) (b : byte) : N :=
  let h := N.lxor h (Byte.to_N b) in
  wrap64 (h + wrap64 (wrap64 (N.shiftl h 1) + wrap64 (N.shiftl h 4)
              + wrap64 (N.shiftl h 5) + wrap64 (N.shiftl h 7)
              + wrap64 (N.shiftl h 8) + wrap64 (N.shiftl h 40))).
(* hash_64a.c 112, with NO_FNV_GCC_OPTIMIZATION *)
Definition fnv_step_mul (h : N) (b : byte) : N :=
  let h := N.lxor h (Byte.to_N b) in
  wrap64 (h * FNV_64_PRIME).

(* hash_64a.c, the loop over the buffer around lines 105-117. *)
Definition fnv_64a_buf (buf : bytes) (h : N) : N := fold_left fnv_step_shift buf h.
(* hash_64a.c, the loop over the buffer around lines 105-117. *)
Definition fnv_64a_buf_mul (buf : bytes) (h : N) : N := fold_left fnv_step_mul buf h.

(* hash_64a.c 119-179, the variant without 64-bit integers: four digits base 2^16 held
   in unsigned longs of w bits. *)
Definition limb4 := (N * N * N * N)%type.
(* hash_64a.c 119-179. *)
Definition fnv_step_limb (w : N) (v : limb4) (b : byte) : limb4 :=
  let '(v0, v1, v2, v3) := v in
  let ul n := n mod 2 ^ w in
  let v0 := N.lxor v0 (Byte.to_N b) in
  let t0 := ul (v0 * 0x1b3) in
  let t1 := ul (v1 * 0x1b3) in
  let t2 := ul (v2 * 0x1b3) in
  let t3 := ul (v3 * 0x1b3) in
  let t2 := ul (t2 + ul (N.shiftl v0 8)) in
  let t3 := ul (t3 + ul (N.shiftl v1 8)) in
  let t1 := ul (t1 + N.shiftr t0 16) in
  let v0 := N.land t0 0xffff in
  let t2 := ul (t2 + N.shiftr t1 16) in
  let v1 := N.land t1 0xffff in
  let v3 := ul (t3 + N.shiftr t2 16) in
  let v2 := N.land t2 0xffff in
  (v0, v1, v2, v3).
(* hash_64a.c 119-179. *)
Definition fnv_64a_buf_limb (w : N) (buf : bytes) (h : N) : N :=
  let ul n := n mod 2 ^ w in
  let w0 := h mod 2 ^ 32 in            (* hval.w32[0] *)
  let w1 := h / 2 ^ 32 in              (* hval.w32[1] *)
  let v := (N.land w0 0xffff, N.shiftr w0 16, N.land w1 0xffff, N.shiftr w1 16) in
  let '(v0, v1, v2, v3) := fold_left (fnv_step_limb w) buf v in
  let r1 := wrap32 (N.lor (ul (N.shiftl v3 16)) v2) in
  let r0 := wrap32 (N.lor (ul (N.shiftl v1 16)) v0) in
  r1 * 2 ^ 32 + r0.

(* hash_indexers.pyx 310-322.  The loop reads word[start .. start + length); all
   callers stay within the word. *)
Definition fifu_hash_ngram (word : str) (start length : N) : N :=
  let h := fnv_64a_buf (le_bytes 8 length) FNV1A_64_INIT in
  fold_left (fun h c => fnv_64a_buf (le_bytes 4 c) h) (substr word start length) h.

(* hash_indexers.pyx 324-331.  b_word[start:end] *)
Definition sign_extend8 (b : byte) : N :=
  let n := Byte.to_N b in if n <? 0x80 then n else n + 0xFFFFFF00.
(* subword/hash_indexers.pyx 329-330, one iteration. *)
Definition ft_step (h : N) (b : byte) : N :=
  wrap32 (N.lxor h (sign_extend8 b) * PRIME32).
(* subword/hash_indexers.pyx 324-331. *)
Definition ft_hash_ngram (b_word : bytes) (start end_ : N) : N :=
  fold_left ft_step (substr b_word start (end_ - start)) FNV1_32_INIT.

(* hash_indexers.pyx 292-306.  The array holds one entry per character start
   followed by n_bytes; the remaining entries of the C array are never read.
   Offsets are unsigned ints; words of 4 GiB and more are not modelled. *)
Fixpoint utf8_starts (pos : N) (w : bytes) : list N :=
  match w with
  | [] => []
  | b :: w' =>
      if negb (N.land (Byte.to_N b) 0xC0 =? 0x80)
      then pos :: utf8_starts (pos + 1) w'
      else utf8_starts (pos + 1) w'
  end.
(* subword/hash_indexers.pyx 292-306. *)
Definition find_utf8_boundaries (w : bytes) : list N :=
  utf8_starts 0 w ++ [lenN w].

(* ---------------------------------------------------------------- *)
(* Indexers                                                          *)

(* list entries returned by subword_indices.
   subword/hash_indexers.pyx 137-142, 268-274, subword/explicit_indexer.pyx 166-174. *)
Inductive sw_item : Set :=
| SwIdx (i : Z)
| SwNgram (g : str) (i : Z).
(* subword/hash_indexers.pyx 137-142, 268-274, subword/explicit_indexer.pyx 166-174. *)
Definition sw_index (s : sw_item) : Z :=
  match s with SwIdx i => i | SwNgram _ i => i end.
(* subword/hash_indexers.pyx 137-142, 268-274, subword/explicit_indexer.pyx 166-174. *)
Definition sw_mk (with_ngrams : bool) (g : str) (i : Z) : sw_item :=
  if with_ngrams then SwNgram g i else SwIdx i.

(* conversion of a Python int to a C uint32_t attribute.
   subword/hash_indexers.pyx 37-38, 174-175, subword/explicit_indexer.pyx 39-40. *)
Definition to_uint32 (z : Z) : result N :=
  if in_range 0 (2 ^ 32) z then Ok (Z.to_N z) else Err OverflowError.

(* hash_indexers.pyx 17-40, FinalfusionHashIndexer.  [mask] is 2^exp - 1. *)
Record ff_indexer : Set := FF { ff_exp : N; ff_min_n : N; ff_max_n : N }.
(* subword/hash_indexers.pyx 32-40. *)
Definition ff_new (bucket_exp min_n max_n : Z) : result ff_indexer :=
  _ <- py_assert ((min_n <=? max_n) && (0 <? min_n))%Z ;;
  _ <- py_assert ((0 <? bucket_exp) && (bucket_exp <? 64))%Z ;;
  mn <- to_uint32 min_n ;;
  mx <- to_uint32 max_n ;;
  Ok (FF (Z.to_N bucket_exp) mn mx).
(* subword/hash_indexers.pyx 32-40. *)
Definition ff_mask (x : ff_indexer) : N := N.shiftl 1 (ff_exp x) - 1.
(* 42-43.  All in subword/hash_indexers.pyx. *)
Definition ff_call (x : ff_indexer) (ngram : str) : N :=
  N.land (fifu_hash_ngram ngram 0 (lenN ngram)) (ff_mask x).
(* 45-57.  All in subword/hash_indexers.pyx. *)
Definition ff_upper_bound (x : ff_indexer) : N := 2 ^ ff_exp x.
(* 97-143.  All in subword/hash_indexers.pyx. *)
Definition ff_subword_indices (x : ff_indexer) (word : str) (offset : N)
  (bracket with_ngrams : bool) : list sw_item :=
  let w := bracketed bracket word in
  let length := lenN w in
  if length <? ff_min_n x then []
  else
    let max_n := N.min length (ff_max_n x) in
    flat_map (fun i =>
      flat_map (fun j =>
        if j + i <=? length then
          let h := wrap64 (N.land (fifu_hash_ngram w i j) (ff_mask x) + offset) in
          [sw_mk with_ngrams (substr w i j) (Z.of_N h)]
        else [])
      (range_down max_n (ff_min_n x)))
    (range_up (length + 1 - ff_min_n x)).
(* 145-149.  All in subword/hash_indexers.pyx. *)
Definition ff_eqb (x y : ff_indexer) : bool :=
  (ff_min_n x =? ff_min_n y) && (ff_max_n x =? ff_max_n y)
  && (ff_exp x =? ff_exp y).

(* hash_indexers.pyx 155-176, FastTextIndexer *)
Record ft_indexer : Set := FT { ft_buckets : N; ft_min_n : N; ft_max_n : N }.
(* subword/hash_indexers.pyx 169-176. *)
Definition ft_new (n_buckets min_n max_n : Z) : result ft_indexer :=
  _ <- py_assert ((min_n <=? max_n) && (0 <? min_n))%Z ;;
  _ <- py_assert ((0 <? n_buckets) && (n_buckets <=? 2 ^ 32 - 1))%Z ;;
  mn <- to_uint32 min_n ;;
  mx <- to_uint32 max_n ;;
  Ok (FT (Z.to_N n_buckets) mn mx).
(* 178-180.  All in subword/hash_indexers.pyx. *)
Definition ft_call (x : ft_indexer) (ngram : str) : result N :=
  b <- utf8_encode ngram ;;
  Ok (ft_hash_ngram b 0 (lenN b) mod ft_buckets x).
(* 277-279.  All in subword/hash_indexers.pyx. *)
Definition ft_upper_bound (x : ft_indexer) : N := ft_buckets x.
(* 219-275.  There is no early return for short words; the outer range is then
   empty (its bound is computed with signed 64-bit arithmetic).
   All in subword/hash_indexers.pyx. *)
Definition ft_subword_indices (x : ft_indexer) (word : str) (offset : N)
  (bracket with_ngrams : bool) : result (list sw_item) :=
  let w := bracketed bracket word in
  b_word <- utf8_encode w ;;
  let offsets := find_utf8_boundaries b_word in
  let length := lenN w in
  let max_n := N.min (ft_max_n x) length in
  Ok (flat_map (fun i =>
        let start := nth (N.to_nat i) offsets 0 in
        flat_map (fun j =>
          if j + i <=? length then
            let end_ := nth (N.to_nat (i + j)) offsets 0 in
            let h := wrap64 (ft_hash_ngram b_word start end_ mod ft_buckets x + offset) in
            [sw_mk with_ngrams (substr w i j) (Z.of_N h)]
          else [])
        (range_down max_n (ft_min_n x)))
      (range_up (length + 1 - ft_min_n x))).
(* 282-286.  All in subword/hash_indexers.pyx. *)
Definition ft_eqb (x y : ft_indexer) : bool :=
  (ft_min_n x =? ft_min_n y) && (ft_max_n x =? ft_max_n y)
  && (ft_buckets x =? ft_buckets y).

(* explicit_indexer.pyx 9-59, ExplicitIndexer *)
Record ex_indexer : Type := EX {
  ex_ngrams : list str;
  ex_index : dict str Z;
  ex_bound : Z;
  ex_min_n : N;
  ex_max_n : N }.

(* max(values): ValueError on an empty sequence.  subword/explicit_indexer.pyx 54. *)
Definition py_max (l : list Z) : result Z :=
  match l with
  | [] => Err ValueError
  | x :: l' => Ok (fold_left Z.max l' x)
  end.

(* subword/explicit_indexer.pyx 31-59. *)
Definition ex_new (ngrams : list str) (min_n max_n : Z)
  (ngram_index : option (dict str Z)) : result ex_indexer :=
  _ <- py_assert ((min_n <=? max_n) && (0 <? min_n))%Z ;;
  mn <- to_uint32 min_n ;;
  mx <- to_uint32 max_n ;;
  match ngram_index with
  | None =>
      let index := dict_of str_eqb (enumerate ngrams) in
      _ <- py_assert (Nat.eqb (length ngrams) (length index)) ;;
      Ok (EX ngrams index (Z.of_nat (length index)) mn mx)
  | Some index =>
      let unique_ngrams := dedup str_eqb ngrams in
      _ <- py_assert (Nat.eqb (length unique_ngrams) (length ngrams)) ;;
      _ <- py_assert (forallb (fun g => dmem str_eqb g index) unique_ngrams
                      && Nat.eqb (length index) (length ngrams)) ;;
      max_idx <- py_max (map snd index) ;;
      let n_unique_vals := length (dedup Z.eqb (map snd index)) in
      _ <- py_assert (max_idx + 1 =? Z.of_nat n_unique_vals)%Z ;;
      Ok (EX ngrams index (max_idx + 1)%Z mn mx)
  end.
(* 180-181, __call__; 177-178, __getitem__.  All in subword/explicit_indexer.pyx. *)
Definition ex_call (x : ex_indexer) (ngram : str) : option Z := sget ngram (ex_index x).
(* All in subword/explicit_indexer.pyx. *)
Definition ex_getitem (x : ex_indexer) (ngram : str) : result Z :=
  match sget ngram (ex_index x) with Some i => Ok i | None => Err KeyError end.
(* 129-175.  All in subword/explicit_indexer.pyx. *)
Definition ex_subword_indices (x : ex_indexer) (word : str) (offset : N)
  (bracket with_ngrams : bool) : list sw_item :=
  let w := bracketed bracket word in
  let length := lenN w in
  if length <? ex_min_n x then []
  else
    let max_n := N.min (ex_max_n x) length in
    flat_map (fun i =>
      flat_map (fun j =>
        if j + i <=? length then
          let ngram := substr w i j in
          match sget ngram (ex_index x) with
          | None => []
          | Some idx => [sw_mk with_ngrams ngram (idx + Z.of_N offset)%Z]
          end
        else [])
      (range_down max_n (ex_min_n x)))
    (range_up (length + 1 - ex_min_n x)).
(* 189-196.  All in subword/explicit_indexer.pyx. *)
Definition ex_eqb (x y : ex_indexer) : bool :=
  (ex_bound x =? ex_bound y)%Z && (ex_max_n x =? ex_max_n y)
  && (ex_min_n x =? ex_min_n y)
  && list_eqb str_eqb (ex_ngrams x) (ex_ngrams y)
  && dict_eqb str_eqb Z.eqb (ex_index x) (ex_index y).
