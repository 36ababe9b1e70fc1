(* Model of src/finalfusion/vocab/*.py.  No proofs in this file. *)
From Verif Require Import Py Utf8 IO Subword.

(* vocab.py 173-180, _validate_items_and_create_index *)
Definition validate_items_and_create_index (items : list str)
  : result (dict str Z) :=
  let index := dict_of str_eqb (enumerate items) in
  let n_unique_items := length index in
  _ <- py_assert (Nat.eqb (length items) n_unique_items) ;;
  _ <- py_assert (Nat.eqb (length index) (length items)) ;;
  Ok index.

(* The four vocabulary classes; fields _words, _index, _indexer.
   simple_vocab.py 13-40, subword.py 145-182, 230-265, 313-345. *)
Inductive vocab : Type :=
| VSimple (words : list str) (index : dict str Z)
| VBucket (words : list str) (index : dict str Z) (ix : ff_indexer)
| VFastText (words : list str) (index : dict str Z) (ix : ft_indexer)
| VExplicit (words : list str) (index : dict str Z) (ix : ex_indexer).

(* simple_vocab.py 20-40 *)
Definition simple_vocab_new (words : list str) : result vocab :=
  index <- validate_items_and_create_index words ;; Ok (VSimple words index).
(* subword.py 149-182; the default indexer is supplied by the caller *)
Definition bucket_vocab_new (words : list str) (ix : ff_indexer) : result vocab :=
  index <- validate_items_and_create_index words ;; Ok (VBucket words index ix).
(* subword.py 234-265 *)
Definition fasttext_vocab_new (words : list str) (ix : ft_indexer) : result vocab :=
  index <- validate_items_and_create_index words ;; Ok (VFastText words index ix).
(* subword.py 317-345 *)
Definition explicit_vocab_new (words : list str) (ix : ex_indexer) : result vocab :=
  index <- validate_items_and_create_index words ;; Ok (VExplicit words index ix).

(* The property words: vocab/simple_vocab.py 42-44, vocab/subword.py 206-208, 294-296, 355-357. *)
Definition vocab_words (v : vocab) : list str :=
  match v with
  | VSimple ws _ | VBucket ws _ _ | VFastText ws _ _ | VExplicit ws _ _ => ws
  end.
(* The property word_index: vocab/simple_vocab.py 46-48, vocab/subword.py 214-216, 290-292, 347-349. *)
Definition vocab_index (v : vocab) : dict str Z :=
  match v with
  | VSimple _ i | VBucket _ i _ | VFastText _ i _ | VExplicit _ i _ => i
  end.

(* vocab.py 89-90, __len__ *)
Definition vocab_len (v : vocab) : N := lenN (vocab_index v).

(* simple_vocab.py 50-52; subword.py 30-32 *)
Definition vocab_upper_bound (v : vocab) : Z :=
  (Z.of_N (vocab_len v) +
   match v with
   | VSimple _ _ => 0
   | VBucket _ _ ix => Z.of_N (ff_upper_bound ix)
   | VFastText _ _ ix => Z.of_N (ft_upper_bound ix)
   | VExplicit _ _ ix => ex_bound ix
   end)%Z.

(* subword.py 34-56, min_n / max_n; SimpleVocab has no such attributes *)
Definition vocab_ngram_range (v : vocab) : option (N * N) :=
  match v with
  | VSimple _ _ => None
  | VBucket _ _ ix => Some (ff_min_n ix, ff_max_n ix)
  | VFastText _ _ ix => Some (ft_min_n ix, ft_max_n ix)
  | VExplicit _ _ ix => Some (ex_min_n ix, ex_max_n ix)
  end.

(* subword.py 77-95, subwords *)
Definition vocab_subwords (v : vocab) (item : str) (bracket : bool)
  : result (list str) :=
  match vocab_ngram_range v with
  | None => Err AttributeError
  | Some (min_n, max_n) => ngrams item min_n max_n bracket
  end.

(* subword.py 97-121, subword_indices: the offset is len(self.words) *)
Definition vocab_subword_indices (v : vocab) (item : str)
  (bracket with_ngrams : bool) : result (list sw_item) :=
  match v with
  | VSimple _ _ => Err AttributeError
  | VBucket ws _ ix => Ok (ff_subword_indices ix item (lenN ws) bracket with_ngrams)
  | VFastText ws _ ix => ft_subword_indices ix item (lenN ws) bracket with_ngrams
  | VExplicit ws _ ix => Ok (ex_subword_indices ix item (lenN ws) bracket with_ngrams)
  end.

(* An index as returned by idx and __getitem__: an int or a list of ints.
   vocab/vocab.py 53-75. *)
Inductive index_res : Set :=
| IdxInt (i : Z)
| IdxList (l : list Z).

(* simple_vocab.py 54-56; subword.py 20-28.  [None] stands for the default. *)
Definition vocab_idx (v : vocab) (item : str) : result (option index_res) :=
  match v with
  | VSimple _ index =>
      Ok (match sget item index with Some i => Some (IdxInt i) | None => None end)
  | _ =>
      match sget item (vocab_index v) with
      | Some i => Ok (Some (IdxInt i))
      | None =>
          subwords <- vocab_subword_indices v item true false ;;
          match subwords with
          | [] => Ok None
          | _ => Ok (Some (IdxList (map sw_index subwords)))
          end
      end
  end.

(* vocab.py 74-75; subword.py 123-130 *)
Definition vocab_getitem (v : vocab) (item : str) : result index_res :=
  match v with
  | VSimple _ index =>
      match sget item index with Some i => Ok (IdxInt i) | None => Err KeyError end
  | _ =>
      match sget item (vocab_index v) with
      | Some i => Ok (IdxInt i)
      | None =>
          subwords <- vocab_subword_indices v item true false ;;
          match subwords with
          | [] => Err KeyError
          | _ => Ok (IdxList (map sw_index subwords))
          end
      end
  end.

(* vocab.py 77-84, __contains__ for a str and for an iterable of strs *)
Definition vocab_contains (v : vocab) (item : str) : bool :=
  match sget item (vocab_index v) with Some _ => true | None => false end.
(* vocab/vocab.py 82-83. *)
Definition vocab_contains_all (v : vocab) (items : list str) : bool :=
  forallb (vocab_contains v) items.

(* vocab.py 92-99, __eq__ of the base class given equal types *)
Definition vocab_base_eqb (v w : vocab) : bool :=
  list_eqb str_eqb (vocab_words v) (vocab_words w)
  && dict_eqb str_eqb Z.eqb (vocab_index v) (vocab_index w).
(* vocab.py 92-99 for SimpleVocab; subword.py 139-142 *)
Definition vocab_eqb (v w : vocab) : bool :=
  match v, w with
  | VSimple _ _, VSimple _ _ => vocab_base_eqb v w
  | VBucket _ _ x, VBucket _ _ y => ff_eqb x y && vocab_base_eqb v w
  | VFastText _ _ x, VFastText _ _ y => ft_eqb x y && vocab_base_eqb v w
  | VExplicit _ _ x, VExplicit _ _ y => ex_eqb x y && vocab_base_eqb v w
  | _, _ => false
  end.

(* ---------------------------------------------------------------- *)
(* Serialization                                                     *)

(* A loop that collects results and may raise, e.g. vocab/subword.py 382. *)
Fixpoint mapM {A B} (f : A -> result B) (l : list A) : result (list B) :=
  match l with
  | [] => Ok []
  | a :: l' => b <- f a ;; bs <- mapM f l' ;; Ok (b :: bs)
  end.

(* sum(len(bytes(word, "utf-8")) for word in words).
   vocab/simple_vocab.py 66, vocab/vocab.py 167. *)
Definition bytes_len_sum (items : list str) : result N :=
  bs <- mapM utf8_encode items ;;
  Ok (fold_left N.add (map lenN bs) 0).

(* vocab.py 166-170, _calculate_binary_list_size *)
Definition calculate_binary_list_size (items : list str) : result N :=
  size <- bytes_len_sum items ;;
  Ok (size + 8 + lenN items * 4).

(* vocab.py 105-111, _write_words_binary; words are encoded one by one while
   writing. *)
Definition write_words_binary (words : list str) : writer :=
  wfor (fun w => wlet (utf8_encode w) (fun b =>
          write_binary [fU32] [Z.of_nat (length b)] ;w; wbytes b)) words.

(* vocab.py 114-135, _read_items.  The number of bytes read is not checked. *)
Definition read_item : reader str :=
  item_length <~ read1 fU32 ;;
  b <~ read (Z.to_N item_length) ;;
  rlift (utf8_decode b).
(* vocab/vocab.py 114-135. *)
Definition read_items (length : N) : reader (list str) :=
  rrepeat (N.to_nat length) read_item.

(* vocab.py 138-163, _read_items_with_indices *)
Definition read_item_with_index : reader (str * Z) :=
  item <~ read_item ;;
  idx <~ read1 fU64 ;;
  rret (item, idx).
(* vocab/vocab.py 138-163. *)
Definition read_items_with_indices (length : N)
  : reader (list str * dict str Z) :=
  kvs <~ rrepeat (N.to_nat length) read_item_with_index ;;
  rret (map fst kvs, dict_of str_eqb kvs).

(* simple_vocab.py 64-72, SimpleVocab.write_chunk *)
Definition simple_vocab_write_chunk (words : list str) : writer :=
  write_binary [fU32] [chunk_id_val CSimpleVocab] ;w;
  wlet (bytes_len_sum words) (fun b_word_len_sum =>
    let chunk_length := 8 + lenN words * 4 + b_word_len_sum in
    write_binary [fU64; fU64] [Z.of_N chunk_length; Z.of_nat (length words)] ;w;
    write_words_binary words).

(* subword.py 476-494, _write_bucket_vocab *)
Definition write_bucket_vocab (cid : chunk_id) (words : list str)
  (min_n max_n buckets : N) : writer :=
  wlet (calculate_binary_list_size words) (fun size =>
    let chunk_length := size + 8 + 4 in
    write_binary [fU32; fU64; fU64; fU32; fU32; fU32]
      [chunk_id_val cid; Z.of_N chunk_length; Z.of_nat (length words);
       Z.of_N min_n; Z.of_N max_n; Z.of_N buckets] ;w;
    write_words_binary words).

(* subword.py 384-388, the loop over the n-grams *)
Definition write_ngram (ix : ex_indexer) (ngram : str) : writer :=
  wlet (utf8_encode ngram) (fun b_ngram =>
    write_binary [fU32] [Z.of_nat (length b_ngram)] ;w;
    wbytes b_ngram ;w;
    wlet (ex_getitem ix ngram) (fun idx => write_binary [fU64] [idx])).

(* subword.py 372-388, ExplicitVocab.write_chunk.  The chunk length does not
   account for the n-gram indices. *)
Definition explicit_vocab_write_chunk (words : list str) (ix : ex_indexer) : writer :=
  wlet (calculate_binary_list_size words) (fun size =>
  wlet (calculate_binary_list_size (ex_ngrams ix)) (fun ngram_size =>
    let chunk_length := size + ngram_size + 8 in
    write_binary [fU32; fU64; fU64; fU64; fU32; fU32]
      [chunk_id_val CExplicitSubwordVocab; Z.of_N chunk_length;
       Z.of_nat (length words); Z.of_nat (length (ex_ngrams ix));
       Z.of_N (ex_min_n ix); Z.of_N (ex_max_n ix)] ;w;
    write_words_binary words ;w;
    wfor (write_ngram ix) (ex_ngrams ix))).

(* chunk_identifier: vocab/simple_vocab.py 74-76, vocab/subword.py 225-227, 308-310, 359-361. *)
Definition vocab_chunk_id (v : vocab) : chunk_id :=
  match v with
  | VSimple _ _ => CSimpleVocab
  | VBucket _ _ _ => CBucketSubwordVocab
  | VFastText _ _ _ => CFastTextSubwordVocab
  | VExplicit _ _ _ => CExplicitSubwordVocab
  end.

(* write_chunk: vocab/simple_vocab.py 64-72, vocab/subword.py 203-204, 305-306, 372-388. *)
Definition vocab_write_chunk (v : vocab) : writer :=
  match v with
  | VSimple ws _ => simple_vocab_write_chunk ws
  | VBucket ws _ ix =>
      write_bucket_vocab CBucketSubwordVocab ws (ff_min_n ix) (ff_max_n ix) (ff_exp ix)
  | VFastText ws _ ix =>
      write_bucket_vocab CFastTextSubwordVocab ws (ft_min_n ix) (ft_max_n ix)
        (ft_upper_bound ix)
  | VExplicit ws _ ix => explicit_vocab_write_chunk ws ix
  end.

(* simple_vocab.py 58-62 *)
Definition simple_vocab_read_chunk : reader vocab :=
  length <~ read1 fU64 ;;
  words <~ read_items (Z.to_N length) ;;
  rlift (simple_vocab_new words).

(* subword.py 218-223 *)
Definition bucket_vocab_read_chunk : reader vocab :=
  h <~ read4 fU64 fU32 fU32 fU32 ;;
  let '(length, min_n, max_n, buckets) := h in
  words <~ read_items (Z.to_N length) ;;
  indexer <~ rlift (ff_new buckets min_n max_n) ;;
  rlift (bucket_vocab_new words indexer).

(* subword.py 298-303 *)
Definition fasttext_vocab_read_chunk : reader vocab :=
  h <~ read4 fU64 fU32 fU32 fU32 ;;
  let '(length, min_n, max_n, buckets) := h in
  words <~ read_items (Z.to_N length) ;;
  indexer <~ rlift (ft_new buckets min_n max_n) ;;
  rlift (fasttext_vocab_new words indexer).

(* subword.py 363-370 *)
Definition explicit_vocab_read_chunk : reader vocab :=
  h <~ read4 fU64 fU64 fU32 fU32 ;;
  let '(length, ngram_length, min_n, max_n) := h in
  words <~ read_items (Z.to_N length) ;;
  ng <~ read_items_with_indices (Z.to_N ngram_length) ;;
  let '(ngram_list, ngram_index) := ng in
  indexer <~ rlift (ex_new ngram_list min_n max_n (Some ngram_index)) ;;
  rlift (explicit_vocab_new words indexer).

(* the dispatch shared by load_vocab (vocab/__init__.py 49-57) and load_finalfusion
   (embeddings.py 693-703); they differ in the exception for other chunks *)
Definition vocab_read_chunk (cid : chunk_id) (otherwise : exn) : reader vocab :=
  match cid with
  | CSimpleVocab => simple_vocab_read_chunk
  | CBucketSubwordVocab => bucket_vocab_read_chunk
  | CFastTextSubwordVocab => fasttext_vocab_read_chunk
  | CExplicitSubwordVocab => explicit_vocab_read_chunk
  | _ => rfail otherwise
  end.

(* all loaders open the file, run a reader from position 0 and close it.
   E.g. vocab/__init__.py 41-57. *)
Definition run_reader {A} (m : reader A) (file : bytes) : result A :=
  match m file 0 with Ok (a, _) => Ok a | Err e => Err e end.

(* vocab/__init__.py 14-57 *)
Definition load_vocab : reader vocab :=
  chunk <~ find_chunk [CSimpleVocab; CFastTextSubwordVocab; CExplicitSubwordVocab;
                       CBucketSubwordVocab] ;;
  match chunk with
  | None => rfail ValueError
  | Some cid => vocab_read_chunk cid ValueError
  end.

(* simple_vocab.py 79-97; subword.py 391-410, 413-432, 435-454 *)
Definition load_vocab_of (cid : chunk_id) : reader vocab :=
  chunk <~ find_chunk [cid] ;;
  match chunk with
  | None => rfail ValueError
  | Some _ => vocab_read_chunk cid ValueError
  end.
(* vocab/simple_vocab.py 79-97. *)
Definition load_simple_vocab := load_vocab_of CSimpleVocab.
(* vocab/subword.py 391-454. *)
Definition load_finalfusion_bucket_vocab := load_vocab_of CBucketSubwordVocab.
(* vocab/subword.py 391-454. *)
Definition load_fasttext_vocab := load_vocab_of CFastTextSubwordVocab.
(* vocab/subword.py 391-454. *)
Definition load_explicit_vocab := load_vocab_of CExplicitSubwordVocab.

(* ---------------------------------------------------------------- *)
(* Conversion to an explicit vocabulary                              *)

(* vocab.subword_indexer(ngram) for the two bucket vocabularies.  vocab/subword.py 467. *)
Definition bucket_indexer_call (v : vocab) (ngram : str) : result N :=
  match v with
  | VBucket _ _ ix => Ok (ff_call ix ngram)
  | VFastText _ _ ix => ft_call ix ngram
  | _ => Err AttributeError
  end.

(* loop state of _bucket_to_explicit: ngram_index, idx_index, ngram_list.
   vocab/subword.py 459-461. *)
Definition bte_state := (dict str Z * dict N Z * list str)%type.

(* subword.py 464-470, body of the inner loop *)
Definition bte_step (v : vocab) (st : bte_state) (ngram : str) : result bte_state :=
  let '(ngram_index, idx_index, ngram_list) := st in
  if dmem str_eqb ngram ngram_index then Ok st
  else
    idx <- bucket_indexer_call v ngram ;;
    let idx_index :=
      if dmem N.eqb idx idx_index then idx_index
      else dset N.eqb idx (Z.of_nat (length idx_index)) idx_index in
    match dget N.eqb idx idx_index with
    | None => Err KeyError
    | Some i => Ok (sset ngram i ngram_index, idx_index, ngram_list ++ [ngram])
    end.

(* A loop with state that may raise, e.g. vocab/subword.py 462-470. *)
Fixpoint foldM {A B} (f : A -> B -> result A) (l : list B) (a : A) : result A :=
  match l with
  | [] => Ok a
  | b :: l' => a' <- f a b ;; foldM f l' a'
  end.

(* subword.py 457-473, _bucket_to_explicit *)
Definition bucket_to_explicit_vocab (v : vocab) : result vocab :=
  match vocab_ngram_range v with
  | None => Err AttributeError
  | Some (min_n, max_n) =>
      st <- foldM (fun st word =>
              token_ngrams <- vocab_subwords v word true ;;
              foldM (bte_step v) token_ngrams st) (vocab_words v) ([], [], []) ;;
      let '(ngram_index, _, ngram_list) := st in
      indexer <- ex_new ngram_list (Z.of_N min_n) (Z.of_N max_n) (Some ngram_index) ;;
      explicit_vocab_new (vocab_words v) indexer
  end.
