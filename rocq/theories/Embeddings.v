(* Model of src/finalfusion/embeddings.py.  No proofs in this file. *)
From Verif Require Import Py Utf8 IO Arr Subword Vocab Storage Chunks.

(* embeddings.py 117-121; the origin (a file name) is not modelled *)
Record embeddings (F : Type) : Type := Emb {
  em_storage : storage F;
  em_vocab : vocab;
  em_norms : option (norms F);
  em_metadata : option metadata }.
Arguments Emb {F} _ _ _ _.
Arguments em_storage {F} _.
Arguments em_vocab {F} _.
Arguments em_norms {F} _.
Arguments em_metadata {F} _.

(* embeddings.py 657-663, _norms_compat *)
Definition norms_compat {F} (s : storage F) (v : vocab) (n : norms F) : result unit :=
  _ <- py_assert (lenN (nm_vals n) <=? fst (storage_shape s)) ;;
  py_assert (vocab_len v =? lenN (nm_vals n)).

(* embeddings.py 643-655, _check_requirements, and 77-121, __init__ *)
Definition embeddings_new {F} (s : storage F) (v : vocab) (n : option (norms F))
  (m : option metadata) : result (embeddings F) :=
  _ <- py_assert (Z.of_N (fst (storage_shape s)) =? vocab_upper_bound v)%Z ;;
  _ <- match n with None => Ok tt | Some n => norms_compat s v n end ;;
  Ok (Emb s v n m).

(* embeddings.py 271-293 *)
Definition em_dims {F} (e : embeddings F) : N := snd (storage_shape (em_storage e)).
(* embeddings.py 284-293. *)
Definition em_n_words {F} (e : embeddings F) : N := vocab_len (em_vocab e).

(* The setters mutate the object: they return its new state together with the outcome, so
   that an assignment that happened before an exception would be seen. *)
(* embeddings.py 342-348, norms setter; an argument that is not a Norms object fails the
   isinstance assertion of _norms_compat *)
Inductive norms_arg (F : Type) : Type := NaNone | NaNorms (n : norms F) | NaOther.
Arguments NaNone {F}.
Arguments NaNorms {F} _.
Arguments NaOther {F}.
(* embeddings.py 342-348. *)
Definition em_with_norms {F} (e : embeddings F) (n : option (norms F)) : embeddings F :=
  Emb (em_storage e) (em_vocab e) n (em_metadata e).
(* embeddings.py 342-348. *)
Definition em_set_norms {F} (e : embeddings F) (a : norms_arg F) : embeddings F * result unit :=
  match a with
  | NaNone => (em_with_norms e None, Ok tt)
  | NaNorms n =>
      match norms_compat (em_storage e) (em_vocab e) n with
      | Ok _ => (em_with_norms e (Some n), Ok tt)
      | Err x => (e, Err x)
      end
  | NaOther => (e, Err AssertionError)
  end.
(* embeddings.py 370-377, metadata setter *)
Inductive meta_arg : Type := MaNone | MaMetadata (m : metadata) | MaOther.
(* embeddings.py 370-377. *)
Definition em_with_metadata {F} (e : embeddings F) (m : option metadata) : embeddings F :=
  Emb (em_storage e) (em_vocab e) (em_norms e) m.
(* embeddings.py 370-377. *)
Definition em_set_metadata {F} (e : embeddings F) (a : meta_arg) : embeddings F * result unit :=
  match a with
  | MaNone => (em_with_metadata e None, Ok tt)
  | MaMetadata m => (em_with_metadata e (Some m), Ok tt)
  | MaOther => (e, Err TypeError)
  end.

(* ---------------------------------------------------------------- *)
(* Lookup                                                            *)

Section Lookup.
  Context {F : Type} (o : fops F).

  (* embeddings.py 623-641, _embedding without output buffer (buffers are modelled in
     Heap.v) *)
  Definition em_embedding_at (e : embeddings F) (idx : index_res)
    : result (list F * option F) :=
    match idx with
    | IdxInt i =>
        res <- storage_get o (em_storage e) i ;;
        match em_norms e with
        | Some n => norm <- py_index (nm_vals n) i ;; Ok (res, Some norm)
        | None => Ok (res, None)
        end
    | IdxList l =>
        res <- storage_get_list o (em_storage e) l ;;
        let out := vsum o (N.to_nat (em_dims e)) res in
        let norm := fnorm o out in
        Ok (vdiv o out norm, Some norm)
    end.

  (* embeddings.py 123-149, __getitem__ *)
  Definition em_getitem (e : embeddings F) (item : str) : result (list F) :=
    idx <- vocab_getitem (em_vocab e) item ;;
    r <- em_embedding_at e idx ;;
    Ok (fst r).

  (* embeddings.py 151-218, embedding; None is Python's None *)
  Definition em_embedding (e : embeddings F) (word : str) (default : option (list F))
    : result (option (list F)) :=
    idx <- vocab_idx (em_vocab e) word ;;
    match idx with
    | None => Ok default
    | Some i => r <- em_embedding_at e i ;; Ok (Some (fst r))
    end.

  (* embeddings.py 220-269, embedding_with_norm *)
  Definition em_embedding_with_norm (e : embeddings F) (word : str)
    (default : option (list F * option F)) : result (option (list F * option F)) :=
    match em_norms e with
    | None => Err TypeError
    | Some _ =>
        idx <- vocab_idx (em_vocab e) word ;;
        match idx with
        | None => Ok default
        | Some i => r <- em_embedding_at e i ;; Ok (Some r)
        end
    end.

  (* embeddings.py 588-592, __iter__ run to its end: zip stops at the shortest *)
  Definition em_iter (e : embeddings F) : result (list (str * list F * option F)) :=
    rows <- storage_iter o (em_storage e) ;;
    match em_norms e with
    | Some n =>
        Ok (map2 (fun wr x => (wr, Some x)) (combine (vocab_words (em_vocab e)) rows)
              (nm_vals n))
    | None => Ok (map (fun wr => (wr, None)) (combine (vocab_words (em_vocab e)) rows))
    end.
End Lookup.

(* ---------------------------------------------------------------- *)
(* Similarity                                                        *)

Section Similarity.
  Context {F : Type} (o : fops F).
  (* sims.argpartition(kth) for 0 <= kth < len(sims): some permutation of the indices *)
  Variable argpartition : list F -> nat -> list nat.
  (* heapq.heappush: some arrangement of the heap *)
  Variable heappush : list (str * F) -> str * F -> list (str * F).

  (* sorted(l, reverse=True) on SimilarityResult: descending by similarity, equal elements
     keep their order (embeddings.py 724-732: the word is not compared) *)
  Fixpoint insert_desc (x : str * F) (l : list (str * F)) : list (str * F) :=
    match l with
    | [] => [x]
    | y :: l' => if fle o (snd y) (snd x) then x :: y :: l' else y :: insert_desc x l'
    end.
  (* embeddings.py 621. *)
  Definition sort_desc (l : list (str * F)) : list (str * F) := fold_right insert_desc [] l.
  (* heapq.nlargest(k, l) is documented to be sorted(l, reverse=True)[:k]; empty for
     k <= 0.  embeddings.py 621. *)
  Definition nlargest (k : Z) (l : list (str * F)) : list (str * F) :=
    firstn (Z.to_nat k) (sort_desc l).

  (* ndarray.argpartition with an int kth: negative values count from the end;
     ValueError if out of bounds, which is not checked for an empty array.
     embeddings.py 612-614. *)
  Definition np_argpartition (sims : list F) (kth : Z) : result (list nat) :=
    let n := Z.of_nat (length sims) in
    let kth := if (kth <? 0)%Z then (kth + n)%Z else kth in
    if (n =? 0)%Z then Ok []
    else if in_range 0 n kth then Ok (argpartition sims (Z.to_nat kth)) else Err ValueError.

  (* embeddings.py 609-611: indices of the skipped words that are in the vocabulary *)
  Definition skip_indices (v : vocab) (skips : list str) : list Z :=
    dedup Z.eqb
      (flat_map (fun s => match sget s (vocab_index v) with
                          | Some i => [i] | None => [] end) skips).

  (* embeddings.py 605-621, _similarity.  QuantizedArray has no dot method. *)
  Definition em_similarity (e : embeddings F) (query : list F) (k : Z)
    (skips : list str) : result (list (str * F)) :=
    words <- storage_slice (em_storage e) (slice_to (Z.of_N (vocab_len (em_vocab e)))) ;;
    match words with
    | SQuant _ => Err AttributeError
    | SNd a =>
        (* words.dot(query): ValueError if the lengths differ *)
        _ <- (if lenN query =? nd_cols a then Ok tt else Err ValueError) ;;
        let sims := map (fun row => fdot o row query) (nd_rows a) in
        let skip_ix := skip_indices (em_vocab e) skips in
        let from := (- k - Z.of_nat (length skip_ix))%Z in
        part <- np_argpartition sims from ;;
        partition <- py_slice part (slice_from from) ;;
        heap <- foldM (fun heap idx =>
                  if mem_eqb Z.eqb (Z.of_nat idx) skip_ix then Ok heap
                  else
                    w <- py_index (vocab_words (em_vocab e)) (Z.of_nat idx) ;;
                    s <- py_index sims (Z.of_nat idx) ;;
                    Ok (heappush heap (w, s))) partition [] ;;
        Ok (nlargest k heap)
    end.

  (* embeddings.py 554-583 *)
  Definition em_embedding_similarity (e : embeddings F) (query : list F) (k : Z)
    (skip : option (list str)) : result (list (str * F)) :=
    em_similarity e query k (match skip with None => [] | Some s => s end).

  (* embeddings.py 525-552; None is Python's None *)
  Definition em_word_similarity (e : embeddings F) (query : str) (k : Z)
    : result (option (list (str * F))) :=
    embed <- em_embedding o e query None ;;
    match embed with
    | None => Ok None
    | Some v => r <- em_similarity e v k [query] ;; Ok (Some r)
    end.

  (* embeddings.py 471-523 *)
  Definition em_analogy (e : embeddings F) (word1 word2 word3 : str) (k : Z)
    (skip : option (list str)) : result (option (list (str * F))) :=
    embed_a <- em_embedding o e word1 None ;;
    embed_b <- em_embedding o e word2 None ;;
    embed_c <- em_embedding o e word3 None ;;
    match embed_a, embed_b, embed_c with
    | Some a, Some b, Some c =>
        let diff := vsub o b a in
        let embed_d := vadd o c diff in
        let embed_d := vdiv o embed_d (fnorm o embed_d) in
        r <- em_similarity e embed_d k
               (match skip with None => [word1; word2; word3] | Some s => s end) ;;
        Ok (Some r)
    | _, _, _ => Ok None
    end.
End Similarity.

(* ---------------------------------------------------------------- *)
(* Conversion to explicit embeddings                                 *)

(* embeddings.py 463-466. *)
Fixpoint set_nth {A} (n : nat) (a : A) (l : list A) : list A :=
  match n, l with
  | _, [] => []
  | O, _ :: l' => a :: l'
  | S n', b :: l' => b :: set_nth n' a l'
  end.

(* a[i] = row.  embeddings.py 463-466. *)
Definition py_setrow {F} (rows : list (list F)) (i : Z) (row : list F)
  : result (list (list F)) :=
  let n := Z.of_nat (length rows) in
  let i := if (i <? 0)%Z then (i + n)%Z else i in
  if in_range 0 n i then Ok (set_nth (Z.to_nat i) row rows) else Err IndexError.

Section ToExplicit.
  Context {F : Type} (o : fops F).

  (* embeddings.py 434-469, bucket_to_explicit.  storage[:n] = self._storage[:n] copies
     the first n rows (a quantized storage is converted through __array__). *)
  Definition em_bucket_to_explicit (e : embeddings F) : result (embeddings F) :=
    match em_vocab e with
    | VBucket _ _ _ | VFastText _ _ _ =>
        v <- bucket_to_explicit_vocab (em_vocab e) ;;
        match v with
        | VExplicit _ _ ix =>
            let n := Z.of_N (vocab_len v) in
            let cols := em_dims e in
            first <- (s <- storage_slice (em_storage e) (slice_to n) ;; storage_array o s) ;;
            let rows0 :=
              first ++ repeat (vzero o (N.to_nat cols))
                         (Z.to_nat (vocab_upper_bound v) - length first) in
            rows <- foldM (fun rows ngram =>
                      i <- ex_getitem ix ngram ;;
                      b <- bucket_indexer_call (em_vocab e) ngram ;;
                      row <- storage_get o (em_storage e) (n + Z.of_N b)%Z ;;
                      py_setrow rows (n + i)%Z row) (ex_ngrams ix) rows0 ;;
            embeddings_new (SNd (NdA BoNative cols rows)) v (em_norms e) None
        | _ => Err TypeError
        end
    | _ => Err TypeError
    end.
End ToExplicit.

(* ---------------------------------------------------------------- *)
(* Serialization                                                     *)

(* embeddings.py 391-414 and 427-432: the chunks in order of serialization, each with its
   identifier and writer *)
Definition em_chunks (host : endian) (t : toml_lib) (e : embeddings f32)
  : list (chunk_id * writer) :=
  match em_metadata e with
  | Some m => [(CMetadata, metadata_write_chunk t m)]
  | None => []
  end
  ++ [(vocab_chunk_id (em_vocab e), vocab_write_chunk (em_vocab e))]
  ++ [(storage_chunk_id (em_storage e), storage_write_chunk host (em_storage e))]
  ++ match em_norms e with
     | Some n => [(CNdNorms, norms_write_chunk host n)]
     | None => []
     end.

(* embeddings.py 416-432, write *)
Definition em_write (host : endian) (t : toml_lib) (e : embeddings f32) : writer :=
  let chunks := em_chunks host t e in
  header_write_chunk (map (fun c => chunk_id_val (fst c)) chunks) ;w;
  wfor snd chunks.

(* embeddings.py 666-721, load_finalfusion *)
Definition load_finalfusion (host : endian) (t : toml_lib) (mmap : bool)
  : reader (embeddings f32) :=
  _ <~ header_read_chunk ;;
  h <~ read_required_chunk_header ;;
  mc <~ (match fst h with
         | CMetadata =>
             m <~ metadata_read_chunk t ;;
             h <~ read_required_chunk_header ;;
             rret (Some m, fst h)
         | c => rret (None, c)
         end) ;;
  let '(meta, cid) := mc in
  v <~ vocab_read_chunk cid FormatError ;;
  h <~ read_required_chunk_header ;;
  s <~ storage_read_chunk host mmap (fst h) FormatError ;;
  maybe <~ read_chunk_header ;;
  n <~ (match maybe with
        | None => rret None
        | Some (CNdNorms, _) => n <~ norms_read_chunk host ;; rret (Some n)
        | Some _ => rfail FormatError
        end) ;;
  rlift (embeddings_new s v n meta).
