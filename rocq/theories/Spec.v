(* Specification vocabulary: what the values built by the constructors look like and when
   two values count as equal.  Nothing in this file is used by the model. *)
From Verif Require Import Py Utf8 IO Arr Subword Vocab Storage Chunks Embeddings.

(* ---------------------------------------------------------------- *)
(* Vocabularies that the constructors accept                         *)

(* a Python dict has no duplicate keys *)
Definition dict_wf {V} (d : dict str V) : Prop := NoDup (map fst d).

Inductive built_vocab : vocab -> Prop :=
| BuiltSimple ws v : simple_vocab_new ws = Ok v -> built_vocab v
| BuiltBucket ws e mn mx ix v :
    ff_new e mn mx = Ok ix -> bucket_vocab_new ws ix = Ok v -> built_vocab v
| BuiltFastText ws b mn mx ix v :
    ft_new b mn mx = Ok ix -> fasttext_vocab_new ws ix = Ok v -> built_vocab v
| BuiltExplicit ws ngrams mn mx index ix v :
    (forall i, index = Some i -> dict_wf i) ->
    ex_new ngrams mn mx index = Ok ix -> explicit_vocab_new ws ix = Ok v ->
    built_vocab v.

(* equality of dicts: same value for each key *)
Definition same_dict {V} (d1 d2 : dict str V) : Prop := forall k, sget k d1 = sget k d2.

(* equality of vocabularies: same type, words, indices and indexer *)
Inductive same_vocab : vocab -> vocab -> Prop :=
| SameSimple ws i : same_vocab (VSimple ws i) (VSimple ws i)
| SameBucket ws i ix : same_vocab (VBucket ws i ix) (VBucket ws i ix)
| SameFastText ws i ix : same_vocab (VFastText ws i ix) (VFastText ws i ix)
| SameExplicit ws i ngrams index1 index2 bound mn mx :
    same_dict index1 index2 ->
    same_vocab (VExplicit ws i (EX ngrams index1 bound mn mx))
               (VExplicit ws i (EX ngrams index2 bound mn mx)).

(* an explicit vocabulary has at least one n-gram (no condition on the others) *)
Definition has_ngrams (v : vocab) : Prop :=
  match v with VExplicit _ _ ix => ex_ngrams ix <> [] | _ => True end.
Definition not_explicit (v : vocab) : Prop :=
  match v with VExplicit _ _ _ => False | _ => True end.

(* ---------------------------------------------------------------- *)
(* Arrays: shapes that numpy guarantees / the constructors document    *)

Definition rows_wf {A} (cols : N) (rows : list (list A)) : Prop :=
  Forall (fun r => lenN r = cols) rows.
(* dtype float32: the byte order character is never '|' *)
Definition bo_wf (bo : byteorder) : Prop := bo <> BoNA.

Definition ndarray_wf {F} (a : ndarray F) : Prop :=
  bo_wf (nd_bo a) /\ rows_wf (nd_cols a) (nd_rows a).

Definition pq_wf {F} (q : pq F) : Prop :=
  bo_wf (pq_bo q)
  /\ Forall (fun m => lenN m = pq_n_centroids q /\ rows_wf (pq_sub_len q) m)
       (pq_quantizers q)
  /\ match pq_projection q with
     | None => True
     | Some (bo, rows) =>
         let rl := lenN (pq_quantizers q) * pq_sub_len q in
         bo_wf bo /\ lenN rows = rl /\ rows_wf rl rows
     end.

(* one code per quantizer, one norm per embedding, at least one quantizer *)
Definition qarray_wf {F} (q : qarray F) : Prop :=
  pq_wf (qa_pq q)
  /\ qa_len q = lenN (pq_quantizers (qa_pq q))
  /\ qa_len q <> 0
  /\ rows_wf (qa_len q) (qa_codes q)
  /\ match qa_norms q with
     | None => True
     | Some (bo, ns) => bo_wf bo /\ lenN ns = lenN (qa_codes q)
     end.

Definition storage_wf {F} (s : storage F) : Prop :=
  match s with SNd a => ndarray_wf a | SQuant q => qarray_wf q end.
Definition norms_wf {F} (n : norms F) : Prop := bo_wf (nm_bo n).

(* Arrays read from a file have the native byte order; the values are the same. *)
Definition native_storage {F} (s : storage F) : storage F :=
  match s with
  | SNd a => SNd (NdA BoNative (nd_cols a) (nd_rows a))
  | SQuant q =>
      let p := qa_pq q in
      SQuant (QA (PQ BoNative (pq_n_centroids p) (pq_sub_len p) (pq_quantizers p)
                    (match pq_projection p with
                     | None => None
                     | Some (_, rows) => Some (BoNative, rows)
                     end))
                (qa_len q) (qa_codes q)
                (match qa_norms q with
                 | None => None
                 | Some (_, ns) => Some (BoNative, ns)
                 end))
  end.
Definition native_norms {F} (n : norms F) : norms F := Norms BoNative (nm_vals n).

(* ---------------------------------------------------------------- *)
(* Embeddings                                                        *)

(* embeddings built from well-formed parts by the constructor *)
Definition built_embeddings {F} (e : embeddings F) : Prop :=
  storage_wf (em_storage e)
  /\ built_vocab (em_vocab e)
  /\ (forall n, em_norms e = Some n -> norms_wf n)
  /\ embeddings_new (em_storage e) (em_vocab e) (em_norms e) (em_metadata e) = Ok e.

(* [e2] is what a loader should return for [e1]: the same contents, native byte order *)
Definition same_embeddings {F} (e1 e2 : embeddings F) : Prop :=
  em_storage e2 = native_storage (em_storage e1)
  /\ same_vocab (em_vocab e1) (em_vocab e2)
  /\ em_norms e2 = option_map native_norms (em_norms e1)
  /\ em_metadata e2 = em_metadata e1.

(* the toml library gives back this metadata *)
Definition toml_roundtrips (t : toml_lib) (m : option metadata) : Prop :=
  forall x s, m = Some x -> toml_dumps t x = Ok s -> toml_loads t s = Ok x.

(* ---------------------------------------------------------------- *)
(* File format                                                       *)

(* header: magic, version 0, number of chunks, chunk identifiers *)
Definition file_header (ids : list Z) : bytes :=
  MAGIC ++ le_bytes 4 0 ++ le_bytes 4 (lenN ids)
  ++ concat (map (fun i => le_bytes 4 (Z.to_N i)) ids).
(* chunk: identifier, length of the contents, contents *)
Definition chunk_bytes (c : chunk_id) (body : bytes) : bytes :=
  le_bytes 4 (Z.to_N (chunk_id_val c)) ++ le_bytes 8 (lenN body) ++ body.
Definition chunks_bytes (chunks : list (chunk_id * bytes)) : bytes :=
  concat (map (fun c => chunk_bytes (fst c) (snd c)) chunks).

(* The loop [while True] of io.py 171-178 as a relation: one derivation step per iteration,
   so a result exists iff the loop terminates. *)
Inductive find_runs (wanted : list chunk_id) (d : bytes)
  : N -> result (option chunk_id * N) -> Prop :=
| FrErr p e : read_chunk_header d p = Err e -> find_runs wanted d p (Err e)
| FrEof p q : read_chunk_header d p = Ok (None, q) -> find_runs wanted d p (Ok (None, q))
| FrHit p c n q : read_chunk_header d p = Ok (Some (c, n), q) -> In c wanted ->
    find_runs wanted d p (Ok (Some c, q))
| FrSeekErr p c n q e : read_chunk_header d p = Ok (Some (c, n), q) -> ~ In c wanted ->
    seek_fwd n d q = Err e -> find_runs wanted d p (Err e)
| FrSkip p c n q u q' r : read_chunk_header d p = Ok (Some (c, n), q) -> ~ In c wanted ->
    seek_fwd n d q = Ok (u, q') -> find_runs wanted d q' r -> find_runs wanted d p r.

(* ---------------------------------------------------------------- *)
(* Consistency of embeddings, spelled out field by field (C07)        *)

Definition n_words (v : vocab) : nat := length (vocab_words v).

(* words are pairwise different and mapped to their position, nothing else is mapped *)
Definition indexed_words (ws : list str) (index : dict str Z) : Prop :=
  NoDup ws
  /\ forall w i, sget w index = Some i <-> (0 <= i)%Z /\ nth_error ws (Z.to_nat i) = Some w.

Definition ngram_range (mn mx : N) : Prop := 0 < mn <= mx /\ mx < 2 ^ 32.

(* the n-grams are pairwise different, are exactly the keys of the mapping, and the indices
   are exactly the integers from 0 to [bound] - 1 *)
Definition covers (ngrams : list str) (index : dict str Z) (bound : Z) : Prop :=
  NoDup ngrams
  /\ (forall g, In g ngrams <-> exists i, sget g index = Some i)
  /\ (forall i, (0 <= i < bound)%Z <-> exists g, sget g index = Some i).

(* number of rows that belong to subwords *)
Definition subword_rows (v : vocab) : Z :=
  match v with
  | VSimple _ _ => 0
  | VBucket _ _ ix => 2 ^ Z.of_N (ff_exp ix)
  | VFastText _ _ ix => Z.of_N (ft_buckets ix)
  | VExplicit _ _ ix => ex_bound ix
  end.

Definition consistent_indexer (v : vocab) : Prop :=
  match v with
  | VSimple _ _ => True
  | VBucket _ _ ix => ngram_range (ff_min_n ix) (ff_max_n ix) /\ 0 < ff_exp ix < 64
  | VFastText _ _ ix => ngram_range (ft_min_n ix) (ft_max_n ix) /\ 0 < ft_buckets ix < 2 ^ 32
  | VExplicit _ _ ix =>
      ngram_range (ex_min_n ix) (ex_max_n ix) /\ covers (ex_ngrams ix) (ex_index ix) (ex_bound ix)
  end.

Definition storage_rows {F} (s : storage F) : nat :=
  match s with SNd a => length (nd_rows a) | SQuant q => length (qa_codes q) end.

Record consistent {F} (e : embeddings F) : Prop := {
  cons_words : indexed_words (vocab_words (em_vocab e)) (vocab_index (em_vocab e));
  cons_indexer : consistent_indexer (em_vocab e);
  cons_storage : storage_wf (em_storage e);
  cons_rows : (Z.of_nat (storage_rows (em_storage e))
               = Z.of_nat (n_words (em_vocab e)) + subword_rows (em_vocab e))%Z;
  cons_norms : forall n, em_norms e = Some n -> length (nm_vals n) = n_words (em_vocab e) }.

(* ---------------------------------------------------------------- *)
(* What a truncated single-chunk file may turn a chunk into (C06)     *)

(* the last word has lost some of its last characters *)
Inductive cut_last : list str -> list str -> Prop :=
| CutLast front w r : cut_last (front ++ [w ++ r]) (front ++ [w]).

Definition cut_vocab (v v' : vocab) : Prop :=
  cut_last (vocab_words v) (vocab_words v')
  /\ match v, v' with
     | VSimple _ _, VSimple _ _ => True
     | VBucket _ _ ix, VBucket _ _ ix' => ix = ix'
     | VFastText _ _ ix, VFastText _ _ ix' => ix = ix'
     | _, _ => False
     end.

(* ---------------------------------------------------------------- *)
(* Further notions used in the statements about files                *)

(* every mode of loading: eager on any host, memory mapped on little endian hosts *)
Definition load_mode (h2 : endian) (mmap : bool) : Prop := mmap = false \/ h2 = Little.

Definition valid_ids (ids : list Z) : Prop :=
  ids <> [] /\ lenN ids < 2 ^ 32 /\ Forall (fun i => 0 <= i < 2 ^ 32)%Z ids.

(* what is written at offset p consists of a header of [hl] bytes, padding and [data], and
   the data start at a multiple of four *)
Definition aligned_at (p hl : N) (out data : bytes) : Prop :=
  exists hd pad, lenN hd = hl /\ 1 <= pad <= 4
    /\ out = hd ++ repeat x00 (N.to_nat pad) ++ data /\ (p + hl + pad) mod 4 = 0.
(* floats as they are stored *)
Definition floats_le (l : list f32) : bytes := concat (map f32_le l).

(* equal contents, byte orders of the arrays may differ *)
Definition same_values {F} (e1 e2 : embeddings F) : Prop :=
  native_storage (em_storage e1) = native_storage (em_storage e2)
  /\ em_vocab e1 = em_vocab e2
  /\ option_map (@nm_vals F) (em_norms e1) = option_map (@nm_vals F) (em_norms e2)
  /\ em_metadata e1 = em_metadata e2.

(* the toml library writes back what it has read *)
Definition toml_stable (t : toml_lib) : Prop :=
  forall s m, toml_loads t s = Ok m ->
    exists s' b, toml_dumps t m = Ok s' /\ utf8_encode s' = Ok b /\ lenN b < 2 ^ 64
                 /\ toml_loads t s' = Ok m.
