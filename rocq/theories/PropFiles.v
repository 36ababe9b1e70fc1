(* C01-C14, C44: files.  Statements only; proofs are in the other files. *)
From Verif Require Import Py Utf8 IO Arr Subword Vocab Storage Chunks Embeddings Spec.
From Verif Require Import PyProofs IOProofs EmbeddingsProofs TruncProofs FindProofs LoaderProofs ExtendProofs
  TruncVocab WriteProofs HeaderProofs VocabFacts ExplicitProofs FileWitness Samples.

(* C01 *)
Theorem C01_roundtrip : forall h1 h2 t mmap e out,
  built_embeddings e -> has_ngrams (em_vocab e) -> toml_roundtrips t (em_metadata e) ->
  load_mode h2 mmap ->
  run_writer (em_write h1 t e) = (out, Ok tt) -> lenN out < ssize_limit ->
  exists e', run_reader (load_finalfusion h2 t mmap) out = Ok e' /\ same_embeddings e e'.
Proof. exact em_roundtrip. Qed.
Print Assumptions C01_roundtrip.

Example C01_simple : meets_C01 Little Big false e_simple.
Proof. exact meets_C01_simple. Qed.
Example C01_bucket : meets_C01 Big Little true e_bucket.
Proof. exact meets_C01_bucket. Qed.
Example C01_fasttext : meets_C01 Little Little true e_fasttext.
Proof. exact meets_C01_fasttext. Qed.
Example C01_explicit : meets_C01 Big Big false e_explicit.
Proof. exact meets_C01_explicit. Qed.

(* C02 *)
Theorem C02_vocab : forall v out,
  built_vocab v -> has_ngrams v ->
  run_writer (chunk_write (vocab_chunk_id v) (vocab_write_chunk v)) = (out, Ok tt) ->
  lenN out < ssize_limit ->
  exists v', run_reader load_vocab out = Ok v'
    /\ run_reader (load_vocab_of (vocab_chunk_id v)) out = Ok v' /\ same_vocab v v'.
Proof. exact vocab_file. Qed.
Print Assumptions C02_vocab.
Theorem C02_storage : forall h1 h2 mmap s out,
  storage_wf s -> load_mode h2 mmap ->
  run_writer (chunk_write (storage_chunk_id s) (storage_write_chunk h1 s)) = (out, Ok tt) ->
  lenN out < ssize_limit ->
  run_reader (load_storage h2 mmap) out = Ok (native_storage s)
  /\ run_reader (load_storage_of h2 mmap (storage_chunk_id s)) out = Ok (native_storage s).
Proof. exact storage_file. Qed.
Print Assumptions C02_storage.
Theorem C02_norms : forall h1 h2 n out,
  norms_wf n ->
  run_writer (chunk_write CNdNorms (norms_write_chunk h1 n)) = (out, Ok tt) ->
  lenN out < ssize_limit ->
  run_reader (load_norms h2) out = Ok (native_norms n).
Proof. exact norms_file. Qed.
Print Assumptions C02_norms.
Theorem C02_metadata : forall t m out,
  toml_roundtrips t (Some m) ->
  run_writer (chunk_write CMetadata (metadata_write_chunk t m)) = (out, Ok tt) ->
  lenN out < ssize_limit ->
  run_reader (load_metadata t) out = Ok m.
Proof. exact metadata_file. Qed.
Print Assumptions C02_metadata.

Example C02_samples :
  chunk_written (vocab_chunk_id v_explicit) (vocab_write_chunk v_explicit)
  /\ chunk_written (vocab_chunk_id v_fasttext) (vocab_write_chunk v_fasttext)
  /\ chunk_written CQuantizedArray (storage_write_chunk Big (SQuant q_4))
  /\ chunk_written CNdNorms (norms_write_chunk Big n_3)
  /\ chunk_written CMetadata (metadata_write_chunk s_toml s_meta).
Proof. exact chunks_written. Qed.

(* C03 *)
Theorem C03_vocab : forall h1 t e out,
  built_embeddings e -> has_ngrams (em_vocab e) -> toml_roundtrips t (em_metadata e) ->
  run_writer (em_write h1 t e) = (out, Ok tt) -> lenN out < ssize_limit ->
  exists v', run_reader load_vocab out = Ok v' /\ same_vocab (em_vocab e) v'.
Proof. exact em_load_vocab. Qed.
Print Assumptions C03_vocab.
Theorem C03_storage : forall h1 h2 mmap t e out,
  built_embeddings e -> not_explicit (em_vocab e) -> toml_roundtrips t (em_metadata e) ->
  load_mode h2 mmap ->
  run_writer (em_write h1 t e) = (out, Ok tt) -> lenN out < ssize_limit ->
  run_reader (load_storage h2 mmap) out = Ok (native_storage (em_storage e)).
Proof. exact em_load_storage. Qed.
Print Assumptions C03_storage.
Theorem C03_norms : forall h1 h2 t e out,
  built_embeddings e -> not_explicit (em_vocab e) -> toml_roundtrips t (em_metadata e) ->
  run_writer (em_write h1 t e) = (out, Ok tt) -> lenN out < ssize_limit ->
  run_reader (load_norms h2) out
  = match em_norms e with Some n => Ok (native_norms n) | None => Err ValueError end.
Proof. exact em_load_norms. Qed.
Print Assumptions C03_norms.
Theorem C03_metadata : forall h1 t e out,
  built_embeddings e -> not_explicit (em_vocab e) -> toml_roundtrips t (em_metadata e) ->
  run_writer (em_write h1 t e) = (out, Ok tt) -> lenN out < ssize_limit ->
  run_reader (load_metadata t) out
  = match em_metadata e with Some m => Ok m | None => Err ValueError end.
Proof. exact em_load_metadata. Qed.
Print Assumptions C03_metadata.
Example C03_sample : meets_C01 Big Little true e_bucket /\ not_explicit (em_vocab e_bucket).
Proof. exact (conj meets_C01_bucket I). Qed.

(* C04.  Full statement: as C03_storage and C03_norms, for an explicit vocabulary.  It is
   false: the declared length of the chunk leaves out the n-gram indices. *)
Theorem C04_refuted : exists e out,
  built_embeddings e /\ has_ngrams (em_vocab e) /\ toml_roundtrips s_toml (em_metadata e)
  /\ run_writer (em_write Little s_toml e) = (out, Ok tt) /\ lenN out < ssize_limit
  /\ (exists n, em_norms e = Some n)
  /\ run_reader (load_storage Little false) out = Err ValueError
  /\ run_reader (load_norms Little) out = Err ValueError.
Proof. exact explicit_load_fails. Qed.
Print Assumptions C04_refuted.
(* What is left: the vocabulary (C03_vocab covers explicit vocabularies) and the metadata. *)
Theorem C04_metadata_partial : forall h1 t e out m,
  built_embeddings e -> has_ngrams (em_vocab e) -> toml_roundtrips t (em_metadata e) ->
  run_writer (em_write h1 t e) = (out, Ok tt) -> lenN out < ssize_limit ->
  em_metadata e = Some m ->
  run_reader (load_metadata t) out = Ok m.
Proof. exact em_load_metadata_some. Qed.
Print Assumptions C04_metadata_partial.
Example C04_sample : meets_C01 Big Big false e_explicit /\ em_metadata e_explicit = Some s_meta.
Proof. exact (conj meets_C01_explicit eq_refl). Qed.

(* C05.  Full statement: as C05_partial with the first alternative only.  It is false: a file
   that is cut right before the norms loads without norms. *)
Theorem C05_refuted : exists e out d ext e',
  built_embeddings e /\ has_ngrams (em_vocab e) /\ toml_roundtrips s_toml (em_metadata e)
  /\ run_writer (em_write Little s_toml e) = (out, Ok tt) /\ lenN out < ssize_limit
  /\ out = d ++ ext
  /\ run_reader (load_finalfusion Little s_toml false) d = Ok e' /\ ~ same_embeddings e e'.
Proof. exact cut_before_norms. Qed.
Print Assumptions C05_refuted.
Theorem C05_partial : forall h1 h2 t mmap e out d ext,
  built_embeddings e -> has_ngrams (em_vocab e) -> toml_roundtrips t (em_metadata e) ->
  load_mode h2 mmap ->
  run_writer (em_write h1 t e) = (out, Ok tt) -> lenN out < ssize_limit ->
  out = d ++ ext ->
  forall e', run_reader (load_finalfusion h2 t mmap) d = Ok e' ->
  same_embeddings e e'
  \/ same_embeddings (Emb (em_storage e) (em_vocab e) None (em_metadata e)) e'.
Proof. exact em_truncated. Qed.
Print Assumptions C05_partial.

(* C06.  Full statement: on a truncated file the loaders raise or return the original.  It
   holds for arrays, metadata and explicit vocabularies and is false for the other
   vocabularies and for norms. *)
Theorem C06_vocab_refuted : exists v out d ext v',
  built_vocab v /\ has_ngrams v
  /\ run_writer (chunk_write (vocab_chunk_id v) (vocab_write_chunk v)) = (out, Ok tt)
  /\ lenN out < ssize_limit /\ out = d ++ ext
  /\ run_reader load_vocab d = Ok v' /\ run_reader (load_vocab_of (vocab_chunk_id v)) d = Ok v'
  /\ ~ same_vocab v v'.
Proof. exact cut_vocab_loads. Qed.
Print Assumptions C06_vocab_refuted.
Theorem C06_norms_refuted : exists n out d ext n',
  norms_wf n
  /\ run_writer (chunk_write CNdNorms (norms_write_chunk Little n)) = (out, Ok tt)
  /\ lenN out < ssize_limit /\ out = d ++ ext
  /\ run_reader (load_norms Little) d = Ok n' /\ nm_vals n' <> nm_vals n.
Proof. exact cut_norms_loads. Qed.
Print Assumptions C06_norms_refuted.
Theorem C06_storage : forall h1 h2 mmap s out d ext s',
  storage_wf s -> load_mode h2 mmap ->
  run_writer (chunk_write (storage_chunk_id s) (storage_write_chunk h1 s)) = (out, Ok tt) ->
  lenN out < ssize_limit -> out = d ++ ext ->
  run_reader (load_storage h2 mmap) d = Ok s'
  \/ run_reader (load_storage_of h2 mmap (storage_chunk_id s)) d = Ok s' ->
  s' = native_storage s.
Proof. exact storage_file_truncated. Qed.
Print Assumptions C06_storage.
Theorem C06_metadata : forall t m out d ext m',
  toml_roundtrips t (Some m) ->
  run_writer (chunk_write CMetadata (metadata_write_chunk t m)) = (out, Ok tt) ->
  lenN out < ssize_limit -> out = d ++ ext ->
  run_reader (load_metadata t) d = Ok m' -> m' = m.
Proof. exact metadata_file_truncated. Qed.
Print Assumptions C06_metadata.
(* only the last word of a vocabulary without explicit n-grams can be damaged *)
Theorem C06_vocab_partial : forall v out d ext v',
  built_vocab v -> has_ngrams v ->
  run_writer (chunk_write (vocab_chunk_id v) (vocab_write_chunk v)) = (out, Ok tt) ->
  lenN out < ssize_limit -> out = d ++ ext ->
  run_reader load_vocab d = Ok v' \/ run_reader (load_vocab_of (vocab_chunk_id v)) d = Ok v' ->
  same_vocab v v' \/ cut_vocab v v'.
Proof. exact vocab_file_truncated. Qed.
Print Assumptions C06_vocab_partial.
(* norms can only be missing at the end *)
Theorem C06_norms_partial : forall h1 h2 n out d ext n',
  norms_wf n ->
  run_writer (chunk_write CNdNorms (norms_write_chunk h1 n)) = (out, Ok tt) ->
  lenN out < ssize_limit -> out = d ++ ext ->
  run_reader (load_norms h2) d = Ok n' -> exists r, nm_vals n = nm_vals n' ++ r.
Proof. exact norms_file_truncated. Qed.
Print Assumptions C06_norms_partial.

(* C07 *)
Theorem C07_loaded_consistent : forall h t mmap d e,
  lenN d < ssize_limit -> run_reader (load_finalfusion h t mmap) d = Ok e -> consistent e.
Proof. exact loaded_consistent. Qed.
Print Assumptions C07_loaded_consistent.
Example C07_sample :
  lenN d_explicit < ssize_limit
  /\ exists e, run_reader (load_finalfusion Big s_toml false) d_explicit = Ok e.
Proof. exact explicit_loads. Qed.

(* C08 *)
Theorem C08_storage : forall d s,
  run_reader (load_storage Little true) d = Ok s ->
  run_reader (load_storage Little false) d = Ok s.
Proof. exact load_storage_mmap_read. Qed.
Print Assumptions C08_storage.
Theorem C08_embeddings : forall t d e,
  run_reader (load_finalfusion Little t true) d = Ok e ->
  run_reader (load_finalfusion Little t false) d = Ok e.
Proof. exact load_finalfusion_mmap_read. Qed.
Print Assumptions C08_embeddings.
Theorem C08_written : forall h1 t e out,
  built_embeddings e -> has_ngrams (em_vocab e) -> toml_roundtrips t (em_metadata e) ->
  run_writer (em_write h1 t e) = (out, Ok tt) -> lenN out < ssize_limit ->
  exists e', run_reader (load_finalfusion Little t true) out = Ok e'
    /\ run_reader (load_finalfusion Little t false) out = Ok e' /\ same_embeddings e e'.
Proof. exact mmap_written. Qed.
Print Assumptions C08_written.
Theorem C08_big_storage : forall d,
  is_ok (run_reader (load_storage Big true) d) = false
  /\ (is_ok (run_reader (load_storage Big false) d) = true ->
      run_reader (load_storage Big true) d = Err NotImplementedError).
Proof. exact load_storage_mmap_big. Qed.
Print Assumptions C08_big_storage.
Theorem C08_big_embeddings : forall t d,
  is_ok (run_reader (load_finalfusion Big t true) d) = false
  /\ (is_ok (run_reader (load_finalfusion Big t false) d) = true ->
      run_reader (load_finalfusion Big t true) d = Err NotImplementedError).
Proof. exact load_finalfusion_mmap_big. Qed.
Print Assumptions C08_big_embeddings.
Example C08_sample : meets_C01 Little Little true e_fasttext
  /\ is_ok (run_reader (load_storage Little true) d_bucket) = true
  /\ is_ok (run_reader (load_storage Big false) d_bucket) = true.
Proof. exact mmap_sample. Qed.

(* C09 *)
Theorem C09_storage : forall h1 h2 s1 s2 p,
  storage_wf s1 -> storage_wf s2 -> native_storage s1 = native_storage s2 ->
  storage_write_chunk h1 s1 p = storage_write_chunk h2 s2 p.
Proof. exact storage_order. Qed.
Print Assumptions C09_storage.
Theorem C09_norms : forall h1 h2 n1 n2 p,
  norms_wf n1 -> norms_wf n2 -> nm_vals n1 = nm_vals n2 ->
  norms_write_chunk h1 n1 p = norms_write_chunk h2 n2 p.
Proof. exact norms_order. Qed.
Print Assumptions C09_norms.
Theorem C09_embeddings : forall h1 h2 t e1 e2 p,
  built_embeddings e1 -> built_embeddings e2 -> same_values e1 e2 ->
  em_write h1 t e1 p = em_write h2 t e2 p.
Proof. exact em_order. Qed.
Print Assumptions C09_embeddings.
(* reading back with the same values on either host: C01_roundtrip, h1 and h2 arbitrary *)
Example C09_sample : exists e2, built_embeddings e2 /\ same_values e_simple e2
  /\ em_storage e2 <> em_storage e_simple.
Proof. exact other_order. Qed.

(* C10 *)
Theorem C10_first : forall ids before c body after wanted p0,
  let d := file_header ids ++ chunks_bytes before ++ chunk_bytes c body ++ after in
  ids <> [] -> lenN ids < 2 ^ 32 -> Forall (fun i => 0 <= i < 2 ^ 32)%Z ids ->
  lenN d < ssize_limit ->
  (forall x, In x before -> ~ In (fst x) wanted) -> In c wanted ->
  find_chunk wanted d p0
  = Ok (Some c, lenN (file_header ids) + lenN (chunks_bytes before) + 12).
Proof. exact find_chunk_first. Qed.
Print Assumptions C10_first.
Theorem C10_none : forall ids chunks wanted p0,
  let d := file_header ids ++ chunks_bytes chunks in
  ids <> [] -> lenN ids < 2 ^ 32 -> Forall (fun i => 0 <= i < 2 ^ 32)%Z ids ->
  lenN d < ssize_limit ->
  (forall x, In x chunks -> ~ In (fst x) wanted) ->
  find_chunk wanted d p0 = Ok (None, lenN d).
Proof. exact find_chunk_none. Qed.
Print Assumptions C10_none.
(* on every byte string the loop ends, and the model computes its result *)
Theorem C10_terminates : forall wanted d p0,
  (forall p, exists r, find_runs wanted d p r)
  /\ ((exists e, header_read_chunk d 0 = Err e /\ find_chunk wanted d p0 = Err e)
      \/ (exists ids p r, header_read_chunk d 0 = Ok (ids, p) /\ find_runs wanted d p r
                          /\ find_chunk wanted d p0 = r)).
Proof. exact find_chunk_total. Qed.
Print Assumptions C10_terminates.
Example C10_sample :
  find_chunk [CNdNorms; CQuantizedArray]
    (file_header [1; 7]%Z ++ chunks_bytes [(CSimpleVocab, [x00; x01]); (CMetadata, [])]
     ++ chunk_bytes CQuantizedArray [xff] ++ [x00]) 5
  = Ok (Some CQuantizedArray, 20 + 14 + 12 + 12).
Proof. exact find_sample. Qed.

(* C11 *)
Theorem C11_read : forall d ids p,
  lenN d < ssize_limit ->
  (header_read_chunk d 0 = Ok (ids, p)
   <-> valid_ids ids /\ p = lenN (file_header ids) /\ exists rest, d = file_header ids ++ rest).
Proof. exact header_read_spec. Qed.
Print Assumptions C11_read.
Theorem C11_written : forall ids p,
  lenN ids < 2 ^ 32 -> Forall (fun i => 0 <= i < 2 ^ 32)%Z ids ->
  header_write_chunk ids p = (file_header ids, Ok tt).
Proof. exact header_written. Qed.
Print Assumptions C11_written.
Theorem C11_reject : forall d,
  lenN d < ssize_limit ->
  (header_read_chunk d 0 = Err FormatError
   <-> forall ids rest, valid_ids ids -> d <> file_header ids ++ rest).
Proof. exact header_read_reject. Qed.
Print Assumptions C11_reject.
Theorem C11_cut : forall ids n,
  valid_ids ids -> n < lenN (file_header ids) ->
  header_read_chunk (takeN n (file_header ids)) 0 = Err FormatError.
Proof. exact header_cut. Qed.
Print Assumptions C11_cut.
Example C11_sample : valid_ids [5; 1; 2; 6]%Z
  /\ run_writer (header_write_chunk [5; 1; 2; 6]%Z) = (takeN 28 d_simple, Ok tt).
Proof. exact header_sample. Qed.

(* C12 *)
Theorem C12_ndarray : forall h a p out,
  ndarray_wf a -> ndarray_write_chunk h a p = (out, Ok tt) ->
  aligned_at p 28 out (floats_le (concat (nd_rows a))).
Proof. exact ndarray_aligned. Qed.
Print Assumptions C12_ndarray.
Theorem C12_norms : forall h n p out,
  norms_wf n -> norms_write_chunk h n p = (out, Ok tt) ->
  aligned_at p 24 out (floats_le (nm_vals n)).
Proof. exact norms_aligned. Qed.
Print Assumptions C12_norms.
(* all three float arrays of a quantized storage are aligned, since their lengths are
   multiples of four *)
Theorem C12_quantized : forall h q p out,
  qarray_wf q -> qarray_write_chunk h q p = (out, Ok tt) ->
  aligned_at p 48 out
    (floats_le (match pq_projection (qa_pq q) with Some (_, rows) => concat rows | None => [] end)
     ++ floats_le (concat (concat (pq_quantizers (qa_pq q))))
     ++ floats_le (match qa_norms q with Some (_, ns) => ns | None => [] end)
     ++ concat (qa_codes q)).
Proof. exact qarray_aligned. Qed.
Print Assumptions C12_quantized.
Theorem C12_floats : forall l, lenN (floats_le l) = 4 * lenN l.
Proof. exact floats_le_len. Qed.
(* the declared length covers padding and data, and the reader stops at the end: at any
   position in any file *)
Theorem C12_lengths : forall h1 h2 s p out d e,
  storage_wf s -> storage_write_chunk h1 s p = (out, Ok tt) -> at_pos d p out ->
  lenN d < ssize_limit ->
  12 <= lenN out
  /\ fields_at d p [fU32; fU64] [chunk_id_val (storage_chunk_id s); Z.of_N (lenN out - 12)]
  /\ storage_read_chunk h2 false (storage_chunk_id s) e d (p + 12)
     = Ok (native_storage s, p + lenN out).
Proof. exact storage_lengths. Qed.
Print Assumptions C12_lengths.
Example C12_sample :
  ndarray_wf a_32 /\ snd (ndarray_write_chunk Little a_32 3) = Ok tt
  /\ qarray_wf q_4 /\ snd (qarray_write_chunk Big q_4 1) = Ok tt
  /\ norms_wf n_3 /\ snd (norms_write_chunk Big n_3 2) = Ok tt.
Proof. exact align_sample. Qed.

(* C13.  Full statement: as C02_vocab without has_ngrams.  It is false, for every
   explicit vocabulary without n-grams. *)
Theorem C13_refuted : forall ws mn mx index ix v out,
  (forall i, index = Some i -> dict_wf i) ->
  ex_new [] mn mx index = Ok ix -> explicit_vocab_new ws ix = Ok v ->
  run_writer (chunk_write (vocab_chunk_id v) (vocab_write_chunk v)) = (out, Ok tt) ->
  lenN out < ssize_limit ->
  run_reader load_vocab out = Err ValueError /\ run_reader load_explicit_vocab out = Err ValueError.
Proof. exact explicit_empty_file. Qed.
Print Assumptions C13_refuted.
Example C13_witness : exists ix v out,
  ex_new [] 3 6 None = Ok ix /\ explicit_vocab_new [w_ab; w_ce] ix = Ok v
  /\ run_writer (chunk_write (vocab_chunk_id v) (vocab_write_chunk v)) = (out, Ok tt)
  /\ lenN out < ssize_limit.
Proof. exact empty_witness. Qed.

(* C14.  Full statement: as C14_partial without the condition on the indices.  It is
   false: negative indices are accepted. *)
Theorem C14_refuted : exists ngrams index ix,
  dict_wf index /\ ex_new ngrams 1 1 (Some index) = Ok ix
  /\ ~ covers (ex_ngrams ix) (ex_index ix) (ex_bound ix).
Proof. exact negative_index. Qed.
Print Assumptions C14_refuted.
Theorem C14_partial : forall ngrams mn mx index ix,
  (forall i, index = Some i -> dict_wf i) ->
  (forall i, index = Some i -> Forall (fun kv => 0 <= snd kv)%Z i) ->
  ex_new ngrams mn mx index = Ok ix ->
  covers (ex_ngrams ix) (ex_index ix) (ex_bound ix).
Proof. exact ex_new_covers. Qed.
Print Assumptions C14_partial.
Example C14_sample : dict_wf s_ngram_index /\ Forall (fun kv => 0 <= snd kv)%Z s_ngram_index
  /\ ex_new s_ngrams 2 3 (Some s_ngram_index) = Ok ex_s /\ ex_bound ex_s = 2%Z.
Proof. exact covers_sample. Qed.

(* C44 *)
Theorem C44_load_write_load : forall h1 h2 h3 t mm1 mm2 d e,
  toml_stable t -> load_mode h3 mm2 -> lenN d < ssize_limit ->
  run_reader (load_finalfusion h1 t mm1) d = Ok e ->
  exists out, run_writer (em_write h2 t e) = (out, Ok tt)
  /\ (lenN out < ssize_limit ->
      exists e', run_reader (load_finalfusion h3 t mm2) out = Ok e' /\ same_embeddings e e').
Proof. exact load_write_load. Qed.
Print Assumptions C44_load_write_load.
Example C44_sample : toml_stable s_toml
  /\ exists e, run_reader (load_finalfusion Little s_toml true) d_explicit = Ok e.
Proof. exact stable_sample. Qed.
