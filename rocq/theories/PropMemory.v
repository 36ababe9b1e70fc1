(* C55-C57: the memory of results, out arguments of quantized storages, the outcome of similarity
   queries.  Statements only; proofs are in the other files. *)
From Verif Require Import Py IO Arr Subword Vocab Storage Chunks Embeddings Heap
  Spec SpecVocab SpecLookup SpecHeap SpecSim.
From Verif Require Import HeapProofs AliasProofs QuantOut SimExact
  Samples VocabWitness LookupWitness MemoryWitness.
Local Open Scope N_scope.

(* C55: the vector of a known word is the row of the matrix *)
Theorem C55_view : forall F (o : fops F) (e : hembeddings F) bo c rows k w r h,
  built_vocab (he_vocab e) -> he_storage e = HNd bo c rows ->
  nth_error (vocab_words (he_vocab e)) k = Some w -> nth_error rows k = Some r ->
  (forall b n, he_norms e = Some (b, n) -> (k < length n)%nat) ->
  he_getitem o e w h = (h, Ok r) /\ (forall d, he_embedding o e w None d h = (h, Ok (Some r)))
  /\ (he_norms e <> None -> forall d, exists n, he_embedding_with_norm o e w None d h = (h, Ok (Some (r, n)))).
Proof. exact @known_view. Qed.
Print Assumptions C55_view.
(* so that writing into it changes the embeddings *)
Theorem C55_view_writes : forall F (o : fops F) (e : hembeddings F) bo c rows k w r vals h,
  built_vocab (he_vocab e) -> he_storage e = HNd bo c rows ->
  nth_error (vocab_words (he_vocab e)) k = Some w -> nth_error rows k = Some r ->
  (forall b n, he_norms e = Some (b, n) -> (k < length n)%nat) ->
  buffer h e r -> length vals = length r ->
  exists h', hassign r vals h = (h', Ok tt)
    /\ em_getitem o (he_value o h' e) w = Ok vals
    /\ storage_get o (em_storage (he_value o h' e)) (Z.of_nat k) = Ok vals.
Proof. exact @view_writes. Qed.
Print Assumptions C55_view_writes.
Theorem C55_fresh : forall F (o : fops F) (e : hembeddings F) w h h' r,
  built_vocab (he_vocab e) -> (~ In w (vocab_words (he_vocab e)) \/ exists q, he_storage e = HQuant q) ->
  (he_getitem o e w h = (h', Ok r)
   \/ (exists n d, he_embedding_with_norm o e w None d h = (h', Ok (Some (r, n)))
        /\ em_embedding o (he_value o h e) w None <> Ok None)
   \/ (exists d, he_embedding o e w None d h = (h', Ok (Some r))
        /\ em_embedding o (he_value o h e) w None <> Ok None)) ->
  NoDup r /\ Forall (fun a => (length h <= a)%nat) r.
Proof. exact @unknown_fresh. Qed.
Print Assumptions C55_fresh.
Theorem C55_fresh_writes : forall F (o : fops F) (e : hembeddings F) w h h' r vals,
  built_vocab (he_vocab e) -> in_memory h e ->
  (~ In w (vocab_words (he_vocab e)) \/ exists q, he_storage e = HQuant q) ->
  he_getitem o e w h = (h', Ok r) ->
  he_value o (fst (hassign r vals h')) e = he_value o h e.
Proof. exact @fresh_writes. Qed.
Print Assumptions C55_fresh_writes.
Example C55_sample : in_memory h_z he_z /\ built_vocab (he_vocab he_z)
  /\ nth_error (vocab_words (he_vocab he_z)) 1 = Some w_ce
  /\ he_getitem z_ops he_z w_ce h_z = (h_z, Ok [2; 3]%nat)
  /\ (exists h', hassign [2; 3]%nat [0; 0]%Z h_z = (h', Ok tt) /\ em_getitem z_ops (he_value z_ops h' he_z) w_ce = Ok [0; 0]%Z)
  /\ ~ In [97; 98; 99] (vocab_words (he_vocab he_z))
  /\ he_getitem z_ops he_z [97; 98; 99] h_z = ((h_z ++ [0; 0]%Z)%list, Ok [12; 13]%nat).
Proof.
  split; [exact he_z_memory|]. split; [exact v_bucket_built|]. split; [reflexivity|]. split; [reflexivity|].
  split; [eexists; split; reflexivity|]. split; [intros [H|[H|[]]]; discriminate H|]. vm_compute. reflexivity.
Qed.

(* C56 *)
Theorem C56_int : forall F (o : fops F) (q : qarray F) i out h v,
  qarray_wf q -> allocated h out -> NoDup out ->
  length out = N.to_nat (pq_reconstructed_len (qa_pq q)) -> may_project (qa_pq q) out ->
  qa_embedding o q i = Ok v ->
  exists h', hqa_embedding o q i out h = (h', Ok out) /\ h_read o h' out = v /\ only_changed out h h'.
Proof. exact @embedding_out. Qed.
Print Assumptions C56_int.
Theorem C56_list : forall F (o : fops F) (q : qarray F) l cols (out : list aref) h vs,
  qarray_wf q -> allocated h (concat out) -> NoDup (concat out) -> length out = length l ->
  cols = pq_reconstructed_len (qa_pq q) -> Forall (fun r => lenN r = cols) out ->
  may_project (qa_pq q) (concat out) -> qa_embedding_list o q l = Ok vs ->
  exists h', hqa_embedding_list o q l cols out h = (h', Ok out) /\ map (h_read o h') out = vs
    /\ only_changed (concat out) h h'.
Proof. exact @embedding_list_out. Qed.
Print Assumptions C56_list.
Theorem C56_slice : forall F (o : fops F) (q : qarray F) s cols (out : list aref) h vs,
  qarray_wf q -> allocated h (concat out) -> NoDup (concat out) -> length out = length vs ->
  cols = pq_reconstructed_len (qa_pq q) -> Forall (fun r => lenN r = cols) out ->
  may_project (qa_pq q) (concat out) -> qa_embedding_slice o q s = Ok vs ->
  exists h', hqa_embedding_slice o q s cols out h = (h', Ok out) /\ map (h_read o h') out = vs
    /\ only_changed (concat out) h h'.
Proof. exact @embedding_slice_out. Qed.
Print Assumptions C56_slice.
Theorem C56_shape : forall F (o : fops F) (q : qarray F) i out h code,
  py_index (qa_codes q) i = Ok code -> length out <> N.to_nat (pq_reconstructed_len (qa_pq q)) ->
  hqa_embedding o q i out h = (h, Err AssertionError).
Proof. exact @embedding_out_shape. Qed.
Print Assumptions C56_shape.
Theorem C56_list_shape : forall F (o : fops F) (q : qarray F) l cs cols (out : list aref) h,
  mapM (py_index (qa_codes q)) l = Ok cs ->
  length out <> length l \/ cols <> pq_reconstructed_len (qa_pq q) ->
  hqa_embedding_list o q l cols out h = (h, Err AssertionError).
Proof. exact @embedding_batch_shape. Qed.
Print Assumptions C56_list_shape.
Theorem C56_error : forall F (o : fops F) (q : qarray F) i out h x,
  qarray_wf q -> length out = N.to_nat (pq_reconstructed_len (qa_pq q)) ->
  qa_embedding o q i = Err x -> hqa_embedding o q i out h = (h, Err x).
Proof. exact @embedding_out_error. Qed.
Print Assumptions C56_error.
(* a buffer with gaps is rejected only after it was overwritten with the unprojected vector *)
Theorem C56_strided : forall F (o : fops F) (q : qarray F) i out h code bo proj v,
  qarray_wf q -> allocated h out -> NoDup out ->
  length out = N.to_nat (pq_reconstructed_len (qa_pq q)) ->
  pq_projection (qa_pq q) = Some (bo, proj) -> ~ consecutive out ->
  py_index (qa_codes q) i = Ok code -> pq_select (pq_quantizers (qa_pq q)) code = Ok v ->
  exists h', hqa_embedding o q i out h = (h', Err ValueError) /\ h_read o h' out = v.
Proof. exact @embedding_out_strided. Qed.
Print Assumptions C56_strided.
Example C56_sample : qarray_wf zq_proj
  /\ (allocated h_q [1; 2]%nat /\ NoDup [1; 2]%nat /\ may_project (qa_pq zq_proj) [1; 2]%nat)
  /\ qa_embedding z_ops zq_proj 3 = Ok [12; 20]%Z
  /\ hqa_embedding z_ops zq_proj 3 [1; 2]%nat h_q = ([0; 12; 20; 0]%Z, Ok [1; 2]%nat)
  /\ (allocated h_q [1; 3]%nat /\ NoDup [1; 3]%nat /\ ~ consecutive [1; 3]%nat)
  /\ hqa_embedding z_ops zq_proj 3 [1; 3]%nat h_q = ([0; 2; 0; 3]%Z, Err ValueError)
  /\ hqa_embedding z_ops zq_proj 3 [1; 2; 3]%nat h_q = (h_q, Err AssertionError)
  /\ hqa_embedding z_ops zq_proj 4 [1; 2]%nat h_q = (h_q, Err IndexError)
  /\ (allocated h_q (concat [[0; 1]; [2; 3]]%nat) /\ NoDup (concat [[0; 1]; [2; 3]]%nat)
      /\ may_project (qa_pq zq_proj) (concat [[0; 1]; [2; 3]]%nat))
  /\ hqa_embedding_list z_ops zq_proj [-1; 0]%Z 2 [[0; 1]; [2; 3]]%nat h_q
     = ([12; 20; 5; 6]%Z, Ok [[0; 1]; [2; 3]]%nat)
  /\ hqa_embedding_slice z_ops zq_proj (slice_from (-2)) 2 [[0; 1]; [2; 3]]%nat h_q
     = ([9; 12; 12; 20]%Z, Ok [[0; 1]; [2; 3]]%nat).
Proof.
  split; [exact zq_proj_wf|]. split; [exact q_out|]. split; [reflexivity|]. split; [reflexivity|].
  split; [exact q_strided|]. split; [reflexivity|]. split; [reflexivity|]. split; [reflexivity|].
  split; [exact q_rows|]. split; reflexivity.
Qed.

(* C57 *)
Theorem C57_embedding : forall F (o : fops F) argpartition heappush (e : embeddings F) a,
  built_embeddings e -> nonneg_index (em_vocab e) -> em_storage e = SNd a ->
  partitions o argpartition -> pushes heappush -> forall query k skip,
  (lenN query <> em_dims e -> em_embedding_similarity o argpartition heappush e query k skip = Err ValueError)
  /\ (lenN query = em_dims e ->
      outcome o e query k (match skip with None => [] | Some s => s end)
        (em_embedding_similarity o argpartition heappush e query k skip)).
Proof. exact @embedding_similarity_outcome. Qed.
Print Assumptions C57_embedding.
Theorem C57_word : forall F (o : fops F) argpartition heappush (e : embeddings F) a,
  built_embeddings e -> nonneg_index (em_vocab e) -> em_storage e = SNd a ->
  partitions o argpartition -> pushes heappush -> forall w query k,
  em_embedding o e w None = Ok (Some query) ->
  exists r, outcome o e query k [w] r
    /\ em_word_similarity o argpartition heappush e w k = match r with Ok l => Ok (Some l) | Err x => Err x end.
Proof. exact @word_similarity_outcome. Qed.
Print Assumptions C57_word.
Theorem C57_analogy : forall F (o : fops F) argpartition heappush (e : embeddings F) a,
  built_embeddings e -> nonneg_index (em_vocab e) -> em_storage e = SNd a ->
  partitions o argpartition -> pushes heappush -> forall w1 w2 w3 x y z k skip,
  em_embedding o e w1 None = Ok (Some x) -> em_embedding o e w2 None = Ok (Some y) ->
  em_embedding o e w3 None = Ok (Some z) ->
  exists d r, is_target o x y z d
    /\ outcome o e d k (match skip with None => [w1; w2; w3] | Some s => s end) r
    /\ em_analogy o argpartition heappush e w1 w2 w3 k skip = match r with Ok l => Ok (Some l) | Err x => Err x end.
Proof. exact @analogy_outcome. Qed.
Print Assumptions C57_analogy.
(* 3 words, one of them skipped: 2 results at most, and none for k = 0, -1, -2, -3 *)
Example C57_sample : built_embeddings e_sim /\ nonneg_index (em_vocab e_sim)
  /\ (exists a, em_storage e_sim = SNd a) /\ partitions z_ops (argsort z_ops) /\ pushes (@push Z)
  /\ em_word_similarity z_ops (argsort z_ops) push e_sim w_ce 2 = Ok (Some [([100], 8%Z); (w_ab, 3%Z)])
  /\ em_word_similarity z_ops (argsort z_ops) push e_sim w_ce 3 = Err ValueError
  /\ em_word_similarity z_ops (argsort z_ops) push e_sim w_ce 0 = Ok (Some [])
  /\ em_word_similarity z_ops (argsort z_ops) push e_sim w_ce (-3) = Ok (Some [])
  /\ em_word_similarity z_ops (argsort z_ops) push e_sim w_ce (-4) = Err ValueError.
Proof.
  split; [exact e_sim_built|]. split; [vm_compute; repeat constructor; discriminate|].
  split; [eexists; reflexivity|]. split; [apply argsort_partitions|]. split; [exact push_pushes|].
  repeat split; vm_compute; reflexivity.
Qed.
