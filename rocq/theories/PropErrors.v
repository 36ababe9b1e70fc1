(* C64: what the loaders raise.  Statements only; proofs are in the other files. *)
From Verif Require Import Py IO Arr Vocab Storage Chunks Embeddings Compat Spec SpecErrors.
From Verif Require Import ErrorProofs ErrorWitness.

Theorem C64_finalfusion : forall h t mmap d x,
  run_reader (load_finalfusion h t mmap) d = Err x ->
  In x finalfusion_errors \/ toml_error t x \/ mmap_error h mmap x.
Proof. exact errors_finalfusion. Qed.
Print Assumptions C64_finalfusion.
Theorem C64_finalfusion_attained : forall x, In x finalfusion_errors ->
  exists d, forall h t mmap, load_mode h mmap -> run_reader (load_finalfusion h t mmap) d = Err x.
Proof. exact ff_attained. Qed.
Print Assumptions C64_finalfusion_attained.
Theorem C64_vocab : forall d x,
  run_reader load_vocab d = Err x \/ (exists c, run_reader (load_vocab_of c) d = Err x) ->
  In x vocab_errors.
Proof. exact errors_vocab. Qed.
Print Assumptions C64_vocab.
Theorem C64_vocab_attained : forall x, In x vocab_errors -> exists d, run_reader load_vocab d = Err x.
Proof. exact vocab_attained. Qed.
Print Assumptions C64_vocab_attained.
Theorem C64_storage : forall h mmap d x,
  run_reader (load_storage h mmap) d = Err x
  \/ (exists c, run_reader (load_storage_of h mmap c) d = Err x) ->
  In x storage_errors \/ mmap_error h mmap x.
Proof. exact errors_storage. Qed.
Print Assumptions C64_storage.
Theorem C64_storage_attained : forall x, In x storage_errors ->
  exists d, forall h mmap, load_mode h mmap -> run_reader (load_storage h mmap) d = Err x.
Proof. exact storage_attained. Qed.
Print Assumptions C64_storage_attained.
Example C64_mmap : run_reader (load_storage Big true) (f_head ++ f_chunk 2 0) = Err NotImplementedError.
Proof. exact mmap_attained. Qed.
Theorem C64_norms : forall h d x, run_reader (load_norms h) d = Err x -> In x norms_errors.
Proof. exact errors_norms. Qed.
Print Assumptions C64_norms.
Theorem C64_norms_attained : forall x, In x norms_errors ->
  exists d, forall h, run_reader (load_norms h) d = Err x.
Proof. exact norms_attained. Qed.
Print Assumptions C64_norms_attained.
Theorem C64_metadata : forall t d x, run_reader (load_metadata t) d = Err x ->
  In x metadata_errors \/ toml_error t x.
Proof. exact errors_metadata. Qed.
Print Assumptions C64_metadata.
Theorem C64_metadata_attained : forall x, In x metadata_errors ->
  exists d, forall t, run_reader (load_metadata t) d = Err x.
Proof. exact metadata_attained. Qed.
Print Assumptions C64_metadata_attained.
Example C64_toml : forall x, exists t,
  run_reader (load_metadata t) (f_head ++ f_chunk 5 0) = Err x /\ toml_error t x.
Proof. exact toml_attained. Qed.
Theorem C64_word2vec : forall F (o : fops F) h c lossy d x,
  run_reader (load_word2vec o h c lossy) d = Err x -> In x word2vec_errors.
Proof. exact @errors_word2vec. Qed.
Print Assumptions C64_word2vec.
Theorem C64_word2vec_attained : forall x, In x word2vec_errors ->
  exists d, forall F (o : fops F) h c lossy, run_reader (load_word2vec o h c lossy) d = Err x.
Proof. exact word2vec_attained. Qed.
Print Assumptions C64_word2vec_attained.
Theorem C64_text : forall F (o : fops F) parse lossy d x,
  load_text o parse lossy d = Err x -> In x text_errors \/ (exists s, parse s = Err x).
Proof. exact @errors_text. Qed.
Print Assumptions C64_text.
Theorem C64_text_attained : forall x, In x text_errors ->
  exists d, forall F (o : fops F) parse, load_text o parse false d = Err x.
Proof. exact text_attained. Qed.
Print Assumptions C64_text_attained.
Theorem C64_text_dims : forall F (o : fops F) parse lossy d x,
  load_text_dims o parse lossy d = Err x ->
  In x text_errors \/ (exists s, parse s = Err x) \/ (x = StopIteration /\ d = []).
Proof. exact @errors_text_dims. Qed.
Print Assumptions C64_text_dims.
Theorem C64_text_dims_attained : forall x, In x (StopIteration :: text_errors) ->
  exists d, forall F (o : fops F) parse, load_text_dims o parse false d = Err x.
Proof. exact text_dims_attained. Qed.
Print Assumptions C64_text_dims_attained.
Theorem C64_fasttext : forall F (o : fops F) h c lossy d x,
  run_reader (load_fasttext o h c lossy) d = Err x -> In x fasttext_errors.
Proof. exact @errors_fasttext. Qed.
Print Assumptions C64_fasttext.
Theorem C64_fasttext_attained : forall x, In x fasttext_errors ->
  exists d, forall F (o : fops F) h c, run_reader (load_fasttext o h c false) d = Err x.
Proof. exact fasttext_attained. Qed.
Print Assumptions C64_fasttext_attained.
