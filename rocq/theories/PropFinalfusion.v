(* C61, C62: exactly which files load.  Statements only; proofs are in the other files. *)
From Verif Require Import Py IO Arr Subword Vocab Storage Chunks Embeddings Spec SpecFinalfusion.
From Verif Require Import FfLoad FfChunks Samples FfWitness.
Local Open Scope N_scope.

(* C61: whole files *)
Theorem C61_loads : forall h t mmap d e, load_mode h mmap -> lenN d + 4 < ssize_limit ->
  run_reader (load_finalfusion h t mmap) d = Ok e <-> ff_file t mmap d e.
Proof. exact load_iff. Qed.
Print Assumptions C61_loads.
(* the description is unambiguous *)
Theorem C61_unambiguous : forall t mmap d e1 e2, lenN d + 4 < ssize_limit ->
  ff_file t mmap d e1 -> ff_file t mmap d e2 -> e1 = e2.
Proof. exact ff_unique. Qed.
Print Assumptions C61_unambiguous.
(* what is written is of this form, with complete padding *)
Theorem C61_written : forall h t e out,
  built_embeddings e -> has_ngrams (em_vocab e) -> toml_roundtrips t (em_metadata e) ->
  run_writer (em_write h t e) = (out, Ok tt) -> lenN out + 4 < ssize_limit ->
  exists e', ff_file t true out e' /\ same_embeddings e e'.
Proof. exact ff_written. Qed.
Print Assumptions C61_written.
Example C61_odd : forall t mmap, ff_file t mmap d_odd e_odd.
Proof. exact odd_file. Qed.
Example C61_odd_loads : forall t,
  run_reader (load_finalfusion Little t true) d_odd = Ok e_odd /\ lenN d_odd + 4 < ssize_limit.
Proof. exact odd_loads. Qed.
Example C61_cut : forall t, ff_file t false d_cut e_cut /\ forall e, ~ ff_file t true d_cut e.
Proof. exact cut_file. Qed.

(* C62: single chunks *)
Theorem C62_vocab : forall d v, lenN d < ssize_limit ->
  run_reader load_vocab d = Ok v <-> ff_vocab_file [1; 7; 8; 3] d v.
Proof. exact load_vocab_iff. Qed.
Print Assumptions C62_vocab.
Theorem C62_vocab_kinds : forall d v, lenN d < ssize_limit ->
  (run_reader load_simple_vocab d = Ok v <-> ff_vocab_file [1] d v)
  /\ (run_reader load_finalfusion_bucket_vocab d = Ok v <-> ff_vocab_file [3] d v)
  /\ (run_reader load_fasttext_vocab d = Ok v <-> ff_vocab_file [7] d v)
  /\ (run_reader load_explicit_vocab d = Ok v <-> ff_vocab_file [8] d v).
Proof. exact kinds_vocab. Qed.
Print Assumptions C62_vocab_kinds.
Theorem C62_storage : forall h mmap d s, load_mode h mmap -> lenN d + 4 < ssize_limit ->
  run_reader (load_storage h mmap) d = Ok s <-> ff_storage_file [2; 4] mmap d s.
Proof. exact load_storage_iff. Qed.
Print Assumptions C62_storage.
Theorem C62_storage_kinds : forall h mmap d s, load_mode h mmap -> lenN d + 4 < ssize_limit ->
  (run_reader (load_ndarray h mmap) d = Ok s <-> ff_storage_file [2] mmap d s)
  /\ (run_reader (load_quantized_array h mmap) d = Ok s <-> ff_storage_file [4] mmap d s).
Proof. exact kinds_storage. Qed.
Print Assumptions C62_storage_kinds.
Theorem C62_norms : forall h d n, lenN d + 4 < ssize_limit ->
  run_reader (load_norms h) d = Ok n <-> ff_norms_file d n.
Proof. exact load_norms_iff. Qed.
Print Assumptions C62_norms.
Theorem C62_metadata : forall t d m, lenN d < ssize_limit ->
  run_reader (load_metadata t) d = Ok m <-> ff_metadata_file t d m.
Proof. exact load_metadata_iff. Qed.
Print Assumptions C62_metadata.
Example C62_cut_words : ff_vocab_file [1; 7; 8; 3] d_words
  (VSimple [[97]; [97; 97]] [([97], 0%Z); ([97; 97], 1%Z)]).
Proof. exact words_file. Qed.
Example C62_samples :
  is_ok (run_reader load_explicit_vocab d_explicit) = true
  /\ is_ok (run_reader (load_quantized_array Little true) d_bucket) = true
  /\ is_ok (run_reader (load_norms Big) d_bucket) = true
  /\ is_ok (run_reader (load_metadata s_toml) d_fasttext) = true
  /\ lenN d_explicit + 4 < ssize_limit /\ lenN d_bucket + 4 < ssize_limit /\ lenN d_fasttext + 4 < ssize_limit.
Proof. exact kinds_files. Qed.
