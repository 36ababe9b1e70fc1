(* C65: when embeddings can be written, and what a failed write leaves.  Statements only; proofs
   are in the other files. *)
From Verif Require Import Py SpecUtf8 IO Arr Vocab Storage Chunks Embeddings Compat Spec SpecWrite.
From Verif Require Import WriteFail Samples WriteWitness.
Local Open Scope N_scope.

Theorem C65_succeeds : forall h t e mb, built_embeddings e ->
  vocab_fits (em_vocab e) -> storage_fits (em_storage e) -> meta_bytes t (em_metadata e) mb ->
  (forall n, em_norms e = Some n -> lenN (nm_vals n) * 4 < 2 ^ 63) ->
  exists out, run_writer (em_write h t e) = (out, Ok tt).
Proof. exact write_succeeds. Qed.
Print Assumptions C65_succeeds.
Example C65_explicit : vocab_fits v_explicit /\ storage_fits (em_storage e_explicit)
  /\ meta_bytes s_toml (em_metadata e_explicit) (chunk_bytes CMetadata meta_body).
Proof. exact explicit_fits. Qed.
Example C65_bucket : vocab_fits v_bucket /\ storage_fits (em_storage e_bucket).
Proof. exact bucket_fits. Qed.

Theorem C65_errors : forall h t e out x, built_embeddings e ->
  run_writer (em_write h t e) = (out, Err x) ->
  x = StructError \/ x = UnicodeEncodeError
  \/ (exists m, em_metadata e = Some m /\ toml_dumps t m = Err x).
Proof. exact write_errors. Qed.
Print Assumptions C65_errors.
Theorem C65_vocab_errors : forall v out x, built_vocab v ->
  run_writer (chunk_write (vocab_chunk_id v) (vocab_write_chunk v)) = (out, Err x) ->
  x = StructError \/ x = UnicodeEncodeError.
Proof. exact vocab_write_errors. Qed.
Print Assumptions C65_vocab_errors.
Example C65_wide : built_embeddings e_wide
  /\ snd (run_writer (em_write Little s_toml e_wide)) = Err StructError.
Proof. exact (conj wide_built wide_error). Qed.

(* a word or n-gram that cannot be encoded *)
Theorem C65_words : forall h t e mb old,
  meta_bytes t (em_metadata e) mb -> unwritable (vocab_strings (em_vocab e)) ->
  em_write_file h t e old
  = (Some (file_header (chunk_numbers e) ++ mb ++ vocab_stub (em_vocab e)), Err UnicodeEncodeError).
Proof. exact word_fails. Qed.
Print Assumptions C65_words.
(* metadata that cannot be written *)
Theorem C65_metadata : forall h t e m x old, em_metadata e = Some m ->
  toml_dumps t m = Err x
  \/ (x = UnicodeEncodeError /\ exists s, toml_dumps t m = Ok s /\ ~ Forall scalar s) ->
  em_write_file h t e old = (Some (file_header (chunk_numbers e)), Err x).
Proof. exact toml_fails. Qed.
Print Assumptions C65_metadata.
(* the old contents are gone, and what is left does not load *)
Theorem C65_left : forall h t mmap (e : embeddings f32) mb stub, toml_roundtrips t (em_metadata e) ->
  (mb = [] \/ meta_bytes t (em_metadata e) mb) -> lenN stub < 12 ->
  let d := (file_header (chunk_numbers e) ++ mb ++ stub)%list in
  lenN d < ssize_limit -> run_reader (load_finalfusion h t mmap) d = Err FormatError.
Proof. exact left_over. Qed.
Print Assumptions C65_left.
Example C65_lone :
  built_embeddings e_lone /\ unwritable (vocab_strings (em_vocab e_lone))
  /\ em_write_file Little s_toml e_lone (Some [x01]) =
     (Some (file_header [5; 1; 2]%Z ++ chunk_bytes CMetadata meta_body ++ [x01; x00; x00; x00])%list,
      Err UnicodeEncodeError)
  /\ forall mmap, run_reader (load_finalfusion Little s_toml mmap)
       (file_header [5; 1; 2]%Z ++ chunk_bytes CMetadata meta_body ++ [x01; x00; x00; x00])%list = Err FormatError.
Proof. exact (conj lone_built (conj lone_unwritable lone_left)). Qed.
Example C65_lone_metadata : em_write_file Big t_lone e_simple None
  = (Some (file_header [5; 1; 2; 6]%Z), Err UnicodeEncodeError).
Proof. exact lone_meta. Qed.
