(* Concrete files: non-vacuity of the theorems about files and witnesses of refutations,
   and a few corollaries in the shape the property file wants. *)
From Coq Require Import Lia.
From Verif Require Import Py PyProofs Utf8 Utf8Proofs IO IOProofs Arr Subword Vocab VocabProofs
  Storage StorageProofs Chunks Embeddings Spec ReaderProofs EmbeddingsProofs FindProofs
  LoaderProofs ExtendProofs TruncProofs WriteProofs HeaderProofs VocabFacts Samples.

(* all hypotheses of C01 hold for this value *)
Definition meets_C01 (h1 h2 : endian) (mmap : bool) (e : embeddings f32) : Prop :=
  built_embeddings e /\ has_ngrams (em_vocab e) /\ toml_roundtrips s_toml (em_metadata e)
  /\ load_mode h2 mmap
  /\ exists out, run_writer (em_write h1 s_toml e) = (out, Ok tt) /\ lenN out < ssize_limit.

Ltac written := eexists; split; [vm_compute; reflexivity|reflexivity].
Lemma meets_C01_simple : meets_C01 Little Big false e_simple.
Proof.
  split; [apply e_simple_built|]. split; [easy|]. split; [apply s_toml_roundtrips|].
  split; [now left|]. written.
Qed.
Lemma meets_C01_bucket : meets_C01 Big Little true e_bucket.
Proof.
  split; [apply e_bucket_built|]. split; [easy|]. split; [apply s_toml_none|].
  split; [now right|]. written.
Qed.
Lemma meets_C01_fasttext : meets_C01 Little Little true e_fasttext.
Proof.
  split; [apply e_fasttext_built|]. split; [easy|]. split; [apply s_toml_roundtrips|].
  split; [now right|]. written.
Qed.
Lemma meets_C01_explicit : meets_C01 Big Big false e_explicit.
Proof.
  split; [apply e_explicit_built|]. split; [easy|]. split; [apply s_toml_roundtrips|].
  split; [now left|]. written.
Qed.

Definition chunk_written (c : chunk_id) (w : writer) : Prop :=
  exists out, run_writer (chunk_write c w) = (out, Ok tt) /\ lenN out < ssize_limit.
Lemma chunks_written :
  chunk_written (vocab_chunk_id v_explicit) (vocab_write_chunk v_explicit)
  /\ chunk_written (vocab_chunk_id v_fasttext) (vocab_write_chunk v_fasttext)
  /\ chunk_written CQuantizedArray (storage_write_chunk Big (SQuant q_4))
  /\ chunk_written CNdNorms (norms_write_chunk Big n_3)
  /\ chunk_written CMetadata (metadata_write_chunk s_toml s_meta).
Proof. repeat split; written. Qed.

Lemma explicit_load_fails : exists e out,
  built_embeddings e /\ has_ngrams (em_vocab e) /\ toml_roundtrips s_toml (em_metadata e)
  /\ run_writer (em_write Little s_toml e) = (out, Ok tt) /\ lenN out < ssize_limit
  /\ (exists n, em_norms e = Some n)
  /\ run_reader (load_storage Little false) out = Err ValueError
  /\ run_reader (load_norms Little) out = Err ValueError.
Proof.
  exists e_explicit, d_explicit. split; [apply e_explicit_built|]. split; [easy|].
  split; [apply s_toml_roundtrips|].
  split; [vm_compute; reflexivity|]. split; [vm_compute; reflexivity|].
  split; [eexists; reflexivity|]. split; vm_compute; reflexivity.
Qed.

Lemma cut_before_norms : exists e out d ext e',
  built_embeddings e /\ has_ngrams (em_vocab e) /\ toml_roundtrips s_toml (em_metadata e)
  /\ run_writer (em_write Little s_toml e) = (out, Ok tt) /\ lenN out < ssize_limit
  /\ out = d ++ ext
  /\ run_reader (load_finalfusion Little s_toml false) d = Ok e' /\ ~ same_embeddings e e'.
Proof.
  exists e_simple, d_simple, (takeN 144 d_simple), (dropN 144 d_simple).
  eexists. split; [apply e_simple_built|]. split; [easy|]. split; [apply s_toml_roundtrips|].
  split; [vm_compute; reflexivity|]. split; [vm_compute; reflexivity|].
  split; [vm_compute; reflexivity|]. split; [vm_compute; reflexivity|].
  intros (_ & _ & H & _). discriminate H.
Qed.

Lemma cut_vocab_loads : exists v out d ext v',
  built_vocab v /\ has_ngrams v
  /\ run_writer (chunk_write (vocab_chunk_id v) (vocab_write_chunk v)) = (out, Ok tt)
  /\ lenN out < ssize_limit /\ out = d ++ ext
  /\ run_reader load_vocab d = Ok v' /\ run_reader (load_vocab_of (vocab_chunk_id v)) d = Ok v'
  /\ ~ same_vocab v v'.
Proof.
  set (out := file_of (chunk_write CBucketSubwordVocab (vocab_write_chunk v_bucket))).
  exists v_bucket, out, (takeN (lenN out - 2) out), (dropN (lenN out - 2) out).
  eexists. split; [apply v_bucket_built|]. split; [easy|].
  split; [vm_compute; reflexivity|]. split; [vm_compute; reflexivity|].
  split; [vm_compute; reflexivity|]. split; [vm_compute; reflexivity|].
  split; [vm_compute; reflexivity|].
  intros H. inversion H.
Qed.

Lemma cut_norms_loads : exists n out d ext n',
  norms_wf n
  /\ run_writer (chunk_write CNdNorms (norms_write_chunk Little n)) = (out, Ok tt)
  /\ lenN out < ssize_limit /\ out = d ++ ext
  /\ run_reader (load_norms Little) d = Ok n' /\ nm_vals n' <> nm_vals n.
Proof.
  set (out := file_of (chunk_write CNdNorms (norms_write_chunk Little n_3))).
  exists n_3, out, (takeN (lenN out - 5) out), (dropN (lenN out - 5) out).
  eexists. split; [discriminate|].
  split; [vm_compute; reflexivity|]. split; [vm_compute; reflexivity|].
  split; [vm_compute; reflexivity|]. split; [vm_compute; reflexivity|]. discriminate.
Qed.

Lemma loaded_consistent h t mmap d e :
  lenN d < ssize_limit -> run_reader (load_finalfusion h t mmap) d = Ok e -> consistent e.
Proof.
  intros L H. apply load_finalfusion_inv in H as (B & _ & _ & N & _); [|easy].
  now apply built_consistent.
Qed.
Lemma explicit_loads :
  lenN d_explicit < ssize_limit
  /\ exists e, run_reader (load_finalfusion Big s_toml false) d_explicit = Ok e.
Proof. split; [vm_compute; reflexivity|]. eexists. vm_compute. reflexivity. Qed.

Lemma mmap_written h1 t e out :
  built_embeddings e -> has_ngrams (em_vocab e) -> toml_roundtrips t (em_metadata e) ->
  run_writer (em_write h1 t e) = (out, Ok tt) -> lenN out < ssize_limit ->
  exists e', run_reader (load_finalfusion Little t true) out = Ok e'
    /\ run_reader (load_finalfusion Little t false) out = Ok e' /\ same_embeddings e e'.
Proof.
  intros B G T H L.
  destruct (em_roundtrip h1 Little t true e out B G T (or_intror eq_refl) H L) as (e' & R & S).
  exists e'. split; [easy|]. split; [|easy]. now apply load_finalfusion_mmap_read.
Qed.
Lemma mmap_sample : meets_C01 Little Little true e_fasttext
  /\ is_ok (run_reader (load_storage Little true) d_bucket) = true
  /\ is_ok (run_reader (load_storage Big false) d_bucket) = true.
Proof. split; [apply meets_C01_fasttext|]. split; vm_compute; reflexivity. Qed.

Lemma other_order : exists e2, built_embeddings e2 /\ same_values e_simple e2
  /\ em_storage e2 <> em_storage e_simple.
Proof.
  exists (Emb (SNd (NdA BoNative 2 (nd_rows a_32))) v_simple
            (Some (Norms BoLittle (nm_vals n_3))) (Some s_meta)).
  split; [|split; [easy|discriminate]].
  split; [simpl; wf|]. split; [apply v_simple_built|]. split; [|reflexivity].
  intros n. apply norms_some. discriminate.
Qed.

Lemma find_chunk_total wanted d p0 :
  (forall p, exists r, find_runs wanted d p r)
  /\ ((exists e, header_read_chunk d 0 = Err e /\ find_chunk wanted d p0 = Err e)
      \/ (exists ids p r, header_read_chunk d 0 = Ok (ids, p) /\ find_runs wanted d p r
                          /\ find_chunk wanted d p0 = r)).
Proof. split; [apply find_runs_total|apply find_chunk_spec]. Qed.
Lemma find_sample :
  find_chunk [CNdNorms; CQuantizedArray]
    (file_header [1; 7]%Z ++ chunks_bytes [(CSimpleVocab, [x00; x01]); (CMetadata, [])]
     ++ chunk_bytes CQuantizedArray [xff] ++ [x00]) 5
  = Ok (Some CQuantizedArray, 20 + 14 + 12 + 12).
Proof. vm_compute. reflexivity. Qed.

Lemma header_written ids p :
  lenN ids < 2 ^ 32 -> Forall (fun i => 0 <= i < 2 ^ 32)%Z ids ->
  header_write_chunk ids p = (file_header ids, Ok tt).
Proof. intros. now apply header_bytes. Qed.
Lemma header_sample : valid_ids [5; 1; 2; 6]%Z
  /\ run_writer (header_write_chunk [5; 1; 2; 6]%Z) = (takeN 28 d_simple, Ok tt).
Proof.
  split; [|vm_compute; reflexivity]. split; [discriminate|]. split; [reflexivity|].
  repeat (constructor; [lia|]). constructor.
Qed.

Lemma storage_lengths h1 h2 s p out d e :
  storage_wf s -> storage_write_chunk h1 s p = (out, Ok tt) -> at_pos d p out ->
  lenN d < ssize_limit ->
  12 <= lenN out
  /\ fields_at d p [fU32; fU64] [chunk_id_val (storage_chunk_id s); Z.of_N (lenN out - 12)]
  /\ storage_read_chunk h2 false (storage_chunk_id s) e d (p + 12)
     = Ok (native_storage s, p + lenN out).
Proof.
  intros W H A L. destruct (storage_roundtrip _ _ _ _ _ W H A L) as (L12 & F & R1 & _).
  split; [easy|]. split; [easy|]. apply R1.
Qed.
Lemma align_sample :
  ndarray_wf a_32 /\ snd (ndarray_write_chunk Little a_32 3) = Ok tt
  /\ qarray_wf q_4 /\ snd (qarray_write_chunk Big q_4 1) = Ok tt
  /\ norms_wf n_3 /\ snd (norms_write_chunk Big n_3 2) = Ok tt.
Proof.
  split; [apply a_32_wf|]. split; [reflexivity|]. split; [apply q_4_wf|].
  split; [reflexivity|]. split; [discriminate|reflexivity].
Qed.

Lemma empty_witness : exists ix v out,
  ex_new [] 3 6 None = Ok ix /\ explicit_vocab_new [w_ab; w_ce] ix = Ok v
  /\ run_writer (chunk_write (vocab_chunk_id v) (vocab_write_chunk v)) = (out, Ok tt)
  /\ lenN out < ssize_limit.
Proof. repeat eexists; vm_compute; reflexivity. Qed.

Lemma negative_index : exists ngrams index ix,
  dict_wf index /\ ex_new ngrams 1 1 (Some index) = Ok ix
  /\ ~ covers (ex_ngrams ix) (ex_index ix) (ex_bound ix).
Proof.
  exists [[97]; [98]], [([97], (-1)%Z); ([98], 1%Z)]. eexists.
  split; [|split; [vm_compute; reflexivity|]].
  - repeat (constructor; [simpl; intuition congruence|]). constructor.
  - intros (_ & _ & H). simpl in H. destruct (H 0%Z) as [H0 _].
    destruct H0 as [g Hg]; [lia|]. revert Hg. unfold sget. simpl.
    destruct (str_eqb g [97]); [easy|]. now destruct (str_eqb g [98]).
Qed.
Lemma covers_sample : dict_wf s_ngram_index /\ Forall (fun kv => 0 <= snd kv)%Z s_ngram_index
  /\ ex_new s_ngrams 2 3 (Some s_ngram_index) = Ok ex_s /\ ex_bound ex_s = 2%Z.
Proof.
  split; [apply s_ngram_index_wf|]. split; [|split; vm_compute; reflexivity].
  repeat (constructor; [simpl; lia|]). constructor.
Qed.

Lemma stable_sample : toml_stable s_toml
  /\ exists e, run_reader (load_finalfusion Little s_toml true) d_explicit = Ok e.
Proof.
  split.
  - intros s m H. simpl in *. destruct (str_eqb s s_toml_text) eqn:E; [|easy].
    injection H as <-. exists s_toml_text. eexists. split; [easy|].
    split; [vm_compute; reflexivity|]. split; [vm_compute; reflexivity|reflexivity].
  - eexists. vm_compute. reflexivity.
Qed.
