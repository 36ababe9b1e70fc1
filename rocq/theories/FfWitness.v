(* Concrete finalfusion files. *)
From Coq Require Import Lia.
From Verif Require Import Py PyProofs Utf8 Utf8More SpecUtf8 IO IOProofs Arr Subword Vocab Storage Chunks Embeddings
  EmbeddingsProofs Spec SpecFinalfusion FfParse FfVocab FfLoad FfChunks Samples FileWitness.
Local Open Scope N_scope.
Local Open Scope list_scope.

Lemma ff_unique t mm d e1 e2 : lenN d + 4 < ssize_limit ->
  ff_file t mm d e1 -> ff_file t mm d e2 -> e1 = e2.
Proof.
  intros L H1 H2.
  apply (load_iff Little t mm d e1) in H1; [|now right|easy].
  apply (load_iff Little t mm d e2) in H2; [|now right|easy].
  rewrite H1 in H2. now apply Ok_inj in H2.
Qed.
Lemma ff_written h t e out :
  built_embeddings e -> has_ngrams (em_vocab e) -> toml_roundtrips t (em_metadata e) ->
  run_writer (em_write h t e) = (out, Ok tt) -> lenN out + 4 < ssize_limit ->
  exists e', ff_file t true out e' /\ same_embeddings e e'.
Proof.
  intros B N T W L. assert (M : load_mode Little true) by now right.
  assert (L' : lenN out < ssize_limit) by lia.
  destruct (em_roundtrip h Little t true e out B N T M W L') as (e' & R & S).
  exists e'. split; [|exact S]. now apply (load_iff Little t true out e').
Qed.

(* One word, a matrix of one row, one norm.  The list of chunks in the header and the lengths of
   the chunks are wrong, the padding is not zero, and something follows the norms. *)
Definition f_x : f32 := F32 x00 x01 x02 x3f.
Definition d_odd : bytes :=
  [x46; x69; x46; x75] ++ u32 0 ++ u32 1 ++ u32 77
  ++ u32 1 ++ u64 5 ++ (u64 1 ++ u32 1 ++ [x61])
  ++ u32 2 ++ u64 123456789 ++ (u64 1 ++ u32 1 ++ u32 10) ++ [xff; xfe; xfd] ++ floats_le [f_x]
  ++ u32 6 ++ u64 0 ++ u64 1 ++ u32 10 ++ [x01; x02; x03; x04] ++ floats_le [f_x] ++ [xaa; xbb].
Definition e_odd : embeddings f32 :=
  Emb (SNd (NdA BoNative 1 [[f_x]])) (VSimple [[97]] [([97], 0%Z)]) (Some (Norms BoNative [f_x])) None.
Lemma utf8_a : utf8_of [97] [x61].
Proof. apply decode_iff. reflexivity. Qed.
Lemma odd_file t mm : ff_file t mm d_odd e_odd.
Proof.
  exists [77], [], 1, 5, (u64 1 ++ u32 1 ++ [x61]), 2, 123456789, (u64 1 ++ u32 1 ++ u32 10), [xff; xfe; xfd],
    (floats_le [f_x]), (u32 6 ++ u64 0 ++ u64 1 ++ u32 10 ++ [x01; x02; x03; x04] ++ floats_le [f_x] ++ [xaa; xbb]).
  cbv zeta. split; [reflexivity|]. split; [easy|]. split; [now constructor|]. split; [constructor|].
  split; [easy|]. split.
  { apply (FfSimple ff_words [[97]]); [repeat constructor; easy|easy|].
    exists [u32 1 ++ [x61]]. split; [|reflexivity]. repeat constructor. exists [x61]. split; [apply utf8_a|easy]. }
  split; [easy|]. split; [apply (FfArray 1 [[f_x]]); try easy; now repeat constructor|].
  split; [now left|]. split; [easy|].
  split; [|split; [easy|intros n [= <-]; easy]].
  apply (FfNorms _ 0 1 [x01; x02; x03; x04] [f_x] [xaa; xbb]); try easy; now left.
Qed.
Lemma odd_loads t : run_reader (load_finalfusion Little t true) d_odd = Ok e_odd
  /\ lenN d_odd + 4 < ssize_limit.
Proof. split; [|easy]. apply (load_iff Little t true); [now right|easy|apply odd_file]. Qed.

(* No words, no rows, and the padding of the storage is missing. *)
Definition d_cut : bytes :=
  [x46; x69; x46; x75] ++ u32 0 ++ u32 1 ++ u32 1 ++ u32 1 ++ u64 8 ++ u64 0
  ++ u32 2 ++ u64 0 ++ (u64 0 ++ u32 3 ++ u32 10).
Definition e_cut : embeddings f32 := Emb (SNd (NdA BoNative 3 [])) (VSimple [] []) None None.
Lemma cut_file t : ff_file t false d_cut e_cut /\ forall e, ~ ff_file t true d_cut e.
Proof.
  split.
  - exists [1], [], 1, 8, (u64 0), 2, 0, (u64 0 ++ u32 3 ++ u32 10), [], [], [].
    cbv zeta. split; [reflexivity|]. split; [easy|]. split; [now constructor|]. split; [constructor|].
    split; [easy|]. split.
    { apply (FfSimple ff_words [] []); [constructor|easy|]. now exists []. }
    split; [easy|]. split; [now apply (FfArray 3 [])|]. split; [now right|]. split; [easy|]. split; [constructor|easy].
  - intros e H. apply (load_iff Little t true) in H; [|now right|easy]. vm_compute in H. discriminate H.
Qed.

(* A vocabulary at the end of a file: the last word is cut. *)
Definition d_words : bytes :=
  [x46; x69; x46; x75] ++ u32 0 ++ u32 1 ++ u32 1
  ++ (u32 5 ++ u64 2 ++ [x00; x00])
  ++ u32 1 ++ u64 0 ++ (u64 2 ++ u32 1 ++ [x61] ++ u32 9 ++ [x61; x61]).
Lemma words_file : ff_vocab_file [1; 7; 8; 3] d_words (VSimple [[97]; [97; 97]] [([97], 0%Z); ([97; 97], 1%Z)]).
Proof.
  exists 1, 0, ([x46; x69; x46; x75] ++ u32 0 ++ u32 1 ++ u32 1 ++ (u32 5 ++ u64 2 ++ [x00; x00])),
    (u64 2 ++ u32 1 ++ [x61] ++ u32 9 ++ [x61; x61]), []. split.
  - exists [1], [(5, [x00; x00])]. split; [reflexivity|]. split; [reflexivity|]. split; [easy|].
    split; [now constructor|]. split; [|split; [now left|easy]]. constructor; [|constructor]. split; [easy|].
    intros [E|[E|[E|[E|[]]]]]; discriminate E.
  - apply (FfSimple (ff_words_before []) [[97]; [97; 97]]).
    + constructor; [intros [E|[]]; discriminate E|]. constructor; [easy|constructor].
    + easy.
    + right. split; [easy|]. exists [[97]], [97; 97], (u32 1 ++ [x61]), 9, [x61; x61]. split; [easy|]. split.
      { exists [u32 1 ++ [x61]]. split; [|reflexivity]. repeat constructor. exists [x61]. split; [apply utf8_a|easy]. }
      split; [apply decode_iff; reflexivity|]. split; [easy|reflexivity].
Qed.
Lemma words_loads : run_reader load_vocab d_words = Ok (VSimple [[97]; [97; 97]] [([97], 0%Z); ([97; 97], 1%Z)]).
Proof. apply load_vocab_iff; [easy|apply words_file]. Qed.
Lemma kinds_files :
  is_ok (run_reader load_explicit_vocab d_explicit) = true
  /\ is_ok (run_reader (load_quantized_array Little true) d_bucket) = true
  /\ is_ok (run_reader (load_norms Big) d_bucket) = true
  /\ is_ok (run_reader (load_metadata s_toml) d_fasttext) = true
  /\ lenN d_explicit + 4 < ssize_limit /\ lenN d_bucket + 4 < ssize_limit /\ lenN d_fasttext + 4 < ssize_limit.
Proof. vm_compute. repeat split. Qed.

Lemma kinds_vocab d v : lenN d < ssize_limit ->
  (run_reader load_simple_vocab d = Ok v <-> ff_vocab_file [1] d v)
  /\ (run_reader load_finalfusion_bucket_vocab d = Ok v <-> ff_vocab_file [3] d v)
  /\ (run_reader load_fasttext_vocab d = Ok v <-> ff_vocab_file [7] d v)
  /\ (run_reader load_explicit_vocab d = Ok v <-> ff_vocab_file [8] d v).
Proof.
  intros L. split; [exact (load_vocab_of_iff CSimpleVocab d v L)|].
  split; [exact (load_vocab_of_iff CBucketSubwordVocab d v L)|].
  split; [exact (load_vocab_of_iff CFastTextSubwordVocab d v L)|exact (load_vocab_of_iff CExplicitSubwordVocab d v L)].
Qed.
Lemma kinds_storage h mm d s : load_mode h mm -> lenN d + 4 < ssize_limit ->
  (run_reader (load_ndarray h mm) d = Ok s <-> ff_storage_file [2] mm d s)
  /\ (run_reader (load_quantized_array h mm) d = Ok s <-> ff_storage_file [4] mm d s).
Proof. intros M L. split; [apply (load_storage_of_iff h mm CNdArray d s M L)|apply (load_storage_of_iff h mm CQuantizedArray d s M L)]. Qed.
