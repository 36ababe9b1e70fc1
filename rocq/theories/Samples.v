(* Concrete values used to show that the hypotheses of the theorems can be met and as
   witnesses of refutations. *)
From Coq Require Import Lia.
From Verif Require Import Py Utf8 IO Arr Subword Vocab Storage Chunks Embeddings Spec.

Definition fl (a b c d : byte) : f32 := F32 a b c d.
Definition f1 := fl x00 x00 x80 x3f.   (* 1.0 *)
Definition f2 := fl x00 x00 x00 x40.   (* 2.0 *)
Definition f3 := fl x00 x00 x40 x40.   (* 3.0 *)
Definition fq := fl x01 xff x7e x3f.

(* "ab", "cé", "d" *)
Definition w_ab : str := [97; 98].
Definition w_ce : str := [99; 233].
Definition w_d : str := [100].

Definition get {A} (a : A) (r : result A) : A := match r with Ok a => a | Err _ => a end.

(* a toml library that knows one document *)
Definition s_meta : metadata := [([110], MInt 7); ([115], MStr [233; 97])].
Definition s_toml_text : str := [110; 61; 55; 10; 115; 61; 34; 233; 97; 34].
Definition s_toml : toml_lib :=
  Toml (fun _ => Ok s_toml_text)
       (fun s => if str_eqb s s_toml_text then Ok s_meta else Err OracleError).

Definition v_simple : vocab := get (VSimple [] []) (simple_vocab_new [w_ab; w_ce; w_d]).
Definition ff_1 : ff_indexer := FF 1 3 6.
Definition v_bucket : vocab := get (VSimple [] []) (bucket_vocab_new [w_ab; w_ce] ff_1).
Definition ft_3 : ft_indexer := FT 3 3 4.
Definition v_fasttext : vocab := get (VSimple [] []) (fasttext_vocab_new [w_ce] ft_3).
(* n-grams "<ab" and "ce" share index 0, "ab>" has index 1 *)
Definition s_ngrams : list str := [[60; 97; 98]; [97; 98; 62]; [99; 233]].
Definition s_ngram_index : dict str Z :=
  [([99; 233], 0%Z); ([97; 98; 62], 1%Z); ([60; 97; 98], 0%Z)].
Definition ex_s : ex_indexer := get (EX [] [] 0 0 0) (ex_new s_ngrams 2 3 (Some s_ngram_index)).
Definition v_explicit : vocab := get (VSimple [] []) (explicit_vocab_new [w_ab; w_ce] ex_s).

Lemma v_simple_built : built_vocab v_simple.
Proof. eapply BuiltSimple with (ws := [w_ab; w_ce; w_d]). reflexivity. Qed.
Lemma v_bucket_built : built_vocab v_bucket.
Proof. eapply BuiltBucket with (ws := [w_ab; w_ce]) (e := 1%Z) (mn := 3%Z) (mx := 6%Z); reflexivity. Qed.
Lemma v_fasttext_built : built_vocab v_fasttext.
Proof. eapply BuiltFastText with (ws := [w_ce]) (b := 3%Z) (mn := 3%Z) (mx := 4%Z); reflexivity. Qed.
Lemma s_ngram_index_wf : dict_wf s_ngram_index.
Proof.
  unfold dict_wf, s_ngram_index. cbn [map fst].
  repeat (constructor; [simpl; intuition congruence|]). constructor.
Qed.
Lemma v_explicit_built : built_vocab v_explicit.
Proof.
  eapply BuiltExplicit with (ws := [w_ab; w_ce]) (ngrams := s_ngrams) (mn := 2%Z) (mx := 3%Z)
    (index := Some s_ngram_index); try reflexivity.
  intros i [= <-]. apply s_ngram_index_wf.
Qed.

(* 3 x 2 and 4 x 2 matrices, one of them big endian *)
Definition a_32 : ndarray f32 := NdA BoBig 2 [[f1; f2]; [f3; fq]; [fq; f1]].
Definition a_42 : ndarray f32 := NdA BoNative 2 [[f1; f2]; [f3; fq]; [fq; f1]; [f2; f3]].
(* 2 quantizers with 2 centroids of length 1, projection, norms; 4 rows *)
Definition q_4 : qarray f32 :=
  QA (PQ BoBig 2 1 [[[f1]; [f2]]; [[f3]; [fq]]] (Some (BoLittle, [[f1; f2]; [f3; f1]])))
     2 [[x00; x01]; [x01; x01]; [x00; x00]; [x01; x00]] (Some (BoNative, [f1; f2; f3; fq])).

Ltac wf := repeat first [discriminate | reflexivity | constructor].
Lemma a_32_wf : storage_wf (SNd a_32).
Proof. simpl. wf. Qed.
Lemma a_42_wf : storage_wf (SNd a_42).
Proof. simpl. wf. Qed.
Lemma q_4_wf : storage_wf (SQuant q_4).
Proof. simpl. unfold qarray_wf, pq_wf. simpl. wf. Qed.

Definition n_3 : norms f32 := Norms BoBig [f1; f2; fq].
Definition n_2 : norms f32 := Norms BoNative [f3; fq].
Definition n_1 : norms f32 := Norms BoLittle [f2].

Definition e_simple : embeddings f32 := Emb (SNd a_32) v_simple (Some n_3) (Some s_meta).
Definition e_bucket : embeddings f32 := Emb (SQuant q_4) v_bucket (Some n_2) None.
Definition e_fasttext : embeddings f32 := Emb (SNd a_42) v_fasttext None (Some s_meta).
Definition e_explicit : embeddings f32 := Emb (SNd a_42) v_explicit (Some n_2) (Some s_meta).

Lemma norms_some (n m : norms f32) : bo_wf (nm_bo n) -> Some n = Some m -> norms_wf m.
Proof. now intros H [= <-]. Qed.
Lemma e_simple_built : built_embeddings e_simple.
Proof.
  split; [apply a_32_wf|]. split; [apply v_simple_built|]. split; [|reflexivity].
  intros n. apply norms_some. discriminate.
Qed.
Lemma e_bucket_built : built_embeddings e_bucket.
Proof.
  split; [apply q_4_wf|]. split; [apply v_bucket_built|]. split; [|reflexivity].
  intros n. apply norms_some. discriminate.
Qed.
Lemma e_fasttext_built : built_embeddings e_fasttext.
Proof.
  split; [apply a_42_wf|]. split; [apply v_fasttext_built|]. split; [|reflexivity]. easy.
Qed.
Lemma e_explicit_built : built_embeddings e_explicit.
Proof.
  split; [apply a_42_wf|]. split; [apply v_explicit_built|]. split; [|reflexivity].
  intros n. apply norms_some. discriminate.
Qed.

Lemma s_toml_roundtrips : toml_roundtrips s_toml (Some s_meta).
Proof. intros m s [= <-] [= <-]. reflexivity. Qed.
Lemma s_toml_none : toml_roundtrips s_toml None.
Proof. easy. Qed.

(* the files written for the samples *)
Definition file_of (w : writer) : bytes := fst (run_writer w).
Definition d_simple := file_of (em_write Little s_toml e_simple).
Definition d_bucket := file_of (em_write Big s_toml e_bucket).
Definition d_fasttext := file_of (em_write Little s_toml e_fasttext).
Definition d_explicit := file_of (em_write Little s_toml e_explicit).
