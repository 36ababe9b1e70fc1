(* Concrete vocabularies and embeddings for the theorems about vocabularies. *)
From Coq Require Import Lia.
From Verif Require Import Py Utf8 IO Arr Subword Vocab Storage Chunks Embeddings Spec SpecVocab SpecLookup Samples.

(* integers as numbers *)
Definition z_ops : fops Z :=
  FOps Z 0%Z Z.add Z.sub Z.mul Z.div (fun z => z) Z.leb
    (fun a b => fold_right Z.add 0%Z (map (fun p => fst p * snd p)%Z (combine a b)))
    (fun a => fold_right Z.add 0%Z (map Z.abs a)).

(* 2 words, 2 buckets; quantized rows *)
Definition zq : qarray Z :=
  QA (PQ BoNative 2 1 [[[1]; [2]]; [[3]; [5]]] None)%Z 2
     [[x00; x01]; [x01; x01]; [x00; x00]; [x01; x00]] (Some (BoNative, [1; 2; 3; 4]%Z)).
Definition ez_bucket : embeddings Z := Emb (SQuant zq) v_bucket (Some (Norms BoNative [7; 8]%Z)) None.
Lemma ez_bucket_built : built_embeddings ez_bucket.
Proof.
  split; [simpl; unfold qarray_wf, pq_wf; simpl; wf|]. split; [apply v_bucket_built|]. split; [|reflexivity].
  intros n [= <-]. easy.
Qed.
Lemma ez_bucket_codes : valid_codes (em_storage ez_bucket).
Proof. simpl. wf. Qed.
(* the converted embeddings and their indexer *)
Definition ez_explicit : embeddings Z := get ez_bucket (em_bucket_to_explicit z_ops ez_bucket).
Lemma ez_explicit_ok : em_bucket_to_explicit z_ops ez_bucket = Ok ez_explicit.
Proof. vm_compute. reflexivity. Qed.
Definition ez_ix : ex_indexer := match em_vocab ez_explicit with VExplicit _ _ ix => ix | _ => EX [] [] 0 0 0 end.
(* "ce" is unknown, "abab" too; the n-grams of "ab" are known *)

(* an explicit vocabulary with a negative index *)
Definition neg_index : dict str Z := [([60; 97], (-5)%Z); ([97; 62], 1%Z)].
Definition neg_ix : ex_indexer := get (EX [] [] 0 0 0) (ex_new [[60; 97]; [97; 62]] 2 2 (Some neg_index)).
Definition v_neg : vocab := get (VSimple [] []) (explicit_vocab_new [[98]] neg_ix).
Lemma v_neg_built : built_vocab v_neg.
Proof.
  eapply BuiltExplicit with (ws := [[98]]) (ngrams := [[60; 97]; [97; 62]]) (mn := 2%Z) (mx := 2%Z)
    (index := Some neg_index); try reflexivity.
  intros i [= <-]. unfold dict_wf, neg_index. cbn [map fst]. wf; simpl; intuition congruence.
Qed.
Definition e_neg : embeddings Z := Emb (SNd (NdA BoNative 1 [[1]; [2]; [3]]%Z)) v_neg None None.
Lemma e_neg_built : built_embeddings e_neg.
Proof.
  split; [simpl; wf|]. split; [apply v_neg_built|]. split; [|reflexivity]. easy.
Qed.

Lemma negative_index_row : exists i r,
  vocab_idx v_neg [97] = Ok (Some (IdxList r)) /\ In i r /\ (i < 0)%Z
  /\ em_embedding z_ops e_neg [97] None = Err IndexError.
Proof. exists (-4)%Z. eexists. split; [vm_compute; reflexivity|]. split; [simpl; tauto|]. easy. Qed.

(* a quantized matrix with a code that is not the number of a centroid *)
Definition zq_bad : qarray Z := QA (PQ BoNative 2 1 [[[1]; [2]]]%Z None) 1 [[x00]; [x07]; [x01]] None.
Definition e_bad_code : embeddings Z := Emb (SQuant zq_bad) v_simple None None.
Lemma e_bad_code_built : built_embeddings e_bad_code.
Proof.
  split; [simpl; unfold qarray_wf, pq_wf; simpl; wf|]. split; [apply v_simple_built|]. split; [|reflexivity]. easy.
Qed.
Lemma bad_code_row : em_getitem z_ops e_bad_code w_ce = Err IndexError /\ nonneg_index (em_vocab e_bad_code).
Proof. split; [reflexivity|exact I]. Qed.

(* bucket vocabularies without n-grams *)
Definition v_short : vocab := get (VSimple [] []) (bucket_vocab_new [[97]] (FF 1 4 6)).
Lemma v_short_built : built_vocab v_short.
Proof. eapply BuiltBucket with (ws := [[97]]) (e := 1%Z) (mn := 4%Z) (mx := 6%Z); reflexivity. Qed.
(* a fastText vocabulary with a lone surrogate *)
Definition v_surrogate : vocab := get (VSimple [] []) (fasttext_vocab_new [[97; 55296]] ft_3).
Lemma v_surrogate_built : built_vocab v_surrogate.
Proof. eapply BuiltFastText with (ws := [[97; 55296]]) (b := 3%Z) (mn := 3%Z) (mx := 4%Z); reflexivity. Qed.

Lemma short_refuted : built_vocab v_short /\ is_bucket v_short /\ bucket_to_explicit_vocab v_short = Err ValueError.
Proof. split; [apply v_short_built|]. split; [exact I|]. vm_compute. reflexivity. Qed.
Lemma surrogate_refuted : built_vocab v_surrogate /\ is_bucket v_surrogate
  /\ bucket_to_explicit_vocab v_surrogate = Err UnicodeEncodeError.
Proof. split; [apply v_surrogate_built|]. split; [exact I|]. vm_compute. reflexivity. Qed.
Lemma bucket_possible : explicit_possible v_bucket.
Proof. split; [|exact I]. exists w_ab. split; [simpl; tauto|]. exists 3, 6. split; [reflexivity|]. vm_compute. easy. Qed.
Lemma fasttext_possible : explicit_possible v_fasttext.
Proof.
  split.
  - exists w_ce. split; [simpl; tauto|]. exists 3, 4. split; [reflexivity|]. vm_compute. easy.
  - intros w [<-|[]] _. eexists. vm_compute. reflexivity.
Qed.
