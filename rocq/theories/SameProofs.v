(* Embeddings that are the same up to byte order and the order of a dict give the same answers. *)
From Verif Require Import Py PyProofs Utf8 IO Arr Subword Vocab Storage Chunks Embeddings Spec SpecSame.
Local Open Scope N_scope.

Section Same.
  Context {F : Type} (o : fops F).

  Lemma same_subword_indices v v' w b n : same_vocab v v' ->
    vocab_subword_indices v' w b n = vocab_subword_indices v w b n.
  Proof.
    intros [| | |ws i ngrams i1 i2 bound mn mx H]; try reflexivity. cbn [vocab_subword_indices]. f_equal.
    unfold ex_subword_indices. cbn [ex_min_n ex_max_n]. destruct (_ <? _); [easy|].
    apply flat_map_ext. intros x. apply flat_map_ext. intros y. destruct (_ <=? _); [|easy].
    unfold ex_call. cbn [ex_index]. now rewrite H.
  Qed.
  Lemma same_index v v' : same_vocab v v' -> vocab_index v' = vocab_index v /\ vocab_words v' = vocab_words v.
  Proof. now intros []. Qed.
  Lemma same_idx v v' w : same_vocab v v' -> vocab_idx v' w = vocab_idx v w.
  Proof.
    intros H. destruct H as [| | |ws i ngrams i1 i2 bound mn mx H]; try reflexivity. unfold vocab_idx.
    rewrite (same_subword_indices _ _ w true false (SameExplicit ws i ngrams i1 i2 bound mn mx H)). easy.
  Qed.
  Lemma same_getitem v v' w : same_vocab v v' -> vocab_getitem v' w = vocab_getitem v w.
  Proof.
    intros H. destruct H as [| | |ws i ngrams i1 i2 bound mn mx H]; try reflexivity. unfold vocab_getitem.
    rewrite (same_subword_indices _ _ w true false (SameExplicit ws i ngrams i1 i2 bound mn mx H)). easy.
  Qed.

  Lemma native_shape (s : storage F) : storage_shape (native_storage s) = storage_shape s.
  Proof. now destruct s. Qed.
  Lemma native_pq (p : pq F) : forall code,
    pq_reconstruct o (PQ BoNative (pq_n_centroids p) (pq_sub_len p) (pq_quantizers p)
                        (match pq_projection p with None => None | Some (_, rows) => Some (BoNative, rows) end)) code
    = pq_reconstruct o p code.
  Proof. intros code. unfold pq_reconstruct. cbn. now destruct (pq_projection p) as [[]|]. Qed.
  Lemma mapM_ext {A B} (f g : A -> result B) l : (forall a, f a = g a) -> mapM f l = mapM g l.
  Proof. intros H. induction l as [|a l IH]; [easy|]. cbn [mapM]. now rewrite H, IH. Qed.

  Lemma native_get (s : storage F) i : storage_get o (native_storage s) i = storage_get o s i.
  Proof.
    destruct s as [a|q]; [easy|]. cbn. unfold qa_embedding. cbn [qa_codes qa_pq qa_norms].
    destruct (py_index (qa_codes q) i); [|easy]. cbn [bind]. rewrite native_pq.
    now destruct (qa_norms q) as [[]|].
  Qed.
  Lemma native_get_list (s : storage F) l : storage_get_list o (native_storage s) l = storage_get_list o s l.
  Proof.
    destruct s as [a|q]; [easy|]. cbn. unfold qa_embedding_list. cbn [qa_codes qa_pq qa_norms].
    destruct (mapM _ l); [|easy]. cbn [bind]. unfold pq_reconstruct_batch.
    rewrite (mapM_ext _ _ _ (native_pq (qa_pq q))).
    now destruct (qa_norms q) as [[]|].
  Qed.
  Lemma native_iter (s : storage F) : storage_iter o (native_storage s) = storage_iter o s.
  Proof.
    destruct s as [a|q]; [easy|]. cbn. unfold qa_iter. cbn [qa_codes qa_pq].
    apply mapM_ext. apply native_pq.
  Qed.

  Section Emb.
    Context (e e' : embeddings F) (SE : same_embeddings e e').

    Lemma same_dims : em_dims e' = em_dims e.
    Proof. destruct SE as (S1 & _). unfold em_dims. now rewrite S1, native_shape. Qed.
    Lemma same_at ix : em_embedding_at o e' ix = em_embedding_at o e ix.
    Proof.
      destruct SE as (S1 & _ & S3 & _). destruct ix as [i|l]; unfold em_embedding_at.
      - rewrite S1, native_get, S3. now destruct (em_norms e).
      - now rewrite S1, native_get_list, same_dims.
    Qed.
    Lemma same_em_getitem w : em_getitem o e' w = em_getitem o e w.
    Proof.
      destruct SE as (_ & S2 & _). unfold em_getitem. rewrite (same_getitem _ _ w S2).
      destruct (vocab_getitem _ _); [|easy]. cbn [bind]. now rewrite same_at.
    Qed.
    Lemma same_em_embedding w d : em_embedding o e' w d = em_embedding o e w d.
    Proof.
      destruct SE as (_ & S2 & _). unfold em_embedding. rewrite (same_idx _ _ w S2).
      destruct (vocab_idx _ _) as [[i|]|]; [|easy..]. cbn [bind]. now rewrite same_at.
    Qed.
    Lemma same_with_norm w d : em_embedding_with_norm o e' w d = em_embedding_with_norm o e w d.
    Proof.
      destruct SE as (_ & S2 & S3 & _). unfold em_embedding_with_norm. rewrite (same_idx _ _ w S2), S3.
      destruct (em_norms e); [|easy]. cbn [option_map].
      destruct (vocab_idx _ _) as [[i|]|]; [|easy..]. cbn [bind]. now rewrite same_at.
    Qed.
    Lemma same_iter : em_iter o e' = em_iter o e.
    Proof.
      destruct SE as (S1 & S2 & S3 & _). unfold em_iter. rewrite S1, native_iter, S3.
      destruct (same_index _ _ S2) as [_ ->]. now destruct (em_norms e).
    Qed.
    Lemma same_similarity ap hp query k skips : em_similarity o ap hp e' query k skips = em_similarity o ap hp e query k skips.
    Proof.
      destruct SE as (S1 & S2 & _). unfold em_similarity. destruct (same_index _ _ S2) as [I W].
      unfold vocab_len, skip_indices. rewrite S1, I, W. destruct (em_storage e) as [a|q].
      - cbn [native_storage storage_slice nd_rows nd_cols nd_bo].
        destruct (py_slice (nd_rows a) _); [|easy]. reflexivity.
      - cbn [native_storage storage_slice]. unfold qa_slice. cbn [qa_codes qa_norms].
        destruct (py_slice (qa_codes q) _); [|easy]. cbn [bind]. destruct (qa_norms q) as [[]|]; [|easy].
        now destruct (py_slice _ _).
    Qed.

    Lemma same_same_answers : same_answers o e e'.
    Proof.
      pose proof SE as (S1 & S2 & S3 & S4). destruct (same_index _ _ S2) as [I W].
      constructor; intros.
      - exact W.
      - unfold vocab_len. now rewrite I.
      - now destruct S2.
      - unfold vocab_contains. now rewrite I.
      - now apply same_idx.
      - now apply same_getitem.
      - now destruct S2.
      - now apply same_subword_indices.
      - apply same_dims.
      - now rewrite S1, native_shape.
      - exact S4.
      - now rewrite S1, native_get.
      - apply same_em_getitem.
      - apply same_em_embedding.
      - apply same_with_norm.
      - apply same_iter.
      - apply same_similarity.
      - unfold em_word_similarity. rewrite same_em_embedding. destruct (em_embedding o e w None) as [[v|]|]; [|easy..].
        cbn [bind]. now rewrite same_similarity.
      - unfold em_analogy. rewrite !same_em_embedding.
        destruct (em_embedding o e a None) as [ea|]; [|easy]. cbn [bind].
        destruct (em_embedding o e b None) as [eb|]; [|easy]. cbn [bind].
        destruct (em_embedding o e c None) as [ec|]; [|easy]. cbn [bind].
        destruct ea, eb, ec; try easy. now rewrite same_similarity.
    Qed.
  End Emb.
End Same.
