(* Two embeddings cannot be told apart by queries.  Nothing in this file is used by the model. *)
From Verif Require Import Py Utf8 IO Arr Subword Vocab Storage Chunks Embeddings.

Record same_answers {F} (o : fops F) (e e' : embeddings F) : Prop := {
  (* vocabulary *)
  sa_words : vocab_words (em_vocab e') = vocab_words (em_vocab e);
  sa_len : vocab_len (em_vocab e') = vocab_len (em_vocab e);
  sa_upper_bound : vocab_upper_bound (em_vocab e') = vocab_upper_bound (em_vocab e);
  sa_contains : forall w, vocab_contains (em_vocab e') w = vocab_contains (em_vocab e) w;
  sa_idx : forall w, vocab_idx (em_vocab e') w = vocab_idx (em_vocab e) w;
  sa_vocab_getitem : forall w, vocab_getitem (em_vocab e') w = vocab_getitem (em_vocab e) w;
  sa_subwords : forall w b, vocab_subwords (em_vocab e') w b = vocab_subwords (em_vocab e) w b;
  sa_subword_indices : forall w b n,
    vocab_subword_indices (em_vocab e') w b n = vocab_subword_indices (em_vocab e) w b n;
  (* shape and metadata *)
  sa_dims : em_dims e' = em_dims e;
  sa_shape : storage_shape (em_storage e') = storage_shape (em_storage e);
  sa_metadata : em_metadata e' = em_metadata e;
  (* lookup *)
  sa_row : forall i, storage_get o (em_storage e') i = storage_get o (em_storage e) i;
  sa_getitem : forall w, em_getitem o e' w = em_getitem o e w;
  sa_embedding : forall w d, em_embedding o e' w d = em_embedding o e w d;
  sa_embedding_with_norm : forall w d, em_embedding_with_norm o e' w d = em_embedding_with_norm o e w d;
  sa_iter : em_iter o e' = em_iter o e;
  (* similarity, whatever argpartition and heappush do *)
  sa_embedding_similarity : forall ap hp query k skip,
    em_embedding_similarity o ap hp e' query k skip = em_embedding_similarity o ap hp e query k skip;
  sa_word_similarity : forall ap hp w k,
    em_word_similarity o ap hp e' w k = em_word_similarity o ap hp e w k;
  sa_analogy : forall ap hp a b c k skip,
    em_analogy o ap hp e' a b c k skip = em_analogy o ap hp e a b c k skip }.
