(* C63: the rows of the n-grams of a word.  Statements only; proofs are in the other files. *)
From Verif Require Import Py SpecUtf8 IO Arr Subword Vocab Storage Chunks Embeddings Spec SpecVocab SpecLookup SpecSubwords.
From Verif Require Import SubwordRows SubwordWitness Samples.

Theorem C63_subwords : forall v w b gs, built_vocab v ->
  vocab_subwords v w b = Ok gs
  <-> exists mn mx, gram_range v mn mx /\ is_ngrams (in_brackets b w) mn mx gs.
Proof. exact subwords_iff. Qed.
Print Assumptions C63_subwords.
Theorem C63_indices : forall v w b (with_ngrams : bool) l, built_vocab v -> machine_size v ->
  vocab_subword_indices v w b with_ngrams = Ok l
  <-> can_hash v w /\ exists rows, word_rows v b w rows
        /\ l = map (fun p => if with_ngrams then SwNgram (fst p) (snd p) else SwIdx (snd p)) rows.
Proof. exact indices_iff. Qed.
Print Assumptions C63_indices.
Theorem C63_unique : forall v w b, built_vocab v -> machine_size v -> subword_vocab v -> can_hash v w ->
  exists l, word_rows v b w l /\ forall l', word_rows v b w l' -> l' = l.
Proof. exact rows_exist. Qed.
Print Assumptions C63_unique.
Theorem C63_encode : forall v w b with_ngrams, built_vocab v -> subword_vocab v -> ~ can_hash v w ->
  vocab_subword_indices v w b with_ngrams = Err UnicodeEncodeError.
Proof. exact cannot_hash. Qed.
Print Assumptions C63_encode.
Theorem C63_lookup : forall v w rows, built_vocab v -> machine_size v -> ~ In w (vocab_words v) ->
  can_hash v w -> word_rows v true w rows ->
  match rows with
  | [] => vocab_idx v w = Ok None /\ vocab_getitem v w = Err KeyError
  | _ => vocab_idx v w = Ok (Some (IdxList (map snd rows))) /\ vocab_getitem v w = Ok (IdxList (map snd rows))
  end.
Proof. exact lookup_rows. Qed.
Print Assumptions C63_lookup.
Theorem C63_lookup_encode : forall v w, built_vocab v -> ~ In w (vocab_words v) -> ~ can_hash v w ->
  vocab_idx v w = Err UnicodeEncodeError /\ vocab_getitem v w = Err UnicodeEncodeError.
Proof. exact lookup_unhashable. Qed.
Print Assumptions C63_lookup_encode.
Theorem C63_simple : forall ws idx w, built_vocab (VSimple ws idx) -> ~ In w ws ->
  vocab_idx (VSimple ws idx) w = Ok None /\ vocab_getitem (VSimple ws idx) w = Err KeyError
  /\ forall b wn, vocab_subwords (VSimple ws idx) w b = Err AttributeError
     /\ vocab_subword_indices (VSimple ws idx) w b wn = Err AttributeError.
Proof. exact lookup_simple. Qed.
Print Assumptions C63_simple.
Theorem C63_embedding : forall F (o : fops F) (e : embeddings F) w rows d dn,
  built_embeddings e -> valid_codes (em_storage e) -> nonneg_index (em_vocab e) -> machine_size (em_vocab e) ->
  ~ In w (vocab_words (em_vocab e)) -> can_hash (em_vocab e) w -> word_rows (em_vocab e) true w rows -> rows <> [] ->
  exists vs s, rows_at o (em_storage e) (map snd rows) vs /\ is_sum o (N.to_nat (em_dims e)) vs s
    /\ em_getitem o e w = Ok (map (fun x => fdiv o x (fnorm o s)) s)
    /\ em_embedding o e w d = Ok (Some (map (fun x => fdiv o x (fnorm o s)) s))
    /\ (em_norms e <> None ->
        em_embedding_with_norm o e w dn = Ok (Some (map (fun x => fdiv o x (fnorm o s)) s, Some (fnorm o s)))).
Proof. exact @embedding_rows. Qed.
Print Assumptions C63_embedding.

(* brackets matter; an unknown word of each kind of vocabulary *)
Example C63_brackets : vocab_subwords v_bucket w_ce true <> vocab_subwords v_bucket w_ce false.
Proof. vm_compute. discriminate. Qed.
Example C63_sample :
  (exists rows, word_rows v_bucket true [97; 98; 99] rows /\ length rows = 6%nat)
  /\ (exists rows, word_rows v_fasttext true [97; 98; 233] rows /\ rows <> [] /\ can_hash v_fasttext [97; 98; 233])
  /\ (exists rows, word_rows v_explicit true [99; 233; 233] rows /\ rows <> [])
  /\ word_rows v_bucket true [] [].
Proof. exact rows_sample. Qed.
