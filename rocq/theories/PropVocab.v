(* C15-C23, C43: vocabularies.  Statements only; proofs are in the other files. *)
From Verif Require Import Py Utf8 IO Arr Subword Vocab Storage Chunks Embeddings Spec SpecVocab SpecLookup.
From Verif Require Import VocabFacts NgramProofs HashProofs IndexerProofs WordProofs ExplicitConv ExplicitEmb
  Samples VocabWitness.

(* C15 *)
Theorem C15_construct : forall ws r, constructs ws r ->
  (NoDup ws -> exists v, r = Ok v /\ vocab_words v = ws)
  /\ (~ NoDup ws -> r = Err AssertionError).
Proof. exact construct_iff. Qed.
Print Assumptions C15_construct.
Theorem C15_lookup : forall v, built_vocab v ->
  vocab_len v = lenN (vocab_words v)
  /\ (forall k w, nth_error (vocab_words v) k = Some w ->
        vocab_getitem v w = Ok (IdxInt (Z.of_nat k)) /\ vocab_idx v w = Ok (Some (IdxInt (Z.of_nat k))))
  /\ (forall w, vocab_contains v w = true <-> In w (vocab_words v))
  /\ (forall ws, vocab_contains_all v ws = true <-> forall w, In w ws -> In w (vocab_words v))
  /\ (forall w, ~ In w (vocab_words v) ->
        (forall r, vocab_getitem v w = Ok r -> ~ is_single r)
        /\ (forall r, vocab_idx v w = Ok (Some r) -> ~ is_single r)).
Proof. exact built_lookup. Qed.
Print Assumptions C15_lookup.

Example C15_built : built_vocab v_simple /\ built_vocab v_bucket /\ built_vocab v_fasttext /\ built_vocab v_explicit.
Proof. exact (conj v_simple_built (conj v_bucket_built (conj v_fasttext_built v_explicit_built))). Qed.
Example C15_known : vocab_getitem v_bucket w_ce = Ok (IdxInt 1) /\ vocab_contains v_bucket [97] = false.
Proof. split; reflexivity. Qed.
Example C15_duplicate : simple_vocab_new [w_ab; w_d; w_ab] = Err AssertionError.
Proof. reflexivity. Qed.

(* C16: false for explicit indexers with negative indices, true for all others *)
Theorem C16_subword_bounds : forall v item b wn l,
  built_vocab v -> nonneg_index v -> machine_size v -> vocab_subword_indices v item b wn = Ok l ->
  Forall (fun s => Z.of_N (vocab_len v) <= sw_index s < vocab_upper_bound v)%Z l.
Proof. exact subword_bounds. Qed.
Print Assumptions C16_subword_bounds.
Theorem C16_idx_bounds : forall v item r,
  built_vocab v -> nonneg_index v -> machine_size v -> vocab_idx v item = Ok (Some r) -> within v r.
Proof. exact idx_bounds. Qed.
Print Assumptions C16_idx_bounds.
Theorem C16_getitem_bounds : forall v item r,
  built_vocab v -> nonneg_index v -> machine_size v -> vocab_getitem v item = Ok r -> within v r.
Proof. exact getitem_bounds. Qed.
Print Assumptions C16_getitem_bounds.
Theorem C16_no_index_error : forall F (o : fops F) e item d,
  built_embeddings e -> nonneg_index (em_vocab e) -> machine_size (em_vocab e) ->
  valid_codes (em_storage e) ->
  (forall x, em_getitem o e item = Err x -> x = KeyError \/ x = UnicodeEncodeError)
  /\ (forall x, em_embedding o e item d = Err x -> x = UnicodeEncodeError).
Proof. exact @no_index_error. Qed.
Print Assumptions C16_no_index_error.
Theorem C16_negative_refuted : exists (v : vocab) (e : embeddings Z) i r,
  built_vocab v /\ built_embeddings e /\ em_vocab e = v
  /\ vocab_idx v [97] = Ok (Some (IdxList r)) /\ In i r /\ (i < 0)%Z
  /\ em_embedding z_ops e [97] None = Err IndexError.
Proof.
  exists v_neg, e_neg. destruct negative_index_row as (i & r & H). exists i, r.
  exact (conj v_neg_built (conj e_neg_built (conj eq_refl H))).
Qed.
Print Assumptions C16_negative_refuted.
Theorem C16_codes_refuted : exists (e : embeddings Z) w,
  built_embeddings e /\ nonneg_index (em_vocab e) /\ In w (vocab_words (em_vocab e))
  /\ em_getitem z_ops e w = Err IndexError.
Proof.
  exists e_bad_code, w_ce. destruct bad_code_row as [H N].
  exact (conj e_bad_code_built (conj N (conj (or_intror (or_introl eq_refl)) H))).
Qed.
Print Assumptions C16_codes_refuted.

Example C16_sample : built_embeddings ez_bucket /\ nonneg_index v_bucket /\ machine_size v_bucket
  /\ valid_codes (em_storage ez_bucket)
  /\ exists l, vocab_idx v_bucket [97; 98; 99] = Ok (Some (IdxList l)) /\ length l = 6%nat.
Proof.
  split; [exact ez_bucket_built|]. split; [exact I|]. split; [reflexivity|]. split; [exact ez_bucket_codes|].
  eexists. split; vm_compute; reflexivity.
Qed.

(* C17 *)
Theorem C17_ngrams : forall word mn mx b gs,
  ngrams word mn mx b = Ok gs <-> 0 < mn <= mx /\ is_ngrams (in_brackets b word) mn mx gs.
Proof. exact ngrams_spec. Qed.
Print Assumptions C17_ngrams.
Theorem C17_reject : forall word mn mx b,
  ngrams word mn mx b = Err AssertionError <-> mn = 0 \/ mx < mn.
Proof. exact ngrams_reject. Qed.
Print Assumptions C17_reject.
(* the specification determines the list *)
Theorem C17_unique : forall w mn mx gs gs', is_ngrams w mn mx gs -> is_ngrams w mn mx gs' -> gs = gs'.
Proof. exact is_ngrams_unique. Qed.
Print Assumptions C17_unique.

Example C17_sample :
  ngrams w_ce 2 3 true
  = Ok [[60; 99; 233]; [60; 99]; [99; 233; 62]; [99; 233]; [233; 62]].
Proof. reflexivity. Qed.

(* C18 *)
Theorem C18_finalfusion : forall x word off b gs,
  ff_exp x < 64 -> off < 2 ^ 63 -> ngrams word (ff_min_n x) (ff_max_n x) b = Ok gs ->
  ff_subword_indices x word off b true
  = map (fun g => SwNgram g (Z.of_N (ff_call x g) + Z.of_N off)%Z) gs
  /\ ff_subword_indices x word off b false
     = map (fun g => SwIdx (Z.of_N (ff_call x g) + Z.of_N off)%Z) gs.
Proof. exact ff_subword_spec. Qed.
Print Assumptions C18_finalfusion.
Theorem C18_fasttext : forall x word off b wn bw gs,
  0 < ft_buckets x < 2 ^ 32 -> off < 2 ^ 63 ->
  utf8_encode (in_brackets b word) = Ok bw ->
  ngrams word (ft_min_n x) (ft_max_n x) b = Ok gs ->
  exists hs, mapM (ft_call x) gs = Ok hs
  /\ ft_subword_indices x word off b wn
     = Ok (map (fun gh => sw_mk wn (fst gh) (Z.of_N (snd gh) + Z.of_N off)%Z) (combine gs hs)).
Proof. exact ft_subword_spec. Qed.
Print Assumptions C18_fasttext.
Theorem C18_fasttext_encode : forall x word off b wn e,
  utf8_encode (in_brackets b word) = Err e -> ft_subword_indices x word off b wn = Err e.
Proof. exact ft_subword_encode. Qed.
Print Assumptions C18_fasttext_encode.
Theorem C18_explicit : forall x word off b wn gs,
  ngrams word (ex_min_n x) (ex_max_n x) b = Ok gs ->
  ex_subword_indices x word off b wn
  = flat_map (fun g => match ex_call x g with
                       | Some i => [sw_mk wn g (i + Z.of_N off)%Z]
                       | None => []
                       end) gs.
Proof. exact ex_subword_spec. Qed.
Print Assumptions C18_explicit.

Example C18_sample :
  ff_subword_indices ff_1 w_ce 2 true false <> []
  /\ (exists x, utf8_encode (in_brackets true w_ce) = Ok x)
  /\ (exists l, ft_subword_indices ft_3 w_ce 1 true true = Ok l /\ length l = 3%nat)
  /\ ex_subword_indices ex_s w_ce 2 true true = [SwNgram [99; 233] 2%Z].
Proof.
  split; [vm_compute; discriminate|].
  split; [eexists; vm_compute; reflexivity|].
  split; [eexists; split; vm_compute; reflexivity|vm_compute; reflexivity].
Qed.

(* C19 *)
Theorem C19_hash : forall x g, ff_call x g = fnv1a_64 (ngram_bytes g) mod 2 ^ ff_exp x.
Proof. exact ff_call_spec. Qed.
Print Assumptions C19_hash.
Theorem C19_variants : forall buf h w, h < 2 ^ 64 -> 32 <= w ->
  fnv_64a_buf buf h = fnv_64a_buf_mul buf h /\ fnv_64a_buf_limb w buf h = fnv_64a_buf_mul buf h.
Proof. exact (fun buf h w H W => conj (buf_shift_mul buf h) (buf_limb_mul w buf h W H)). Qed.
Print Assumptions C19_variants.

(* the published FNV-1a value of "a", and a finalfusion bucket *)
Example C19_published : fnv1a_64 [x61] = 12638187200555641996.
Proof. vm_compute. reflexivity. Qed.
Example C19_sample : ff_call (FF 21 3 6) [60; 99; 233] < 2 ^ 21.
Proof. exact (ff_call_bound (FF 21 3 6) [60; 99; 233]). Qed.

(* C20 *)
Theorem C20_hash : forall x g,
  ft_call x g = match utf8_encode g with
                | Ok bs => Ok (Z.to_N (fasttext_hash bs mod Z.of_N (ft_buckets x)))
                | Err e => Err e
                end.
Proof. exact ft_call_spec. Qed.
Print Assumptions C20_hash.
Theorem C20_bound : forall x g h, 0 < ft_buckets x -> ft_call x g = Ok h -> h < ft_buckets x.
Proof. exact ft_call_bound. Qed.
Print Assumptions C20_bound.

(* a byte above 0x7f is sign-extended *)
Example C20_signed : fasttext_hash [xc3; xa9] = 1023043777%Z /\ signed_byte xc3 = (-61)%Z.
Proof. vm_compute. split; reflexivity. Qed.
Example C20_sample : exists h, ft_call (FT 2000000 3 6) [233; 62] = Ok h.
Proof. eexists. vm_compute. reflexivity. Qed.

(* C21 *)
Theorem C21_to_explicit : forall v v',
  built_vocab v -> is_bucket v -> bucket_to_explicit_vocab v = Ok v' ->
  exists ix, v' = VExplicit (vocab_words v) (vocab_index v) ix
  /\ vocab_ngram_range v = Some (ex_min_n ix, ex_max_n ix)
  /\ NoDup (ex_ngrams ix)
  /\ (forall g, In g (ex_ngrams ix) <-> word_ngram v g)
  /\ (forall g, In g (ex_ngrams ix) -> exists b i, in_bucket v g b /\ sget g (ex_index ix) = Some i)
  /\ (forall g h b c i j, sget g (ex_index ix) = Some i -> sget h (ex_index ix) = Some j ->
        in_bucket v g b -> in_bucket v h c -> (i = j <-> b = c))
  /\ (forall i, (0 <= i < vocab_upper_bound v' - Z.of_N (vocab_len v'))%Z
                <-> exists g, In g (ex_ngrams ix) /\ sget g (ex_index ix) = Some i)
  /\ ex_new (ex_ngrams ix) (Z.of_N (ex_min_n ix)) (Z.of_N (ex_max_n ix)) (Some (ex_index ix)) = Ok ix
  /\ dict_wf (ex_index ix).
Proof. exact to_explicit_spec. Qed.
Print Assumptions C21_to_explicit.
Theorem C21_built : forall v v',
  built_vocab v -> is_bucket v -> bucket_to_explicit_vocab v = Ok v' -> built_vocab v' /\ nonneg_index v'.
Proof. exact to_explicit_built. Qed.
Print Assumptions C21_built.

Example C21_sample : exists v', bucket_to_explicit_vocab v_bucket = Ok v'
  /\ vocab_upper_bound v' = 4%Z /\ exists ws i ix, v' = VExplicit ws i ix /\ length (ex_ngrams ix) = 6%nat.
Proof.
  eexists. split; [vm_compute; reflexivity|]. split; [vm_compute; reflexivity|].
  do 3 eexists. split; vm_compute; reflexivity.
Qed.

(* C22: false; to_explicit fails exactly if no word has an n-gram or, for fastText, a word
   with n-grams cannot be encoded *)
Theorem C22_refuted : exists v,
  built_vocab v /\ is_bucket v /\ bucket_to_explicit_vocab v = Err ValueError.
Proof. exact (ex_intro _ v_short short_refuted). Qed.
Print Assumptions C22_refuted.
Theorem C22_encode_refuted : exists v,
  built_vocab v /\ is_bucket v /\ bucket_to_explicit_vocab v = Err UnicodeEncodeError.
Proof. exact (ex_intro _ v_surrogate surrogate_refuted). Qed.
Print Assumptions C22_encode_refuted.
Theorem C22_possible : forall v, built_vocab v -> is_bucket v ->
  ((exists v', bucket_to_explicit_vocab v = Ok v') <-> explicit_possible v).
Proof. exact to_explicit_ok_iff. Qed.
Print Assumptions C22_possible.
Theorem C22_errors : forall v e, built_vocab v -> is_bucket v -> bucket_to_explicit_vocab v = Err e ->
  e = ValueError \/ e = UnicodeEncodeError.
Proof. exact to_explicit_err. Qed.
Print Assumptions C22_errors.
Theorem C22_embeddings : forall F (o : fops F) e,
  built_embeddings e -> is_bucket (em_vocab e) -> valid_codes (em_storage e) ->
  ((exists e', em_bucket_to_explicit o e = Ok e') <-> explicit_possible (em_vocab e)).
Proof. exact @conv_ok. Qed.
Print Assumptions C22_embeddings.

Example C22_sample : explicit_possible v_bucket /\ explicit_possible v_fasttext.
Proof. exact (conj bucket_possible fasttext_possible). Qed.

(* C23 *)
Theorem C23_converted : forall F (o : fops F) e e',
  built_embeddings e -> is_bucket (em_vocab e) -> em_bucket_to_explicit o e = Ok e' ->
  exists ix, converted o e e' ix.
Proof. exact @conv_spec. Qed.
Print Assumptions C23_converted.
Theorem C23_rows : forall F (e : embeddings F), built_embeddings e ->
  vocab_upper_bound (em_vocab e) = Z.of_nat (storage_rows (em_storage e)).
Proof. exact @rows_bound. Qed.
Print Assumptions C23_rows.
Theorem C23_known_word : forall F (o : fops F) e e' ix w d dn,
  built_embeddings e -> is_bucket (em_vocab e) -> converted o e e' ix ->
  In w (vocab_words (em_vocab e)) ->
  em_embedding o e' w d = em_embedding o e w d
  /\ em_getitem o e' w = em_getitem o e w
  /\ em_embedding_with_norm o e' w dn = em_embedding_with_norm o e w dn.
Proof. exact @conv_known_word. Qed.
Print Assumptions C23_known_word.
Theorem C23_all_known : forall F (o : fops F) e e' ix w d dn gs,
  built_embeddings e -> is_bucket (em_vocab e) -> machine_size (em_vocab e) -> converted o e e' ix ->
  ~ In w (vocab_words (em_vocab e)) -> ngrams w (ex_min_n ix) (ex_max_n ix) true = Ok gs ->
  gs <> [] -> (forall g, In g gs -> In g (ex_ngrams ix)) ->
  em_embedding o e' w d = em_embedding o e w d
  /\ em_getitem o e' w = em_getitem o e w
  /\ em_embedding_with_norm o e' w dn = em_embedding_with_norm o e w dn.
Proof. exact @conv_all_known. Qed.
Print Assumptions C23_all_known.
Theorem C23_some_known : forall F (o : fops F) e e' ix w d gs,
  built_embeddings e -> is_bucket (em_vocab e) -> machine_size (em_vocab e) -> converted o e e' ix ->
  ~ In w (vocab_words (em_vocab e)) -> ngrams w (ex_min_n ix) (ex_max_n ix) true = Ok gs ->
  let known := filter (known_gram ix) gs in
  (known = [] -> em_embedding o e' w d = Ok d)
  /\ (forall bs, known <> [] -> Forall2 (in_bucket (em_vocab e)) known bs ->
        em_embedding o e' w d = (r <- bucket_average o e bs ;; Ok (Some (fst r)))).
Proof. exact @conv_unknown_word. Qed.
Print Assumptions C23_some_known.

(* "abc" is unknown and has a known n-gram, "" has no known n-gram *)
Example C23_sample : built_embeddings ez_bucket /\ is_bucket (em_vocab ez_bucket)
  /\ em_bucket_to_explicit z_ops ez_bucket = Ok ez_explicit
  /\ (exists gs, ngrams [97; 98; 99] 3 6 true = Ok gs /\ filter (known_gram ez_ix) gs = [[60; 97; 98]])
  /\ em_embedding z_ops ez_explicit [97; 98; 99] None <> Ok None
  /\ em_embedding z_ops ez_explicit [] None = Ok None.
Proof.
  split; [exact ez_bucket_built|]. split; [exact I|]. split; [exact ez_explicit_ok|].
  split; [eexists; split; vm_compute; reflexivity|].
  split; vm_compute; [discriminate|reflexivity].
Qed.

(* C43 *)
Theorem C43_equality : forall v w, built_vocab v -> built_vocab w ->
  (vocab_eqb v w = true <-> vocab_words v = vocab_words w /\ same_indexer v w).
Proof. exact vocab_eqb_spec. Qed.
Print Assumptions C43_equality.
Theorem C43_equivalence :
  (forall v, built_vocab v -> vocab_eqb v v = true)
  /\ (forall v w, built_vocab v -> built_vocab w -> vocab_eqb v w = true -> vocab_eqb w v = true)
  /\ (forall u v w, built_vocab u -> built_vocab v -> built_vocab w ->
        vocab_eqb u v = true -> vocab_eqb v w = true -> vocab_eqb u w = true).
Proof. exact vocab_eqb_equiv. Qed.
Print Assumptions C43_equivalence.
Theorem C43_lookup : forall v w item, built_vocab v -> built_vocab w -> vocab_eqb v w = true ->
  vocab_idx v item = vocab_idx w item /\ vocab_getitem v item = vocab_getitem w item
  /\ (forall b wn, vocab_subword_indices v item b wn = vocab_subword_indices w item b wn)
  /\ vocab_upper_bound v = vocab_upper_bound w.
Proof. exact equal_vocabs_lookup. Qed.
Print Assumptions C43_lookup.

Example C43_sample : vocab_eqb v_explicit v_explicit = true /\ vocab_eqb v_bucket v_explicit = false
  /\ vocab_eqb v_bucket (VBucket (vocab_words v_bucket) (vocab_index v_bucket) (FF 2 3 6)) = false.
Proof. vm_compute. repeat split. Qed.
