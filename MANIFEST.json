{
 "claims": [
  {
   "property": "C01",
   "status": "proved",
   "theorems": [
    "C01_roundtrip"
   ],
   "note": "Writing and reading host and loading mode are arbitrary; explicit vocabularies need at least one n-gram (C13); toml is assumed to round trip the metadata; files below 2^63 bytes."
  },
  {
   "property": "C02",
   "status": "proved",
   "theorems": [
    "C02_vocab",
    "C02_storage",
    "C02_norms",
    "C02_metadata"
   ],
   "note": "Same hypotheses as C01."
  },
  {
   "property": "C03",
   "status": "proved",
   "theorems": [
    "C03_vocab",
    "C03_storage",
    "C03_norms",
    "C03_metadata"
   ],
   "note": ""
  },
  {
   "property": "C04",
   "status": "partial",
   "theorems": [
    "C04_refuted",
    "C03_vocab",
    "C04_metadata_partial"
   ],
   "note": "False of the code: ExplicitVocab.write_chunk declares a length that omits 8 bytes per n-gram, so load_storage and load_norms fail. C04_refuted exhibits a file; vocabulary and metadata can be loaded."
  },
  {
   "property": "C05",
   "status": "partial",
   "theorems": [
    "C05_refuted",
    "C05_partial"
   ],
   "note": "False of the code: a file cut right before the norms chunk loads without norms. C05_partial shows that this is the only possible damage."
  },
  {
   "property": "C06",
   "status": "partial",
   "theorems": [
    "C06_vocab_refuted",
    "C06_norms_refuted",
    "C06_storage",
    "C06_metadata",
    "C06_vocab_partial",
    "C06_norms_partial"
   ],
   "note": "Proved for arrays, metadata and explicit vocabularies. False for the other vocabularies (the last word may be shortened) and for norms (a prefix is returned); the damage is characterised."
  },
  {
   "property": "C07",
   "status": "proved",
   "theorems": [
    "C07_loaded_consistent"
   ],
   "note": ""
  },
  {
   "property": "C08",
   "status": "proved",
   "theorems": [
    "C08_storage",
    "C08_embeddings",
    "C08_written",
    "C08_big_storage",
    "C08_big_embeddings"
   ],
   "note": ""
  },
  {
   "property": "C09",
   "status": "proved",
   "theorems": [
    "C09_storage",
    "C09_norms",
    "C09_embeddings",
    "C01_roundtrip"
   ],
   "note": ""
  },
  {
   "property": "C10",
   "status": "proved",
   "theorems": [
    "C10_first",
    "C10_none",
    "C10_terminates"
   ],
   "note": ""
  },
  {
   "property": "C11",
   "status": "proved",
   "theorems": [
    "C11_read",
    "C11_written",
    "C11_reject",
    "C11_cut"
   ],
   "note": "A header with an empty identifier list can be written but is rejected when read."
  },
  {
   "property": "C12",
   "status": "proved",
   "theorems": [
    "C12_ndarray",
    "C12_norms",
    "C12_quantized",
    "C12_floats",
    "C12_lengths"
   ],
   "note": ""
  },
  {
   "property": "C13",
   "status": "partial",
   "theorems": [
    "C13_refuted"
   ],
   "note": "False of the code for every explicit vocabulary without n-grams: max() of an empty sequence raises ValueError in the reader."
  },
  {
   "property": "C14",
   "status": "partial",
   "theorems": [
    "C14_refuted",
    "C14_partial"
   ],
   "note": "False of the code: negative indices are accepted. Proved for non-negative indices."
  },
  {
   "property": "C15",
   "status": "proved",
   "theorems": [
    "C15_construct",
    "C15_lookup"
   ],
   "note": "all four constructors; every word list and query string"
  },
  {
   "property": "C16",
   "status": "partial",
   "theorems": [
    "C16_subword_bounds",
    "C16_idx_bounds",
    "C16_getitem_bounds",
    "C16_no_index_error",
    "C16_negative_refuted",
    "C16_codes_refuted"
   ],
   "note": "false in full: ExplicitIndexer accepts negative indices (C16_negative_refuted) and a quantized matrix may hold codes >= n_centroids (C16_codes_refuted), both end in IndexError or rows from the end. Proved for vocabularies without negative explicit indices and matrices with valid codes"
  },
  {
   "property": "C17",
   "status": "proved",
   "theorems": [
    "C17_ngrams",
    "C17_reject",
    "C17_unique"
   ],
   "note": "every string, range and bracket mode"
  },
  {
   "property": "C18",
   "status": "proved",
   "theorems": [
    "C18_finalfusion",
    "C18_fasttext",
    "C18_fasttext_encode",
    "C18_explicit"
   ],
   "note": "offsets below 2^63; for fastText words that cannot be encoded the encoding error is raised"
  },
  {
   "property": "C19",
   "status": "proved",
   "theorems": [
    "C19_hash",
    "C19_variants"
   ],
   "note": "the limb variant for unsigned long of at least 32 bits"
  },
  {
   "property": "C20",
   "status": "proved",
   "theorems": [
    "C20_hash",
    "C20_bound"
   ],
   "note": "every n-gram that can be encoded; otherwise the encoding error is raised"
  },
  {
   "property": "C21",
   "status": "proved",
   "theorems": [
    "C21_to_explicit",
    "C21_built"
   ],
   "note": "both kinds of bucket vocabularies"
  },
  {
   "property": "C22",
   "status": "partial",
   "theorems": [
    "C22_refuted",
    "C22_encode_refuted",
    "C22_possible",
    "C22_errors",
    "C22_embeddings"
   ],
   "note": "false in full: a vocabulary without n-grams raises ValueError, a fastText vocabulary with a word that cannot be encoded UnicodeEncodeError. C22_possible and C22_embeddings characterise exactly when the conversion succeeds"
  },
  {
   "property": "C23",
   "status": "proved",
   "theorems": [
    "C23_converted",
    "C23_rows",
    "C23_known_word",
    "C23_all_known",
    "C23_some_known"
   ],
   "note": "over abstract arithmetic; unknown words need at least one n-gram for C23_all_known"
  },
  {
   "property": "C24",
   "status": "partial",
   "theorems": [
    "C24_known",
    "C24_unknown",
    "C24_none",
    "C24_type_error",
    "C24_agree",
    "C24_never_raises_partial",
    "C24_never_raises_refuted"
   ],
   "note": "proved but for 'embedding never raises': a query word that cannot be encoded as UTF-8 raises UnicodeEncodeError with a fastText vocabulary (the only exception, C24_never_raises_partial). Stored codes must be valid and explicit indices not negative (see C07, C14)"
  },
  {
   "property": "C25",
   "status": "proved",
   "theorems": [
    "C25_out",
    "C25_with_norm",
    "C25_getitem",
    "C25_untouched",
    "C25_default",
    "C25_default_itself",
    "C25_with_norm_untouched",
    "C25_with_norm_default",
    "C25_only_out",
    "C25_history"
   ],
   "note": "memory model with shared cells; the buffer is 1-d, of the right length, apart from the storage, without repeated cells"
  },
  {
   "property": "C26",
   "status": "proved",
   "theorems": [
    "C26_unit"
   ],
   "note": "exact arithmetic over the reals of the standard library, whose axioms it uses"
  },
  {
   "property": "C27",
   "status": "proved",
   "theorems": [
    "C27_embedding_similarity",
    "C27_word_similarity",
    "C27_analogy"
   ],
   "note": "any arithmetic whose comparison is total and transitive on the similarities (no NaN), any argpartition and heappush meeting their contracts"
  },
  {
   "property": "C28",
   "status": "partial",
   "theorems": [
    "C28_at_most",
    "C28_too_many",
    "C28_refuted"
   ],
   "note": "at most k results proved; false: k + skipped > number of words > 0 always raises ValueError"
  },
  {
   "property": "C29",
   "status": "partial",
   "theorems": [
    "C29_always_fails",
    "C29_refuted"
   ],
   "note": "false: a quantized storage always raises AttributeError"
  },
  {
   "property": "C30",
   "status": "proved",
   "theorems": [
    "C30_analogy",
    "C30_none"
   ],
   "note": ""
  },
  {
   "property": "C31",
   "status": "proved",
   "theorems": [
    "C31_norms",
    "C31_metadata",
    "C31_history",
    "C31_last"
   ],
   "note": ""
  },
  {
   "property": "C32",
   "status": "proved",
   "theorems": [
    "C32_row",
    "C32_from_end",
    "C32_list",
    "C32_array",
    "C32_slice",
    "C32_slice_ok",
    "C32_embedding_slice"
   ],
   "note": "both storages; a step of 0 raises"
  },
  {
   "property": "C33",
   "status": "partial",
   "theorems": [
    "C33_iter_partial",
    "C33_iter_ok",
    "C33_embeddings_partial",
    "C33_quantized_norms",
    "C33_refuted"
   ],
   "note": "false for quantized storages with norms, which are ignored when iterating (C33_quantized_norms says what is returned); proved for all others"
  },
  {
   "property": "C34",
   "status": "partial",
   "theorems": [
    "C34_writes",
    "C34_round_trip",
    "C34_product_partial",
    "C34_zero_refuted"
   ],
   "note": "round trip proved over any arithmetic and any float32 codec (C34_round_trip); the product statement over the reals for non-zero rows; false for rows of zeros, which are normalised to NaN"
  },
  {
   "property": "C35",
   "status": "partial",
   "theorems": [
    "C35_refuted",
    "C35_cut_partial",
    "C35_written_partial"
   ],
   "note": "false: a file cut so that exactly one float of the last row is left still loads, the float is broadcast to the row; C35_cut_partial shows for every file that every other cut is rejected"
  },
  {
   "property": "C36",
   "status": "partial",
   "theorems": [
    "C36_writes",
    "C36_dims_round_trip",
    "C36_round_trip_partial",
    "C36_empty_refuted",
    "C36_counts_partial",
    "C36_dims_counts_partial",
    "C36_counts_refuted"
   ],
   "note": "round trip proved for any arithmetic and any str/float that round trip, but for load_text of an empty vocabulary; false: a line with a single component is accepted whatever the number of columns (all other wrong counts are rejected)"
  },
  {
   "property": "C37",
   "status": "partial",
   "theorems": [
    "C37_writes",
    "C37_reload",
    "C37_product",
    "C37_partial",
    "C37_refuted"
   ],
   "note": "vocabulary, subword rows and the product of row and norm are restored (exact arithmetic); rows and norms themselves only if the rows are unit vectors and norms are present, false otherwise"
  },
  {
   "property": "C38",
   "status": "partial",
   "theorems": [
    "C38_refuted",
    "C38_fasttext",
    "C38_header",
    "C38_partial"
   ],
   "note": "false: all writers empty the file before they check anything; C38_partial shows that no writer depends on the old contents"
  },
  {
   "property": "C39",
   "status": "partial",
   "theorems": [
    "C39_skips",
    "C39_run_partial",
    "C39_excluded_partial",
    "C39_refuted",
    "C39_malformed"
   ],
   "note": "False if --include is given without c: get_skips adds b instead of c (C39_refuted is such a run). C39_skips says exactly which words are skipped; C39_run_partial: without --include or with c among the included words a successful run prints the analogy answers with exactly the query words that are not included skipped."
  },
  {
   "property": "C40",
   "status": "partial",
   "theorems": [
    "C40_written_partial",
    "C40_exit",
    "C40_not_loaded",
    "C40_succeeds",
    "C40_refuted"
   ],
   "note": "False for --ignore_unk: words that cannot be represented are written with a row of zeros (C40_refuted). C40_written_partial: every successful run writes a file that loads to exactly the requested words with the source's embeddings (zeros for the others) and the metadata."
  },
  {
   "property": "C41",
   "status": "proved",
   "theorems": [
    "C41_encode",
    "C41_decode",
    "C41_encode_error",
    "C41_lossy",
    "C41_lossy_scalar",
    "C41_lossy_invalid",
    "C41_lossy_exact"
   ],
   "note": "lossy decoding is exactly the substitution of maximal subparts of the Unicode standard (SpecLossy.v)"
  },
  {
   "property": "C42",
   "status": "partial",
   "theorems": [
    "C42_dims",
    "C42_refuted",
    "C42_partial"
   ],
   "note": "false: float64 arrays are accepted and written as a chunk that loads as other numbers; TypeError iff not 1-dimensional; float32 arrays round trip"
  },
  {
   "property": "C43",
   "status": "proved",
   "theorems": [
    "C43_equality",
    "C43_equivalence",
    "C43_lookup"
   ],
   "note": "vocabularies accepted by their constructors"
  },
  {
   "property": "C44",
   "status": "proved",
   "theorems": [
    "C44_load_write_load"
   ],
   "note": "toml is assumed to write back what it has read."
  },
  {
   "property": "C45",
   "status": "proved",
   "theorems": [
    "C45_compat_consistent"
   ],
   "note": "consistent is spelled out in Spec.v"
  },
  {
   "property": "C46",
   "status": "proved",
   "theorems": [
    "C46_similar",
    "C46_excluded"
   ],
   "note": "word_similarity itself is C27, C28; str of a float and the decoding of the query file as UTF-8 are as said in Scripts.v"
  },
  {
   "property": "C47",
   "status": "proved",
   "theorems": [
    "C47_to_finalfusion",
    "C47_to_word2vec",
    "C47_to_textdims",
    "C47_to_text",
    "C47_to_fasttext",
    "C47_untouched"
   ],
   "note": "what the target format can represent is what C34, C36 and C37 say"
  },
  {
   "property": "C48",
   "status": "proved",
   "theorems": [
    "C48_explicit",
    "C48_untouched"
   ],
   "note": "converted is spelled out in SpecLookup.v; C23 says what it means for lookups"
  },
  {
   "property": "C49",
   "status": "proved",
   "theorems": [
    "C49_same_answers"
   ],
   "note": "same_embeddings is what C01 and C44 give for reloaded embeddings"
  },
  {
   "property": "C50",
   "status": "proved",
   "theorems": [
    "C50_word2vec",
    "C50_text",
    "C50_fasttext",
    "C50_text_again",
    "C50_text_decodes",
    "C50_word2vec_header"
   ],
   "note": "the parser of numbers must not raise UnicodeDecodeError itself"
  },
  {
   "property": "C51",
   "status": "proved",
   "theorems": [
    "C51_cut",
    "C51_written",
    "C51_negative"
   ],
   "note": "C51_negative shows that the condition on the dimensions is needed"
  },
  {
   "property": "C52",
   "status": "proved",
   "theorems": [
    "C52_only",
    "C52_any"
   ],
   "note": "the layout is spelled out in SpecFasttext.v"
  },
  {
   "property": "C53",
   "status": "proved",
   "theorems": [
    "C53_text_only",
    "C53_text_any",
    "C53_dims_only",
    "C53_dims_any",
    "C53_same",
    "C53_empty"
   ],
   "note": "the format is spelled out in SpecText.v; numbers are parsed by a parameter"
  },
  {
   "property": "C54",
   "status": "proved",
   "theorems": [
    "C54_only",
    "C54_any"
   ],
   "note": "the format is spelled out in SpecText.v"
  },
  {
   "property": "C55",
   "status": "proved",
   "theorems": [
    "C55_view",
    "C55_view_writes",
    "C55_fresh",
    "C55_fresh_writes"
   ],
   "note": "memory model of Heap.v"
  },
  {
   "property": "C56",
   "status": "proved",
   "theorems": [
    "C56_int",
    "C56_list",
    "C56_slice",
    "C56_shape",
    "C56_list_shape",
    "C56_error",
    "C56_strided"
   ],
   "note": "memory model of Heap.v; quantizers and projection in native byte order"
  },
  {
   "property": "C57",
   "status": "proved",
   "theorems": [
    "C57_embedding",
    "C57_word",
    "C57_analogy"
   ],
   "note": "array storages whose word indices are not negative; argpartition and heappush meet their contracts"
  },
  {
   "property": "C58",
   "status": "proved",
   "theorems": [
    "C58_vocab",
    "C58_ngrams",
    "C58_embeddings",
    "C58_promise",
    "C58_not_conversely"
   ],
   "note": "finite iterables"
  },
  {
   "property": "C59",
   "status": "proved",
   "theorems": [
    "C59_written",
    "C59_loaded",
    "C59_injective",
    "C59_convert",
    "C59_convert_twice"
   ],
   "note": "toml round trips the metadata; files below the size limit of signed sizes"
  },
  {
   "property": "C60",
   "status": "proved",
   "theorems": [
    "C60_accepts",
    "C60_rejects",
    "C60_usable"
   ],
   "note": ""
  },
  {
   "property": "C61",
   "status": "proved",
   "theorems": [
    "C61_loads",
    "C61_unambiguous",
    "C61_written"
   ],
   "note": "the layout is spelled out in SpecFinalfusion.v; files at least 4 bytes below the size limit of signed sizes; toml is a parameter"
  },
  {
   "property": "C62",
   "status": "proved",
   "theorems": [
    "C62_vocab",
    "C62_vocab_kinds",
    "C62_storage",
    "C62_storage_kinds",
    "C62_norms",
    "C62_metadata"
   ],
   "note": "as C61; mmap only on little endian hosts"
  },
  {
   "property": "C63",
   "status": "proved",
   "theorems": [
    "C63_subwords",
    "C63_indices",
    "C63_unique",
    "C63_encode",
    "C63_lookup",
    "C63_lookup_encode",
    "C63_simple",
    "C63_embedding"
   ],
   "note": "stated from the definitions of n-grams, hashes and UTF-8 alone (SpecSubwords.v); words fewer than 2^63; the embedding for indexers without negative indices and codes below the number of centroids"
  },
  {
   "property": "C64",
   "status": "proved",
   "theorems": [
    "C64_finalfusion",
    "C64_finalfusion_attained",
    "C64_vocab",
    "C64_vocab_attained",
    "C64_storage",
    "C64_storage_attained",
    "C64_norms",
    "C64_norms_attained",
    "C64_metadata",
    "C64_metadata_attained",
    "C64_word2vec",
    "C64_word2vec_attained",
    "C64_text",
    "C64_text_attained",
    "C64_text_dims",
    "C64_text_dims_attained",
    "C64_fasttext",
    "C64_fasttext_attained"
   ],
   "note": "toml is a parameter; memory errors, file system errors and recursion limits are not modelled"
  },
  {
   "property": "C65",
   "status": "proved",
   "theorems": [
    "C65_succeeds",
    "C65_errors",
    "C65_vocab_errors",
    "C65_words",
    "C65_metadata",
    "C65_left"
   ],
   "note": "toml is a parameter; the conditions of C65_succeeds are spelled out in SpecWrite.v; file system errors are not modelled; C65_left for files below the size limit of signed sizes"
  }
 ]
}
