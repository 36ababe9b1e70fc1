# Design: a Rocq model of finalfusion-python

The source in `/repo` (finalfusion/finalfusion-python, pinned commit) was read as text; nothing of it
was built or run.  The model lives in `rocq/theories`, is written as total Gallina functions that
follow the Python functions branch by branch, and every definition carries a comment with the file and the
lines it models.

## 1. Modelling decisions

* **Bytes and files.**  A file is a `list byte` (`Byte.byte`, so no well-formedness side conditions).
  Readers are functions on `{data; pos}` returning a value and a new position or an exception.  Reading at
  the end of a file returns fewer bytes, seeking past the end is allowed, offsets >= 2^63 raise
  `OverflowError`.  Writers map the bytes written so far to the bytes after the call *and* a result, so that a failed
  write leaves its partial output behind (crash and failed-write properties).
* **Exceptions** are values (`exn`), results are `Ok`/`Err`.
* **struct** formats are lists of field kinds; packing checks ranges (`struct.error`).
* **Strings** are lists of code points (`N`); UTF-8 encoding (rejects surrogates), strict decoding and decoding with
  `errors='replace'` (maximal subpart replacement) are modelled as executable functions.
* **dict** is an insertion-ordered association list with Python's update semantics.
* **Floats in files** are bit patterns (four bytes); arrays are lists of rows with explicit shape; the host
  byte order and the dtype byte order are parameters, `byteswap`, `tofile`, `fromfile` are modelled on
  the in-memory bytes.
* **Arithmetic** is a record of operations over an arbitrary element type.  Theorems that hold for any
  arithmetic quantify over the record; exact-arithmetic theorems instantiate it with the reals; refutations
  instantiate it with something computable.
* **Oracles** (never axioms; always universally quantified parameters): `toml.dumps/loads`, `str(float)` and string-to-float
  conversion, BLAS dot products and norms, numpy's `argpartition` (any function that meets its
  documented contract), the tie order of `heapq`.

## 2. Properties: what is modelled and how it is proved

| id | model | proof plan |
|----|-------|------------|
| C01 | all `write_chunk`/`read_chunk` functions, `Embeddings.chunks/write`, `load_finalfusion` | per-chunk lemma "reader at the start of what the writer appended returns the chunk and stops at its end", composed along the loader |
| C02 | the same plus `find_chunk` and the stand-alone loaders | C01 lemmas + C10 |
| C03 | the same | C10 + correctness of declared chunk lengths |
| C04 | `ExplicitVocab.write_chunk` | refuted by a concrete file; positive part: `load_vocab` (nothing has to be skipped but metadata) |
| C05 | loader on prefixes | extension lemma for readers: a reader that stops strictly before the end of a prefix behaves the same on the full file; strict claim refuted (cut at the norms boundary) and the exact exceptional case characterised |
| C06 | `load_vocab`, `load_norms`, `load_ndarray` on prefixes | refuted for vocab and norms by concrete files; proved for arrays |
| C07 | loader on arbitrary bytes | invariants established by the constructors called on every path |
| C08 | `mmap_chunk` | equality with `read_chunk` whenever enough bytes are present |
| C09 | `_serialize_array_as_le`, `_read_array_as_native` | element-wise involution of byte reversal |
| C10 | `find_chunk` | induction on the chunk list; termination because the position grows by >= 12 (the model function is total, with an adequate bound) |
| C11 | `Header` | struct round trip; case analysis |
| C12 | `_pad_float32` and all array writers | arithmetic modulo 4 |
| C13 | `ExplicitIndexer.__init__`, `ExplicitVocab.read_chunk` | refuted: general theorem that loading always fails |
| C14 | `ExplicitIndexer.__init__` | pigeonhole; refuted for negative indices, proved for non-negative ones |
| C15 | constructors and lookups | induction on the word list |
| C16 | `idx`, indexers | modular arithmetic |
| C17 | `ngrams` | list reasoning against a comprehension-style spec |
| C18 | three indexers | C17 + UTF-8 boundary lemma |
| C19 | `fifu_hash_ngram`, three C variants | modular arithmetic; independent spec |
| C20 | `ft_hash_ngram` | independent spec with signed bytes |
| C21, C22 | `_bucket_to_explicit` | loop invariant; C22 refuted by a vocabulary without n-grams |
| C23 | `Embeddings.bucket_to_explicit` | C21 + storage copy |
| C24 | lookup methods | case analysis against a spec written without the model's helpers |
| C25 | lookups in a heap model (arrays as objects, views) | frame property over histories |
| C26 | `_embedding` over R | algebra |
| C27 | `_similarity` | contract of argpartition + permutation reasoning |
| C28 | `_similarity` | refuted: general theorem that a large k raises |
| C29 | `_similarity` on quantized storage | refuted |
| C30 | `analogy` | case analysis |
| C31 | setters | induction over histories |
| C32 | `PQ.reconstruct`, `QuantizedArray` | list reasoning |
| C33 | `__iter__` | proved for arrays and un-normed quantized arrays, refuted otherwise |
| C34, C35 | word2vec reader/writer | induction on rows; C35 refuted by broadcasting |
| C36 | text formats | line splitting lemmas, float text oracle |
| C37 | fastText reader/writer | structural part for any arithmetic, values over R |
| C38 | file system effects of `open(..., 'wb')` | refuted; general theorem |
| C39 | `get_skips` | refuted; what it does is characterised |
| C40 | `ffp-select` | proved without `--ignore_unk`; skipping refuted |
| C41 | UTF-8 codecs | induction on bytes; `SpecLossy.v` for replacement characters |
| C42 | `Norms.__new__` | refuted |
| C43 | `__eq__` | case analysis |
| C44 | loader + writer | C07 + C01 |
| C45 | the loaders of `compat` | constructors called on every path; loop invariants for the row loops |
| C46 | `scripts/similar.py` | induction on the query lines; C27 |
| C47 | `scripts/convert.py`, `Format.load/write` | C01, C34, C36, C37 composed with C45 (what a loader returns meets the hypotheses of the round trips) |
| C48 | `scripts/bucket_to_explicit.py` | C23 + C01 |
| C49 | every query method | C01 gives equal components up to the byte order of arrays, which no query depends on |
| C50 | `lossy` in the loaders of `compat` | both loaders run in lockstep; `decode_replace` of valid input is the identity |
| C51 | `load_fasttext` on prefixes | what a reader consumes is determined by the bytes it consumed |
| C52 | `load_fasttext` | inversion of every read, and the converse, against `SpecFasttext.v` |
| C53 | `load_text`, `load_text_dims` | as C52, against `SpecText.v` |
| C54 | `load_word2vec` | as C52, against `SpecText.v` |
| C55 | lookups with memory (`Heap.v`) | evaluation of the lookup down to the cells it returns; frame lemmas |
| C56 | `QuantizedArray.embedding(out=)`, `PQ.reconstruct(out=)` with memory | simulation of the pure functions by the ones that write to cells |
| C57 | similarity queries | case analysis on the argument of `argpartition`; counting of the skipped indices |
| C58 | `__contains__`, `__iter__`, `__len__` (`Container.v`) | induction on nested iterables; constructor invariants |
| C59 | loader + writer, `scripts/convert.py` | equal embeddings write equal bytes; with C01, C44 |
| C60 | `PQ.__init__` | case analysis |
| C61 | `load_finalfusion` | parser lemmas both ways for every reader (`FfParse.v`, `FfVocab.v`, `FfStorage.v`), composed in `FfLoad.v`, against `SpecFinalfusion.v` |
| C62 | loaders of single chunks, `find_chunk` | as C61 (`FfChunks.v`) |
| C63 | `SubwordVocab.subwords`, `subword_indices`, `idx`, `[]` | C17-C20 composed against `SpecSubwords.v` |
| C64 | all loaders | compositional bound on the exceptions of every reader (`ErrorProofs.v`); one file per exception (`ErrorWitness.v`) |
| C65 | `Embeddings.write` | weakest preconditions of the writers; evaluation up to the failing string (`WriteFail.v`) |

## 3. Trusted base

* The Coq 8.16.1 kernel (type checker, guard checker, `vm_compute` used in examples and witnesses) and the
  standard library.
* That the model follows the source: the comments of the model files cite file and lines for every
  definition.  The model files are `Py`, `Utf8`, `IO`, `Arr`, `Subword`, `Vocab`, `Storage`, `Chunks`,
  `Embeddings`, `Container`, `Heap`, `PyText`, `Compat`, `Scripts`; they contain no proofs.
* That the specifications say what is meant: `Spec*.v`.
* That Python, numpy, toml and the C library behave as the language layer describes them (section 4).
* No axiom, `Variable` or `Hypothesis` outside a section is declared anywhere, no kernel check is switched off.

<!-- assumptions:begin -->
`Print Assumptions` of the 264 theorems named in `MANIFEST.json`:

* `ClassicalDedekindReals.sig_forall_dec`, `ClassicalDedekindReals.sig_not_dec`, `FunctionalExtensionality.functional_extensionality_dep` (axioms of the standard library, used by its real numbers): `C26_unit`, `C34_product_partial`, `C37_product`, `C37_partial`, `C37_refuted`.
* "Closed under the global context", i.e. no axiom at all (259 theorems): `C01_roundtrip`, `C02_vocab`, `C02_storage`, `C02_norms`, `C02_metadata`, `C03_vocab`, `C03_storage`, `C03_norms`, `C03_metadata`, `C04_refuted`, `C04_metadata_partial`, `C05_refuted`, `C05_partial`, `C06_vocab_refuted`, `C06_norms_refuted`, `C06_storage`, `C06_metadata`, `C06_vocab_partial`, `C06_norms_partial`, `C07_loaded_consistent`, `C08_storage`, `C08_embeddings`, `C08_written`, `C08_big_storage`, `C08_big_embeddings`, `C09_storage`, `C09_norms`, `C09_embeddings`, `C10_first`, `C10_none`, `C10_terminates`, `C11_read`, `C11_written`, `C11_reject`, `C11_cut`, `C12_ndarray`, `C12_norms`, `C12_quantized`, `C12_floats`, `C12_lengths`, `C13_refuted`, `C14_refuted`, `C14_partial`, `C15_construct`, `C15_lookup`, `C16_subword_bounds`, `C16_idx_bounds`, `C16_getitem_bounds`, `C16_no_index_error`, `C16_negative_refuted`, `C16_codes_refuted`, `C17_ngrams`, `C17_reject`, `C17_unique`, `C18_finalfusion`, `C18_fasttext`, `C18_fasttext_encode`, `C18_explicit`, `C19_hash`, `C19_variants`, `C20_hash`, `C20_bound`, `C21_to_explicit`, `C21_built`, `C22_refuted`, `C22_encode_refuted`, `C22_possible`, `C22_errors`, `C22_embeddings`, `C23_converted`, `C23_rows`, `C23_known_word`, `C23_all_known`, `C23_some_known`, `C24_known`, `C24_unknown`, `C24_none`, `C24_type_error`, `C24_agree`, `C24_never_raises_partial`, `C24_never_raises_refuted`, `C25_out`, `C25_with_norm`, `C25_getitem`, `C25_untouched`, `C25_default`, `C25_default_itself`, `C25_with_norm_untouched`, `C25_with_norm_default`, `C25_only_out`, `C25_history`, `C27_embedding_similarity`, `C27_word_similarity`, `C27_analogy`, `C28_at_most`, `C28_too_many`, `C28_refuted`, `C29_always_fails`, `C29_refuted`, `C30_analogy`, `C30_none`, `C31_norms`, `C31_metadata`, `C31_history`, `C31_last`, `C32_row`, `C32_from_end`, `C32_list`, `C32_array`, `C32_slice`, `C32_slice_ok`, `C32_embedding_slice`, `C33_iter_partial`, `C33_iter_ok`, `C33_embeddings_partial`, `C33_quantized_norms`, `C33_refuted`, `C34_writes`, `C34_round_trip`, `C34_zero_refuted`, `C35_refuted`, `C35_cut_partial`, `C35_written_partial`, `C36_writes`, `C36_dims_round_trip`, `C36_round_trip_partial`, `C36_empty_refuted`, `C36_counts_partial`, `C36_dims_counts_partial`, `C36_counts_refuted`, `C37_writes`, `C37_reload`, `C38_refuted`, `C38_fasttext`, `C38_header`, `C38_partial`, `C39_skips`, `C39_run_partial`, `C39_excluded_partial`, `C39_refuted`, `C39_malformed`, `C40_written_partial`, `C40_exit`, `C40_not_loaded`, `C40_succeeds`, `C40_refuted`, `C41_encode`, `C41_decode`, `C41_encode_error`, `C41_lossy`, `C41_lossy_scalar`, `C41_lossy_invalid`, `C41_lossy_exact`, `C42_dims`, `C42_refuted`, `C42_partial`, `C43_equality`, `C43_equivalence`, `C43_lookup`, `C44_load_write_load`, `C45_compat_consistent`, `C46_similar`, `C46_excluded`, `C47_to_finalfusion`, `C47_to_word2vec`, `C47_to_textdims`, `C47_to_text`, `C47_to_fasttext`, `C47_untouched`, `C48_explicit`, `C48_untouched`, `C49_same_answers`, `C50_word2vec`, `C50_text`, `C50_fasttext`, `C50_text_again`, `C50_text_decodes`, `C50_word2vec_header`, `C51_cut`, `C51_written`, `C51_negative`, `C52_only`, `C52_any`, `C53_text_only`, `C53_text_any`, `C53_dims_only`, `C53_dims_any`, `C53_same`, `C53_empty`, `C54_only`, `C54_any`, `C55_view`, `C55_view_writes`, `C55_fresh`, `C55_fresh_writes`, `C56_int`, `C56_list`, `C56_slice`, `C56_shape`, `C56_list_shape`, `C56_error`, `C56_strided`, `C57_embedding`, `C57_word`, `C57_analogy`, `C58_vocab`, `C58_ngrams`, `C58_embeddings`, `C58_promise`, `C58_not_conversely`, `C59_written`, `C59_loaded`, `C59_injective`, `C59_convert`, `C59_convert_twice`, `C60_accepts`, `C60_rejects`, `C60_usable`, `C61_loads`, `C61_unambiguous`, `C61_written`, `C62_vocab`, `C62_vocab_kinds`, `C62_storage`, `C62_storage_kinds`, `C62_norms`, `C62_metadata`, `C63_subwords`, `C63_indices`, `C63_unique`, `C63_encode`, `C63_lookup`, `C63_lookup_encode`, `C63_simple`, `C63_embedding`, `C64_finalfusion`, `C64_finalfusion_attained`, `C64_vocab`, `C64_vocab_attained`, `C64_storage`, `C64_storage_attained`, `C64_norms`, `C64_norms_attained`, `C64_metadata`, `C64_metadata_attained`, `C64_word2vec`, `C64_word2vec_attained`, `C64_text`, `C64_text_attained`, `C64_text_dims`, `C64_text_dims_attained`, `C64_fasttext`, `C64_fasttext_attained`, `C65_succeeds`, `C65_errors`, `C65_vocab_errors`, `C65_words`, `C65_metadata`, `C65_left`.
<!-- assumptions:end -->

The values that come from outside the code are arguments of the model functions, and the theorems quantify
over them.  What the theorems assume of them is written out as a hypothesis:

| parameter | stands for | assumed |
|-----------|------------|---------|
| `host : endian` | `sys.byteorder` | nothing |
| `toml_lib` | `toml.dumps`, `toml.loads` | round trips: `loads (dumps m) = m` for the metadata written (`toml_roundtrips`); writing what was read: dumps succeeds and round trips on loaded metadata (`toml_stable`); elsewhere nothing |
| `o : fops F` | float arithmetic, dot products, norms | nothing, except where the theorem instantiates it with the reals |
| `codec F` | float32 bit patterns in a file to array elements | `dec (enc x) = x` where values are read back |
| `argpartition` | `ndarray.argpartition` | a permutation of the indices with no element after `kth` smaller than one before it |
| `heappush` | `heapq.heappush` | the result is a permutation of the heap plus the new element |
| `show`, `parse` | `str(float32)`, string to float32 | text round trips: `parse (show x) = x`, `show x` has no white space and is not empty |
| `list_of_set` | iteration order of a `set` | a permutation of the distinct elements |

## 4. What is modelled and what is not

Modelled, in terms of behaviour on all arguments of the types in the signatures:

* `io.py`: everything.
* `vocab/*.py`: everything but `__repr__`.  The operand of `in` is a string, a finite iterable (of any depth) or
  another object (`Container.v`); iterables that raise or contain themselves are left out.
* `subword/*.pyx`: n-grams, the three indexers, both hash functions, `__eq__`, `__contains__`, `__getitem__`.
  `src/fnv/hash_64a.c`: the three variants of `fnv_64a_buf`.  Not: `__repr__`, pickling (generated by Cython),
  `None` instead of a word (the TypeError branch), words of 2^32 bytes or more in the `unsigned int` offsets.
* `storage/*.py`: everything for keys that are ints, lists of ints or slices.  Not: keys that are n-dimensional arrays or
  tuples.  The `out` argument of `QuantizedArray.embedding` and `PQ.reconstruct` is modelled in `Heap.v`.
* `norms.py`, `metadata.py`: everything; `toml` is a parameter.
* `embeddings.py`: everything but `__repr__` and `origin`.  Lookups exist twice: as pure functions
  (`Embeddings.v`) and with a memory of array cells in which views and `out` arguments can alias (`Heap.v`).
* `_util.py`, `compat/*.py`: everything, including the effect on the target file of a call that fails.
* `scripts/*.py`: `main` of the five scripts after argument parsing, the text printed, the exit status and the
  files written.  Not: `argparse` (`add_*_args`).

Simplifications of the language layer (each repeated in the comment of the definition it concerns):

* Exceptions carry no message.  Where Python raises `OverflowError` or `MemoryError` depending on the platform the model
  picks one of them.
* `np.memmap` of zero bytes is accepted, as the empty array is in `read_chunk` (some versions of numpy raise if the
  offset is a multiple of the page size).
* `PQ.reconstruct` with a projection and quantizers of foreign byte order gives the product (`dot` raises because
  the array it writes to is not native).
* Memory and disk never run out; files are regular files that nobody else changes; `open` succeeds.
* Words have fewer than 2^32 bytes where the format stores 32-bit lengths (packing a longer one is `struct.error`
  in the model too).
* Text files are decoded as a whole (Python decodes chunk by chunk, so an undecodable byte behind the last line
  read may go unnoticed).
* `int()` of a string knows the ASCII digits only and has no 4300 digit limit.
* Dot products and norms are functions of the values: numpy may give results that differ in the last
  bit depending on alignment.
* `row[:] = parts` converts all strings before the shapes are compared.
* Converting a file onto itself with `--mmap` is not modelled.

## 5. Findings

Behaviour of the code that contradicts its documentation or what a user would expect, all established by a
theorem or a witness (`*_refuted` in the property files):

* `ExplicitVocab.write_chunk` declares a chunk length that is eight bytes per n-gram too small.  Stand-alone loaders that have to
  skip the chunk (`load_storage`, `load_norms`) fail on the files it writes (C04).
* An explicit vocabulary without n-grams can be built and written but not read (`max()` of nothing), and `to_explicit` raises
  `ValueError` on a vocabulary without n-grams (C13, C22).
* `ExplicitIndexer` accepts negative indices (C14).
* A finalfusion file cut exactly in front of its norms loads, without norms (C05).  A cut vocabulary or norms chunk
  can load, because `_read_items` and `Norms.read_chunk` do not compare the number of bytes read with the number
  asked for (C06).
* `Header([])` can be written but not read (C11).
* `Norms.__new__` accepts any 1-d array: the dtype test compares a bool with a type (C42).
* `_similarity` raises `ValueError` if `k` plus the number of skipped words is more than the number of words
  (C28), and `AttributeError` for quantized storages (C29).
* `QuantizedArray.__iter__` ignores the norms (C33).
* `load_word2vec`, `load_text` and `load_text_dims` broadcast a row with a single component to all components, so that a
  file cut after one float loads (C35).
* Writing truncates the target before anything can fail; a failing `write_fasttext` or `Embeddings.write` destroys the
  previous file (C38).
* `get_skips` in `scripts/analogy.py` adds the second word where the third is meant (C39).
* `ffp-select --ignore_unk` writes zero rows for the words it says it skips; blank lines in the word list count as the empty
  word (C40).
* Reading and writing fastText restores the products of norm and row, not the rows; values are exact only over the
  reals (C37).  The storage is written a second time at the end of the file.
* Zero vectors are normalised to NaN; words read from word2vec files lose surrounding white space.
* Codes of quantized arrays are not checked against the number of centroids when they are read.
* `load_word2vec(lossy=True)` still raises `UnicodeDecodeError` if the first line is not ASCII (C50).
* `load_fasttext` does not compare the `dims` of the settings with the columns of the matrix, accepts 0, -1 and -2 as
  loss and model (they index from the end), and infers a negative dimension of the matrix from the size of the file,
  so that such a file cut short loads with fewer columns (C51, C52).
* `load_text_dims` on an empty file raises `StopIteration`, and ignores lines beyond the declared number (C53).
* Looking up a known word in an array storage without `out` returns a view: writing to it changes the embeddings (C55).
* `QuantizedArray.embedding(out=...)` with a projection and an `out` that is not contiguous raises only after `out` was overwritten
  with the vector before projection (C56).
* `w in embeddings` is about the known words only: `embeddings[w]` may succeed for a `w` that is not `in` it.  An empty
  iterable (`[]`, `b""`) is `in` every vocabulary (C58).
* `k` may be negative: down to a certain bound the result is empty, below it `ValueError` is raised (C57).
* `load_finalfusion` uses neither the chunk numbers of the header nor the lengths of the vocabulary, storage and norms chunks, ignores
  any bytes after the norms and any padding bytes, and, when it does not map the file, accepts incomplete padding at the end of
  the file.  A lone vocabulary whose last word is shorter than its length says loads (C61, C62).
* A duplicate word or n-gram in a file is reported by `AssertionError`, `quantized_len` 0 by `ZeroDivisionError`, and huge counts
  by `OverflowError`, instead of `FinalfusionFormatError` (C64).
* A word with a surrogate makes `Embeddings.write` fail after the old file is gone; what is left has a header that promises all
  chunks, and does not load (C65).
