{"id": "C01", "title": "finalfusion write/load round trip", "statement": "If Embeddings.write(path) completes without an exception, load_finalfusion(path) returns embeddings with the same kind of vocabulary, the same words in the same order, the same subword indexer, the same storage (shape and every float/code bit for bit), the same norms and the same metadata. Covers all four vocabulary types, both storage types, norms present/absent and metadata present/absent. Explicit vocabularies are taken with at least one n-gram and non-negative n-gram indices (see C13, C14 for what happens otherwise), metadata as far as toml itself round trips.", "quantifier": "every Embeddings value that the constructors accept, of any size and content, on every host byte order", "why_tests_cant": "tests write a handful of fixture files; vocabulary sizes, UTF-8 lengths, alignment offsets, shapes (including 0 rows/columns) and presence combinations are unbounded", "anchors": ["src/finalfusion/embeddings.py:Embeddings.write", "src/finalfusion/embeddings.py:load_finalfusion", "src/finalfusion/io.py", "src/finalfusion/vocab/subword.py", "src/finalfusion/vocab/simple_vocab.py", "src/finalfusion/storage/ndarray.py", "src/finalfusion/storage/quantized.py", "src/finalfusion/norms.py", "src/finalfusion/metadata.py"]}
{"id": "C02", "title": "stand-alone chunk round trip", "statement": "For every single chunk (vocabulary, storage, norms, metadata) whose write(path) completes, the matching loader (load_simple_vocab, load_finalfusion_bucket_vocab, load_fasttext_vocab, load_explicit_vocab, load_vocab, load_ndarray, load_quantized_array, load_storage, load_norms, load_metadata) returns an equal chunk.", "quantifier": "every chunk of every type and size", "why_tests_cant": "unbounded contents and sizes; padding depends on file position", "anchors": ["src/finalfusion/io.py:Chunk.write", "src/finalfusion/vocab/__init__.py:load_vocab", "src/finalfusion/storage/__init__.py:load_storage", "src/finalfusion/norms.py:load_norms", "src/finalfusion/metadata.py:load_metadata"]}
{"id": "C03", "title": "component loaders on complete embeddings files", "statement": "On a file written by Embeddings.write with a simple, finalfusion-bucket or fastText vocabulary, load_vocab, load_storage, load_norms and load_metadata return exactly the corresponding component of the embeddings (or raise ValueError if the file has no norms/metadata): the chunk lengths in the file are right, so that chunks can be skipped.", "quantifier": "every embeddings value with a non-explicit vocabulary", "why_tests_cant": "depends on the stored chunk length for every word list and array size", "anchors": ["src/finalfusion/io.py:find_chunk", "src/finalfusion/vocab/simple_vocab.py:SimpleVocab.write_chunk", "src/finalfusion/vocab/subword.py:_write_bucket_vocab", "src/finalfusion/storage/ndarray.py:NdArray.write_chunk", "src/finalfusion/storage/quantized.py:QuantizedArray.write_chunk"]}
{"id": "C04", "title": "component loaders on explicit-vocabulary files", "statement": "On a file written by Embeddings.write with an explicit subword vocabulary, load_storage and load_norms return the storage and the norms of the embeddings.", "quantifier": "every embeddings value with an explicit vocabulary", "why_tests_cant": "the existing tests never skip over an explicit vocabulary chunk; the claim ranges over all n-gram lists", "anchors": ["src/finalfusion/vocab/subword.py:ExplicitVocab.write_chunk", "src/finalfusion/io.py:find_chunk"]}
{"id": "C05", "title": "truncated or partially written finalfusion files", "statement": "If writing embeddings is interrupted at any byte (crash, full disk), loading the resulting prefix with load_finalfusion never returns wrong data: it raises, or it returns the original embeddings.", "quantifier": "every embeddings value and every crash point (every strict prefix of the written file), with and without mmap", "why_tests_cant": "the crash points are as many as the bytes of all possible files", "anchors": ["src/finalfusion/embeddings.py:load_finalfusion", "src/finalfusion/io.py:_read_binary", "src/finalfusion/vocab/vocab.py:_read_items", "src/finalfusion/norms.py:Norms.read_chunk"]}
{"id": "C06", "title": "truncated single-chunk files", "statement": "If a file holding a single chunk (a vocabulary, an array or norms) is truncated, the single-chunk loaders raise instead of returning altered data.", "quantifier": "every vocabulary / norms / storage chunk and every strict prefix of its file", "why_tests_cant": "unbounded number of truncation points", "anchors": ["src/finalfusion/vocab/vocab.py:_read_items", "src/finalfusion/norms.py:Norms.read_chunk", "src/finalfusion/storage/ndarray.py:NdArray.read_chunk", "src/finalfusion/storage/quantized.py:QuantizedArray.read_chunk"]}
{"id": "C07", "title": "loading arbitrary bytes is safe", "statement": "Whatever the bytes of the file, if load_finalfusion returns, the result is consistent: words are unique and indexed by position, storage.shape[0] == vocab.upper_bound, the storage has exactly rows*columns elements, norms (if any) have one entry per word, n-gram ranges and bucket counts are within the limits the constructors enforce.", "quantifier": "every byte string used as a file, both mmap modes, both byte orders", "why_tests_cant": "all byte strings", "anchors": ["src/finalfusion/embeddings.py:load_finalfusion", "src/finalfusion/embeddings.py:Embeddings._check_requirements", "src/finalfusion/vocab/vocab.py:_validate_items_and_create_index"]}
{"id": "C08", "title": "memory mapping does not change what is loaded", "statement": "On little-endian hosts, load_finalfusion(path, mmap=True) and load_storage(path, mmap=True) return the same embeddings/storage as with mmap=False for every file written by this library, and whenever the mmap variant succeeds on any file the eager variant returns the same. On big-endian hosts the mmap variant raises NotImplementedError.", "quantifier": "every written file; every byte string for the second half", "why_tests_cant": "all contents and alignments", "anchors": ["src/finalfusion/storage/ndarray.py:NdArray.mmap_chunk", "src/finalfusion/storage/quantized.py:QuantizedArray.mmap_chunk", "src/finalfusion/storage/__init__.py:load_storage"]}
{"id": "C09", "title": "files are independent of host and array byte order", "statement": "The bytes produced by write_chunk for arrays depend only on the element values: not on the host byte order nor on the byte order of the array dtype, and a file written on a host of either byte order is read back with the same values on a host of either byte order.", "quantifier": "every array, every dtype byte order, every pair of host byte orders", "why_tests_cant": "CI hosts are little-endian only", "anchors": ["src/finalfusion/io.py:_serialize_array_as_le", "src/finalfusion/io.py:_read_array_as_native"]}
{"id": "C10", "title": "find_chunk finds the first matching chunk", "statement": "On a file that consists of a header and a sequence of well-delimited chunks, find_chunk returns the identifier of the first chunk whose identifier is among the requested ones and leaves the file positioned at the beginning of its contents; it returns None iff there is none. It terminates on every byte string.", "quantifier": "every sequence of chunks, every list of requested identifiers; every byte string for termination", "why_tests_cant": "all chunk sequences", "anchors": ["src/finalfusion/io.py:find_chunk", "src/finalfusion/io.py:_read_chunk_header"]}
{"id": "C11", "title": "header handling", "statement": "Header.read_chunk returns exactly the identifiers written by Header.write_chunk, and raises FinalfusionFormatError on any file that does not start with the magic, has another version or is cut inside the header.", "quantifier": "every non-empty list of 32-bit chunk identifiers; every byte string", "why_tests_cant": "all byte strings", "anchors": ["src/finalfusion/io.py:Header.read_chunk", "src/finalfusion/io.py:Header.write_chunk"]}
{"id": "C12", "title": "array alignment", "statement": "In every written file the float data of an array chunk starts at a file offset divisible by four, whatever was written before, and reader and writer agree on the amount of padding (so the chunk length written covers padding and data exactly).", "quantifier": "every file position at which a chunk can start, every array", "why_tests_cant": "positions depend on all preceding words", "anchors": ["src/finalfusion/io.py:_pad_float32", "src/finalfusion/storage/ndarray.py:NdArray.write_chunk", "src/finalfusion/norms.py:Norms.write_chunk", "src/finalfusion/storage/quantized.py:QuantizedArray.write_chunk"]}
{"id": "C13", "title": "explicit vocabularies without n-grams round trip", "statement": "An ExplicitVocab accepted by its constructor with an empty n-gram list can be written and loaded again.", "quantifier": "every explicit vocabulary with an empty n-gram list", "why_tests_cant": "corner of an unbounded input space", "anchors": ["src/finalfusion/vocab/subword.py:ExplicitVocab.read_chunk", "src/finalfusion/subword/explicit_indexer.pyx:ExplicitIndexer.__init__"]}
{"id": "C14", "title": "explicit indexer covers a contiguous index range", "statement": "If ExplicitIndexer accepts an ngram_index, the indices are exactly the integers in [0, upper_bound) and every n-gram of the list has one.", "quantifier": "every n-gram list and every str->int mapping", "why_tests_cant": "all mappings", "anchors": ["src/finalfusion/subword/explicit_indexer.pyx:ExplicitIndexer.__init__"]}
{"id": "C15", "title": "vocabulary construction and word lookup", "statement": "A vocabulary constructor succeeds on a word list iff the words are pairwise distinct (AssertionError otherwise); then len(vocab) is the number of words, vocab[words[i]] == i for each i, `w in vocab` holds exactly for the listed words, and a word not listed is never mapped to a single index.", "quantifier": "every word list, every query string", "why_tests_cant": "all word lists including prefixes, empty strings, non-ASCII words", "anchors": ["src/finalfusion/vocab/vocab.py:_validate_items_and_create_index", "src/finalfusion/vocab/vocab.py:Vocab.__contains__", "src/finalfusion/vocab/vocab.py:Vocab.__getitem__", "src/finalfusion/vocab/subword.py:SubwordVocab.__getitem__", "src/finalfusion/vocab/simple_vocab.py:SimpleVocab.idx"]}
{"id": "C16", "title": "all indices are within bounds", "statement": "Every index returned by vocab.idx, vocab[...] or subword_indices (known word or subword list, any query string, any vocabulary type) is in [0, vocab.upper_bound), subword indices are >= len(vocab), hence looking it up in the storage of any Embeddings accepted by the constructor never raises IndexError.", "quantifier": "every vocabulary, every query string", "why_tests_cant": "all hashes of all strings", "anchors": ["src/finalfusion/vocab/subword.py:SubwordVocab.idx", "src/finalfusion/vocab/subword.py:SubwordVocab.subword_indices", "src/finalfusion/subword/hash_indexers.pyx", "src/finalfusion/subword/explicit_indexer.pyx:ExplicitIndexer.subword_indices", "src/finalfusion/embeddings.py:Embeddings._embedding"]}
{"id": "C17", "title": "ngrams enumerates exactly the n-grams", "statement": "ngrams(word, min_n, max_n, bracket) returns exactly the contiguous substrings of the (bracketed) word with length between min_n and max_n, each occurrence once, ordered by start position and, at the same start, from long to short; with min_n = 0 or min_n > max_n it raises AssertionError.", "quantifier": "every string, every range, both bracket modes", "why_tests_cant": "all strings and ranges", "anchors": ["src/finalfusion/subword/ngrams.pyx:ngrams"]}
{"id": "C18", "title": "bulk subword indices agree with ngrams and single n-gram lookup", "statement": "For the three indexers, subword_indices(word, offset, bracket, with_ngrams=True) lists, in the order of ngrams(word), each n-gram with indexer(ngram) + offset (for the explicit indexer only the n-grams it knows), and with_ngrams=False returns just the indices.", "quantifier": "every string (any Unicode scalar values), every indexer, every offset that keeps the sum below 2^64", "why_tests_cant": "the fastText variant computes on UTF-8 byte offsets; all multi-byte strings matter", "anchors": ["src/finalfusion/subword/hash_indexers.pyx:FinalfusionHashIndexer.subword_indices", "src/finalfusion/subword/hash_indexers.pyx:FastTextIndexer.subword_indices", "src/finalfusion/subword/hash_indexers.pyx:find_utf8_boundaries", "src/finalfusion/subword/explicit_indexer.pyx:ExplicitIndexer.subword_indices"]}
{"id": "C19", "title": "FNV-1a hashing", "statement": "FinalfusionHashIndexer(exp, ...)(ngram) is the 64-bit FNV-1a hash of the 8-byte little-endian length of the n-gram followed by the 4-byte little-endian code points, reduced modulo 2^exp; the three compile-time variants of the C hash (multiplication, shifts, 16-bit limbs) agree.", "quantifier": "every string, every exponent 1..63", "why_tests_cant": "all strings; the multiplication is modulo 2^64", "anchors": ["src/finalfusion/subword/hash_indexers.pyx:fifu_hash_ngram", "src/fnv/hash_64a.c:fnv_64a_buf"]}
{"id": "C20", "title": "fastText hashing", "statement": "FastTextIndexer(n)(ngram) is the 32-bit FNV-1a-style hash over the UTF-8 bytes of the n-gram with each byte sign-extended to 32 bits, modulo n, and lies in [0, n).", "quantifier": "every string, every bucket count 1..2^32-1", "why_tests_cant": "all byte values, in particular >= 0x80", "anchors": ["src/finalfusion/subword/hash_indexers.pyx:ft_hash_ngram", "src/finalfusion/subword/hash_indexers.pyx:FastTextIndexer.__call__"]}
{"id": "C21", "title": "bucket vocabulary to explicit vocabulary", "statement": "vocab.to_explicit() keeps the words; its n-gram list consists of exactly the n-grams of the words, without duplicates; two n-grams get the same explicit index iff they fall into the same bucket; the indices are exactly [0, upper_bound - len(vocab)).", "quantifier": "every bucket vocabulary that has at least one n-gram", "why_tests_cant": "all word lists and all hash collisions", "anchors": ["src/finalfusion/vocab/subword.py:_bucket_to_explicit", "src/finalfusion/subword/explicit_indexer.pyx:ExplicitIndexer.__init__"]}
{"id": "C22", "title": "to_explicit is defined for every bucket vocabulary", "statement": "to_explicit and bucket_to_explicit succeed for every bucket vocabulary accepted by its constructor.", "quantifier": "every FinalfusionBucketVocab and FastTextVocab", "why_tests_cant": "corner of an unbounded input space (no word yields an n-gram)", "anchors": ["src/finalfusion/vocab/subword.py:_bucket_to_explicit"]}
{"id": "C23", "title": "bucket_to_explicit preserves embeddings", "statement": "After bucket_to_explicit, every known word has the same embedding and norm, every known n-gram has the same row, and an unknown word all of whose n-grams occur in the vocabulary has the same embedding (for other words only the known n-grams contribute). Norms are kept, metadata is dropped, and the result has as many rows as its vocabulary's upper bound.", "quantifier": "every embeddings value with a bucket vocabulary, every query word", "why_tests_cant": "all collisions and vocabularies", "anchors": ["src/finalfusion/embeddings.py:Embeddings.bucket_to_explicit"]}
{"id": "C24", "title": "embedding lookup semantics", "statement": "For a known word, embeddings[w], embedding(w) and embedding_with_norm(w) return the row at the word's position (and its norm); for an unknown word with subwords they return the sum of the subword rows divided by its l2 norm, together with that norm; otherwise embeddings[w] raises KeyError and embedding / embedding_with_norm return the default. The three methods agree with each other, embedding never raises, embedding_with_norm raises TypeError iff there are no norms.", "quantifier": "every embeddings value and query string", "why_tests_cant": "all vocabularies, storages, query strings", "anchors": ["src/finalfusion/embeddings.py:Embeddings.__getitem__", "src/finalfusion/embeddings.py:Embeddings.embedding", "src/finalfusion/embeddings.py:Embeddings.embedding_with_norm", "src/finalfusion/embeddings.py:Embeddings._embedding"]}
{"id": "C25", "title": "output buffers", "statement": "When out is passed, the returned array is out and holds what the call without out would have returned; out is left untouched if no embedding can be found and default is None. Nothing but out is written: the storage and the norms are unchanged by every query.", "quantifier": "every embeddings value, query, out buffer and sequence of queries", "why_tests_cant": "all histories of queries; aliasing", "anchors": ["src/finalfusion/embeddings.py:Embeddings.embedding", "src/finalfusion/embeddings.py:Embeddings._embedding"]}
{"id": "C26", "title": "embeddings of unknown words are unit vectors", "statement": "The embedding computed for an unknown word has l2 norm 1 and multiplied by the returned norm gives the sum of its subword embeddings, unless that sum is the zero vector (exact arithmetic).", "quantifier": "every embeddings value with real-valued rows, every unknown word", "why_tests_cant": "all real matrices", "anchors": ["src/finalfusion/embeddings.py:Embeddings._embedding"]}
{"id": "C27", "title": "similarity queries return the true top k", "statement": "If k plus the number of skipped known words does not exceed the number of words, embedding_similarity(query, k, skip) returns exactly min(k, ...) = k results, none of them skipped, in descending order of similarity, each with its own dot product, and every word left out is skipped or has a similarity not larger than the last result; word_similarity additionally skips the query word, analogy the query words by default.", "quantifier": "every matrix without NaN similarities, every query, k and skip set, every behaviour of argpartition allowed by its contract", "why_tests_cant": "argpartition's order is unspecified; all tie patterns", "anchors": ["src/finalfusion/embeddings.py:Embeddings._similarity", "src/finalfusion/embeddings.py:Embeddings.word_similarity", "src/finalfusion/embeddings.py:Embeddings.embedding_similarity", "src/finalfusion/embeddings.py:Embeddings.analogy"]}
{"id": "C28", "title": "at most k results for any k", "statement": "Similarity and analogy queries return at most k results for any k; asking for more neighbours than there are words returns all of them.", "quantifier": "every embeddings value with an array storage and every k >= 0", "why_tests_cant": "all vocabulary sizes versus all k", "anchors": ["src/finalfusion/embeddings.py:Embeddings._similarity"]}
{"id": "C29", "title": "similarity queries work on every storage", "statement": "word_similarity, embedding_similarity and analogy work on embeddings with a quantized storage.", "quantifier": "every embeddings value with quantized storage", "why_tests_cant": "ranges over all quantized embeddings", "anchors": ["src/finalfusion/embeddings.py:Embeddings._similarity", "src/finalfusion/storage/quantized.py:QuantizedArray"]}
{"id": "C30", "title": "analogy semantics", "statement": "analogy(a, b, c, k, skip) returns None iff one of the three words has no embedding, and otherwise the similarity results of the normalised vector embedding(b) - embedding(a) + embedding(c), skipping {a, b, c} if skip is None and exactly the words in skip otherwise.", "quantifier": "every embeddings value, all query words", "why_tests_cant": "all vocabularies and queries", "anchors": ["src/finalfusion/embeddings.py:Embeddings.analogy"]}
{"id": "C31", "title": "embeddings invariant over any history of updates", "statement": "After any sequence of norms / metadata assignments, successful or rejected, the embeddings satisfy the constructor's conditions, a rejected assignment changes nothing and an accepted one changes only the assigned component.", "quantifier": "every history of setter calls on every embeddings value", "why_tests_cant": "all histories", "anchors": ["src/finalfusion/embeddings.py:Embeddings.norms", "src/finalfusion/embeddings.py:Embeddings.metadata", "src/finalfusion/embeddings.py:Embeddings._norms_compat"]}
{"id": "C32", "title": "product quantizer reconstruction", "statement": "Indexing a quantized storage with an integer returns the concatenation of the selected centroids, multiplied by the transposed projection if there is one, scaled by the norm if there are norms; lists, slices and numpy.asarray return the corresponding rows in order; slicing first and indexing afterwards equals indexing with the translated index, for every start/stop/step.", "quantifier": "every quantizer, code matrix, key", "why_tests_cant": "all shapes, slices with negative bounds and steps", "anchors": ["src/finalfusion/storage/quantized.py:PQ.reconstruct", "src/finalfusion/storage/quantized.py:QuantizedArray.embedding", "src/finalfusion/storage/quantized.py:QuantizedArray.__getitem__", "src/finalfusion/storage/quantized.py:QuantizedArray.__array__"]}
{"id": "C33", "title": "iteration agrees with indexing", "statement": "Iterating over a storage yields storage[0], storage[1], ...; iterating over embeddings yields each word with embeddings[word] (and its norm).", "quantifier": "every storage, every embeddings value", "why_tests_cant": "all storages, including quantized ones with norms", "anchors": ["src/finalfusion/storage/quantized.py:QuantizedArray.__iter__", "src/finalfusion/storage/ndarray.py:NdArray.__iter__", "src/finalfusion/embeddings.py:Embeddings.__iter__"]}
{"id": "C34", "title": "word2vec round trip", "statement": "load_word2vec(write_word2vec(e)) returns the words of e in order and rows whose product with their norm is the row that was written (the row of e times its norm), provided no word contains a space or starts/ends with whitespace; subword rows are dropped.", "quantifier": "every embeddings value whose words have no space and no leading/trailing whitespace", "why_tests_cant": "all words and float bit patterns (float data may contain any byte, including space and newline)", "anchors": ["src/finalfusion/compat/word2vec.py:write_word2vec", "src/finalfusion/compat/word2vec.py:load_word2vec"]}
{"id": "C35", "title": "truncated word2vec files are rejected", "statement": "load_word2vec raises on a file that is cut inside the embedding data.", "quantifier": "every word2vec file and every truncation point before the last float", "why_tests_cant": "all truncation points", "anchors": ["src/finalfusion/compat/word2vec.py:load_word2vec"]}
{"id": "C36", "title": "text round trip", "statement": "load_text(write_text(e)) and load_text_dims(write_text_dims(e)) return the words of e in order and the written rows, provided no word contains ASCII whitespace and float formatting round trips; lines with a wrong number of components are rejected.", "quantifier": "every embeddings value with at least one column whose words contain no ASCII whitespace", "why_tests_cant": "all words, including empty words and non-ASCII whitespace", "anchors": ["src/finalfusion/compat/text.py:_write_text", "src/finalfusion/compat/text.py:_load_text", "src/finalfusion/compat/text.py:load_text", "src/finalfusion/compat/text.py:load_text_dims"]}
{"id": "C37", "title": "fastText round trip", "statement": "load_fasttext(write_fasttext(e)) restores the words, n-gram range and buckets of e and, in exact arithmetic, the rows and norms of e: writing undoes precomputation and normalisation.", "quantifier": "every embeddings value with fastText vocabulary whose words contain no NUL and whose word rows are non-zero", "why_tests_cant": "all vocabularies and matrices", "anchors": ["src/finalfusion/compat/fasttext.py:write_fasttext", "src/finalfusion/compat/fasttext.py:load_fasttext", "src/finalfusion/compat/fasttext.py:_precompute_word_vecs", "src/finalfusion/compat/fasttext.py:_write_ft_storage_subwords"]}
{"id": "C38", "title": "a rejected write leaves the target file alone", "statement": "If a write call is rejected (for example write_fasttext with a vocabulary that is not a FastTextVocab, or Chunk.write of a header), an existing file at the target path keeps its contents.", "quantifier": "every existing file content, every rejected write", "why_tests_cant": "all prior file contents", "anchors": ["src/finalfusion/compat/fasttext.py:write_fasttext", "src/finalfusion/io.py:Chunk.write", "src/finalfusion/embeddings.py:Embeddings.write"]}
{"id": "C39", "title": "ffp-analogy --include", "statement": "ffp-analogy excludes from the answers exactly those query words that are not named with --include.", "quantifier": "all query words and all choices of --include", "why_tests_cant": "all combinations with distinct query words", "anchors": ["src/finalfusion/scripts/analogy.py:get_skips"]}
{"id": "C40", "title": "ffp-select", "statement": "ffp-select writes embeddings whose words are the requested words, each with the embedding the source assigns to it; with --ignore_unk words that cannot be represented are skipped.", "quantifier": "every embeddings value, every word list", "why_tests_cant": "all word lists", "anchors": ["src/finalfusion/scripts/select.py:main"]}
{"id": "C41", "title": "UTF-8 strict and lossy decoding", "statement": "Decoding words of a compat format with lossy=True never fails and equals strict decoding whenever strict decoding succeeds; strict decoding inverts encoding and accepts only valid UTF-8.", "quantifier": "every byte string, every string", "why_tests_cant": "all byte strings", "anchors": ["src/finalfusion/compat/word2vec.py:_read_binary_word", "src/finalfusion/compat/fasttext.py:_read_binary_word", "src/finalfusion/vocab/vocab.py:_read_items"]}
{"id": "C42", "title": "Norms accepts only 1-d float32 arrays", "statement": "Norms(array) raises TypeError unless array is a 1-dimensional float32 array; hence every Norms object that can be built can be written and loaded again.", "quantifier": "every numpy array (number of dimensions, dtype, contents)", "why_tests_cant": "all arrays", "anchors": ["src/finalfusion/norms.py:Norms.__new__", "src/finalfusion/norms.py:Norms.write_chunk"]}
{"id": "C43", "title": "vocabulary equality", "statement": "== on vocabularies is an equivalence relation on vocabularies that holds exactly if they are of the same type with the same word list and equal indexers, and equal vocabularies give the same index for every query.", "quantifier": "all vocabularies, all query strings", "why_tests_cant": "all pairs", "anchors": ["src/finalfusion/vocab/vocab.py:Vocab.__eq__", "src/finalfusion/vocab/subword.py:SubwordVocab.__eq__", "src/finalfusion/subword/explicit_indexer.pyx:ExplicitIndexer.__eq__"]}
{"id": "C44", "title": "load then write then load is stable", "statement": "For every file that load_finalfusion accepts, writing the loaded embeddings succeeds and loading that again gives the same embeddings.", "quantifier": "every byte string below 2^62 bytes that loads, metadata as far as toml round trips", "why_tests_cant": "all files, including ones written by other implementations with other chunk lengths or padding", "anchors": ["src/finalfusion/embeddings.py:load_finalfusion", "src/finalfusion/embeddings.py:Embeddings.write"]}
{"id": "C45", "title": "word2vec, text and fastText loaders return consistent embeddings", "statement": "Whatever file load_word2vec, load_text, load_text_dims or load_fasttext accepts, the embeddings returned are consistent: words are pairwise different and mapped to their positions, the storage has one row of the right length per word and bucket, and there is one norm per word.", "quantifier": "every byte string, strict and lossy", "why_tests_cant": "all malformed files", "anchors": ["src/finalfusion/compat/word2vec.py:load_word2vec", "src/finalfusion/compat/text.py:load_text", "src/finalfusion/compat/text.py:load_text_dims", "src/finalfusion/compat/fasttext.py:load_fasttext"]}
{"id": "C46", "title": "ffp-similar", "statement": "A successful run of ffp-similar prints, for every non-blank line of the query file in order, the neighbours that word_similarity returns, one 'word similarity' line each, or reports on stderr that none can be computed; a word is never printed as its own neighbour.", "quantifier": "every embeddings file of any format, every query file, every k", "why_tests_cant": "all query files", "anchors": ["src/finalfusion/scripts/similar.py:main", "src/finalfusion/embeddings.py:Embeddings.word_similarity"]}
{"id": "C47", "title": "ffp-convert", "statement": "Converting a file to finalfusion gives a file that loads to embeddings that answer every query as the input does; converting to the other formats gives a file that loads to the words and rows of the input as far as the format can represent them; if the input cannot be loaded the output file is not touched.", "quantifier": "every input file, every pair of formats, every previous content of the output file", "why_tests_cant": "all inputs and pairs of formats", "anchors": ["src/finalfusion/scripts/convert.py:main", "src/finalfusion/scripts/util.py:Format"]}
{"id": "C48", "title": "ffp-bucket-to-explicit", "statement": "A successful run of ffp-bucket-to-explicit writes a finalfusion file whose embeddings answer every query as Embeddings.bucket_to_explicit of the input does; otherwise the output is left untouched if loading or conversion fails.", "quantifier": "every input file, every previous content of the output file", "why_tests_cant": "all inputs", "anchors": ["src/finalfusion/scripts/bucket_to_explicit.py:main", "src/finalfusion/embeddings.py:Embeddings.bucket_to_explicit"]}
{"id": "C49", "title": "reloaded embeddings answer every query identically", "statement": "Embeddings and what is read back from the file they were written to return the same for every vocabulary, lookup, iteration, similarity and analogy query.", "quantifier": "all embeddings, all queries, any behaviour of argpartition and heappush within numpy's and heapq's contracts", "why_tests_cant": "all queries on all embeddings", "anchors": ["src/finalfusion/embeddings.py:Embeddings", "src/finalfusion/io.py:Chunk.write"]}
{"id": "C50", "title": "lossy decoding only replaces decoding errors", "statement": "Loading a word2vec, text or fastText file with lossy=True gives what loading it without gives, unless that raises UnicodeDecodeError; with lossy=True the text and fastText loaders never raise UnicodeDecodeError, the word2vec loader raises it exactly if the first line contains a byte that is not ASCII; a text loaded lossily is the text with the replacement characters written out.", "quantifier": "every file", "why_tests_cant": "all byte sequences", "anchors": ["src/finalfusion/compat/word2vec.py:load_word2vec", "src/finalfusion/compat/text.py:load_text", "src/finalfusion/compat/text.py:load_text_dims", "src/finalfusion/compat/fasttext.py:load_fasttext"]}
{"id": "C51", "title": "a fastText file cut short", "statement": "If a fastText file whose matrix dimensions are not negative is cut before the end of its matrix loading raises; cut anywhere after that it loads as the whole file does. For a file written by write_fasttext the end of the matrix is 4*rows*columns bytes before the end. With a negative number of columns a file cut short may load with fewer columns.", "quantifier": "every loadable fastText file, every position", "why_tests_cant": "all files and all positions", "anchors": ["src/finalfusion/compat/fasttext.py:load_fasttext", "src/finalfusion/compat/fasttext.py:_read_ft_cfg", "src/finalfusion/compat/fasttext.py:_read_ft_vocab", "src/finalfusion/compat/fasttext.py:_read_ft_storage"]}
{"id": "C52", "title": "which fastText files load and as what", "statement": "load_fasttext succeeds exactly on the files that start with magic number and version 12, settings with known loss and model, an unpruned vocabulary without labels of distinct words, and an unquantised matrix with one row per word and bucket; words, settings, norms and rows of the result are determined by the file as specified.", "quantifier": "every file", "why_tests_cant": "all byte sequences", "anchors": ["src/finalfusion/compat/fasttext.py:load_fasttext", "src/finalfusion/compat/fasttext.py:_read_ft_cfg", "src/finalfusion/compat/fasttext.py:_read_ft_vocab", "src/finalfusion/compat/fasttext.py:_read_ft_storage"]}
{"id": "C53", "title": "which text files load and as what", "statement": "load_text and load_text_dims succeed exactly on texts (lines ended by \\n, \\r\\n or \\r) in which every line, or every line up to the declared number after the line with the dimensions, is a new word followed by as many numbers as there are columns, or by a single one; a text preceded by a line with its dimensions loads with load_text_dims as without it with load_text; empty files are rejected.", "quantifier": "every file, every parser of numbers", "why_tests_cant": "all byte sequences", "anchors": ["src/finalfusion/compat/text.py:load_text", "src/finalfusion/compat/text.py:load_text_dims", "src/finalfusion/compat/text.py:_load_text"]}
{"id": "C54", "title": "which word2vec files load and as what", "statement": "load_word2vec succeeds exactly on files with an ASCII first line of two integers followed by as many entries of a new word, a blank and the float32 elements of the row; white space around words is dropped; a single element at the end of the file fills the last row.", "quantifier": "every file", "why_tests_cant": "all byte sequences", "anchors": ["src/finalfusion/compat/word2vec.py:load_word2vec"]}
{"id": "C55", "title": "whose memory a looked up vector occupies", "statement": "Without an out argument, looking up a word of the vocabulary in an array storage returns the row of the storage itself and changes no memory, so that writing to the result changes what later lookups return; for words outside the vocabulary and for quantized storages the result is newly allocated memory, so that writing to it changes nothing.", "quantifier": "every embeddings object in memory, every word, every written value", "why_tests_cant": "aliasing is a statement about every later write", "anchors": ["src/finalfusion/embeddings.py:Embeddings.__getitem__", "src/finalfusion/embeddings.py:Embeddings.embedding", "src/finalfusion/embeddings.py:Embeddings.embedding_with_norm", "src/finalfusion/embeddings.py:Embeddings._embedding", "src/finalfusion/storage/quantized.py:QuantizedArray.__getitem__"]}
{"id": "C56", "title": "the out argument of quantized storages", "statement": "QuantizedArray.embedding with an out array writes what it would return without it into out, returns out and writes nothing else, for an int, a list of ints or a slice; an out array of the wrong shape is an AssertionError and an invalid key or code raises as without out, both before anything is written; a projection needs a contiguous out array, another one is overwritten with the unprojected vector before the ValueError.", "quantifier": "every quantized array, key, buffer and memory", "why_tests_cant": "all keys, all buffers, frame condition on all other memory", "anchors": ["src/finalfusion/storage/quantized.py:QuantizedArray.embedding", "src/finalfusion/storage/quantized.py:PQ.reconstruct"]}
{"id": "C57", "title": "the outcome of similarity queries for every k", "statement": "For n words of which s are skipped, similarity and analogy queries on array storages return an empty list if n = 0, raise ValueError if k + s > n or k + s <= -n, and otherwise return exactly max(k, 0) distinct unskipped words with their dot products; a query vector of the wrong length is a ValueError. No assumption is made about the order of the similarities, which may be NaN.", "quantifier": "every embeddings object, query, integer k, set of words to skip, arithmetic", "why_tests_cant": "all k and all arithmetics", "anchors": ["src/finalfusion/embeddings.py:Embeddings._similarity", "src/finalfusion/embeddings.py:Embeddings.embedding_similarity", "src/finalfusion/embeddings.py:Embeddings.word_similarity", "src/finalfusion/embeddings.py:Embeddings.analogy"]}
{"id": "C58", "title": "membership, iteration and length", "statement": "x in vocab holds iff every leaf of x (x itself, or what its iteration yields at any depth) is a string among the words; in particular other_vocab in vocab iff its words are a subset, and an empty iterable is always in. The words iterated over are distinct and as many as len says. The same holds for the n-grams of an ExplicitIndexer, whose [] raises KeyError exactly for other n-grams and agrees with its call. w in embeddings implies that embeddings[w] succeeds; not conversely.", "quantifier": "every built vocabulary, indexer and embeddings object and every nested operand", "why_tests_cant": "all operands of all nesting depths", "anchors": ["src/finalfusion/vocab/vocab.py:Vocab.__contains__", "src/finalfusion/vocab/vocab.py:Vocab.__iter__", "src/finalfusion/vocab/vocab.py:Vocab.__len__", "src/finalfusion/subword/explicit_indexer.pyx:ExplicitIndexer.__contains__", "src/finalfusion/embeddings.py:Embeddings.__contains__"]}
{"id": "C59", "title": "rewriting a file reproduces it", "statement": "Loading a finalfusion file that was written by this library and writing it again yields the same bytes, whatever the byte orders of the hosts and with or without mmap; a loadable file from elsewhere is stable from its first rewriting on. Two embeddings objects that write the same bytes have the same words, n-grams, indices, matrix, norms and metadata. ffp-convert from finalfusion to finalfusion is the identity on written files, and converting the output of any conversion again changes nothing.", "quantifier": "every embeddings object, file, host and load mode", "why_tests_cant": "all files and all hosts", "anchors": ["src/finalfusion/embeddings.py:Embeddings.write", "src/finalfusion/embeddings.py:load_finalfusion", "src/finalfusion/scripts/convert.py:main"]}
{"id": "C60", "title": "the constructor of product quantizers", "statement": "PQ accepts exactly no projection, or a projection with as many rows and columns as the reconstructed length, and raises AssertionError otherwise; the quantizer it makes reconstructs every valid code to a vector of the reconstructed length.", "quantifier": "every quantizers array, projection and code", "why_tests_cant": "all shapes", "anchors": ["src/finalfusion/storage/quantized.py:PQ.__init__", "src/finalfusion/storage/quantized.py:PQ.reconstruct"]}
{"id": "C61", "title": "the finalfusion files that load", "statement": "load_finalfusion succeeds on a file exactly if the file consists of the magic number, version 0, a non-empty list of numbers, an optional metadata chunk, a vocabulary chunk whose words and n-grams are valid and pairwise different, a storage chunk with as many rows as the vocabulary needs and an optional norms chunk with one norm per word; it returns exactly what these bytes encode. The chunk numbers in the header, the lengths in the headers of the chunks other than metadata, the padding bytes and what follows the norms are ignored. The description determines the embeddings, and every file that is written satisfies it.", "quantifier": "every byte string, host byte order and load mode (with mmap only on little endian hosts)", "why_tests_cant": "all byte strings", "anchors": ["src/finalfusion/embeddings.py:load_finalfusion", "src/finalfusion/io.py:Header.read_chunk", "src/finalfusion/vocab/vocab.py:_read_items", "src/finalfusion/storage/ndarray.py:NdArray.read_chunk", "src/finalfusion/storage/quantized.py:QuantizedArray.read_chunk", "src/finalfusion/norms.py:Norms.read_chunk", "src/finalfusion/metadata.py:Metadata.read_chunk"]}
{"id": "C62", "title": "the files from which single chunks load", "statement": "load_vocab, load_storage, load_norms, load_metadata and the loaders for one kind of vocabulary or storage succeed on a file exactly if a header and complete chunks with known other numbers precede a chunk of the wanted kind whose contents are valid, and return exactly what its bytes encode. Only a vocabulary that ends the file may have a last word shorter than its length says, and only norms at the end of the file may be fewer than their number says.", "quantifier": "every byte string, host byte order and load mode", "why_tests_cant": "all byte strings", "anchors": ["src/finalfusion/vocab/__init__.py:load_vocab", "src/finalfusion/storage/__init__.py:load_storage", "src/finalfusion/norms.py:load_norms", "src/finalfusion/metadata.py:load_metadata", "src/finalfusion/io.py:find_chunk"]}
{"id": "C63", "title": "the rows of the n-grams of a word", "statement": "subwords(w, bracket) is the list of the n-grams of w, in angle brackets if bracket, with lengths between min_n and max_n, by start and from long to short. subword_indices(w, bracket, with_ngrams) has, for each of them that has a row, the row, with the n-gram if with_ngrams: len(words) plus the low bits of FNV-1a of its length and code points (finalfusion), plus the fastText hash of its UTF-8 form modulo the number of buckets (fastText), or plus the index of the n-gram, if it has one (explicit). idx and [] of an unknown word give these rows for the bracketed word, or nothing if there are none; the embedding of an unknown word is the normalized sum of these rows. Only fastText vocabularies fail, exactly for words with surrogates.", "quantifier": "every built vocabulary and embeddings, every word, bracket and with_ngrams", "why_tests_cant": "all vocabularies and words", "anchors": ["src/finalfusion/vocab/subword.py:SubwordVocab.subwords", "src/finalfusion/vocab/subword.py:SubwordVocab.subword_indices", "src/finalfusion/vocab/subword.py:SubwordVocab.idx", "src/finalfusion/vocab/subword.py:SubwordVocab.__getitem__", "src/finalfusion/subword/hash_indexers.pyx:FinalfusionHashIndexer.subword_indices", "src/finalfusion/subword/hash_indexers.pyx:FastTextIndexer.subword_indices", "src/finalfusion/subword/explicit_indexer.pyx:ExplicitIndexer.subword_indices"]}
{"id": "C64", "title": "the exceptions of the loaders", "statement": "Whatever the contents of the file, each loader either returns or raises one of a short list of exceptions. load_finalfusion: FinalfusionFormatError, ValueError, UnicodeDecodeError, AssertionError, ZeroDivisionError or OverflowError, what the toml library raises, and NotImplementedError for mmap on a big endian host. The loaders of single chunks raise subsets of these. load_word2vec: EOFError, ValueError, UnicodeDecodeError, AssertionError; load_text: ValueError, UnicodeDecodeError, AssertionError, and load_text_dims also StopIteration; load_fasttext: FinalfusionFormatError, ValueError, UnicodeDecodeError, AssertionError, OverflowError, EOFError, IndexError, NotImplementedError. Each exception of each list is raised for some file. None raises struct.error, KeyError, TypeError or AttributeError.", "quantifier": "every byte string, host byte order, load mode and toml library", "why_tests_cant": "all byte strings", "anchors": ["src/finalfusion/embeddings.py:load_finalfusion", "src/finalfusion/vocab/__init__.py:load_vocab", "src/finalfusion/storage/__init__.py:load_storage", "src/finalfusion/norms.py:load_norms", "src/finalfusion/metadata.py:load_metadata", "src/finalfusion/compat/word2vec.py:load_word2vec", "src/finalfusion/compat/text.py:load_text", "src/finalfusion/compat/text.py:load_text_dims", "src/finalfusion/compat/fasttext.py:load_fasttext", "src/finalfusion/io.py:_read_binary"]}
{"id": "C65", "title": "when writing succeeds and what a failed write leaves", "statement": "Embeddings.write succeeds if all words and n-grams can be encoded as UTF-8, every number fits its field and toml can dump the metadata. Otherwise it raises struct.error, UnicodeEncodeError or what toml raises. If a word or n-gram contains a surrogate, the previous contents of the file are gone, and the file holds the file header, the complete metadata chunk and, for simple vocabularies only, the number of the vocabulary chunk; if the metadata cannot be dumped or encoded, it holds the file header only. Neither remainder can be loaded: load_finalfusion raises FinalfusionFormatError.", "quantifier": "every embeddings that can be built, toml library, host byte order and previous contents of the file", "why_tests_cant": "all embeddings", "anchors": ["src/finalfusion/embeddings.py:Embeddings.write", "src/finalfusion/io.py:Chunk.write", "src/finalfusion/io.py:_write_binary", "src/finalfusion/vocab/vocab.py:_write_words_binary", "src/finalfusion/vocab/vocab.py:_calculate_binary_list_size", "src/finalfusion/metadata.py:Metadata.write_chunk"]}
