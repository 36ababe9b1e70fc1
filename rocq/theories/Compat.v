(* Model of src/finalfusion/compat/*.py and _util.py.  No proofs in this file. *)
From Coq Require Import String.
From Verif Require Import Py Utf8 IO Arr Subword Vocab Storage Chunks Embeddings PyText.
Local Open Scope N_scope.
Local Open Scope list_scope.

(* What a call does to the file at a path: previous contents (None: no file) to new contents
   and outcome.
   compat/word2vec.py 88-100, compat/text.py 161-170, compat/fasttext.py 98-112. *)
Definition file_action := option bytes -> option bytes * result unit.
(* with open(path, 'wb') as f: w(f) -- the file is emptied or created before anything else.
   compat/word2vec.py 88-100, compat/text.py 161-170, compat/fasttext.py 98-112. *)
Definition open_wb (w : writer) : file_action :=
  fun _ => let (out, r) := run_writer w in (Some out, r).
(* an expression evaluated before the file is opened.
   compat/word2vec.py 88-100, compat/text.py 161-170, compat/fasttext.py 98-112. *)
Definition before_open {A} (r : result A) (k : A -> file_action) : file_action :=
  fun old => match r with Ok a => k a old | Err x => (old, Err x) end.

(* dtype byte order of storage[i].  compat/word2vec.py 93-99. *)
Definition row_bo {F} (s : storage F) : byteorder :=
  match s with SNd a => nd_bo a | SQuant q => pq_bo (qa_pq q) end.

Section Compat.
  Context {F : Type} (o : fops F) (host : endian) (c : codec F).

  (* _util.py 9-12, _normalize_matrix: the rows are divided in place, the norms returned *)
  Definition normalize_matrix (rows : list (list F)) : list (list F) * list F :=
    let norms := map (fnorm o) rows in
    (map2 (fun row n => vdiv o row n) rows norms, norms).

  (* ---------------------------------------------------------------- *)
  (* word2vec.py                                                       *)

  (* word2vec.py 103-113, _read_binary_word *)
  Definition w2v_read_word (delim : byte) (lossy : bool) : reader str :=
    word <~ read_until delim ;;
    rlift (decode_word lossy word).

  (* word2vec.py 48-52, one iteration of the loop *)
  Definition w2v_read_row (lossy : bool) (cols : N) : reader (str * list F) :=
    word <~ w2v_read_word x20 lossy ;;
    array <~ fromfile_native host c cols ;;
    row <~ rlift (np_assign cols array) ;;
    rret (strip word, row).

  (* word2vec.py 45: all of map(int, ...) and tuple unpacking raise ValueErrors *)
  Definition w2v_read_shape : reader (Z * Z) :=
    line <~ readline ;;
    rlift (s <- ascii_decode line ;;
           match py_split s with
           | [r; k] => rows <- py_int r ;; cols <- py_int k ;; Ok (rows, cols)
           | _ => Err ValueError
           end).

  (* word2vec.py 18-57 *)
  Definition load_word2vec (lossy : bool) : reader (embeddings F) :=
    shape <~ w2v_read_shape ;;
    dims <~ rlift (np_zeros_shape (fst shape) (snd shape)) ;;
    let '(rows, cols) := dims in
    items <~ rrepeat (N.to_nat rows) (w2v_read_row lossy cols) ;;
    let (matrix, norms) := normalize_matrix (map snd items) in
    rlift (v <- simple_vocab_new (map fst items) ;;
           embeddings_new (SNd (NdA BoNative cols matrix)) v (Some (Norms BoNative norms)) None).

  (* word2vec.py 93-95 and text.py 167-169: the row of a word times its norm *)
  Definition unnormalized_row (e : embeddings F) (matrix : storage F) (idx : Z)
    : result (byteorder * list F) :=
    row <- storage_get o matrix idx ;;
    match em_norms e with
    | None => Ok (row_bo matrix, row)
    | Some n => x <- py_index (nm_vals n) idx ;; Ok (BoNative, map (fun a => fmul o a x) row)
    end.

  (* word2vec.py 91-100 *)
  Definition w2v_write (e : embeddings F) (matrix : storage F) : writer :=
    let (rows, cols) := storage_shape matrix in
    wbytes (map byte_of_N (str_of_N rows ++ [32] ++ str_of_N cols ++ [10])) ;w;
    wfor (fun wi : str * Z =>
            let (word, idx) := wi in
            wlet (unnormalized_row e matrix idx) (fun row =>
            wlet (utf8_encode word) (fun b_word =>
              wbytes b_word ;w; wbytes [x20] ;w;
              serialize host c (fst row) (snd row) ;w; wbytes [x0a])))
         (enumerate (vocab_words (em_vocab e))).

  (* word2vec.py 60-100 *)
  Definition write_word2vec (e : embeddings F) : file_action :=
    before_open (storage_slice (em_storage e) (slice_to (Z.of_N (vocab_len (em_vocab e)))))
      (fun matrix => open_wb (w2v_write e matrix)).

  (* ---------------------------------------------------------------- *)
  (* text.py                                                           *)

  (* str(x) of an element and float(s), neither of them modelled *)
  Variable show : F -> str.
  Variable parse : str -> result F.

  (* text.py 147-149: one line.  The strings are converted before they are assigned. *)
  Definition text_row (cols : N) (line : str) : result (str * list F) :=
    match re_split_ws (rstrip line) with
    | [] => Err IndexError
    | word :: parts =>
        xs <- mapM parse parts ;;
        row <- np_assign cols xs ;;
        Ok (word, row)
    end.

  (* text.py 143-154, _load_text: zip stops with the shorter one; rows that are not assigned
     stay zero *)
  Definition load_text_lines (rows cols : Z) (lines : list str) : result (embeddings F) :=
    '(nrows, ncols) <- np_zeros_shape rows cols ;;
    items <- mapM (text_row ncols) (takeN nrows lines) ;;
    let full := map snd items
                ++ repeat (vzero o (N.to_nat ncols)) (N.to_nat nrows - length items) in
    let (matrix, norms) := normalize_matrix full in
    v <- simple_vocab_new (map fst items) ;;
    embeddings_new (SNd (NdA BoNative ncols matrix)) v (Some (Norms BoNative norms)) None.

  (* text.py 19-46 *)
  Definition load_text_dims (lossy : bool) (d : bytes) : result (embeddings F) :=
    lines <- text_lines lossy d ;;
    match lines with
    | [] => Err StopIteration
    | first :: rest =>
        match py_split first with
        | [r; k] => rows <- py_int r ;; cols <- py_int k ;; load_text_lines rows cols rest
        | _ => Err ValueError
        end
    end.

  (* text.py 49-87; line 84 counts the remaining lines, 85 starts again at the beginning *)
  Definition load_text (lossy : bool) (d : bytes) : result (embeddings F) :=
    lines <- text_lines lossy d ;;
    match lines with
    | [] => Err ValueError
    | first :: rest =>
        let cols := Z.of_nat (length (tl (re_split_ws (rstrip first)))) in
        let rows := (Z.of_nat (length rest) + 1)%Z in
        load_text_lines rows cols lines
    end.

  (* ' '.join(l).  compat/text.py 170. *)
  Definition join_space (l : list str) : str :=
    match l with
    | [] => []
    | x :: l' => x ++ concat (map (fun s => 32 :: s) l')
    end.
  (* file.write(s) of a text file; '\n' is written as it is (os.linesep on POSIX systems).
     compat/text.py 163-170. *)
  Definition wstr (s : str) : writer := wlet (utf8_encode s) wbytes.

  (* text.py 163-170 *)
  Definition text_write (e : embeddings F) (matrix : storage F) (dims : bool) (sep : str) : writer :=
    (if dims then
       let (rows, cols) := storage_shape matrix in
       wstr (str_of_N rows ++ [32] ++ str_of_N cols ++ [10])
     else wret) ;w;
    wfor (fun wi : str * Z =>
            let (word, idx) := wi in
            wlet (unnormalized_row e matrix idx) (fun row =>
              wstr word ;w; wstr sep ;w; wstr (join_space (map show (snd row))) ;w; wstr [10]))
         (enumerate (vocab_words (em_vocab e))).

  (* text.py 157-170, _write_text; write_text (90-113) is dims=False, write_text_dims
     (116-140) dims=True *)
  Definition write_text_any (e : embeddings F) (dims : bool) (sep : str) : file_action :=
    before_open (storage_slice (em_storage e) (slice_to (Z.of_N (vocab_len (em_vocab e)))))
      (fun matrix => open_wb (text_write e matrix dims sep)).

  (* ---------------------------------------------------------------- *)
  (* fasttext.py                                                       *)

  (* fasttext.py 19 *)
  Definition FT_MAGIC : Z := 793712314.

  (* fasttext.py 115-123, _read_ft_header *)
  Definition read_ft_header : reader unit :=
    h <~ read2 fI32 fI32 ;;
    let '(magic, version) := h in
    if negb (magic =? FT_MAGIC)%Z then rfail ValueError
    else if negb (version =? 12)%Z then rfail ValueError
    else rret tt.

  (* fasttext.py 316-320 *)
  Definition ft_cfg_keys : list str :=
    map py_str ["dims"; "window_size"; "epoch"; "min_count"; "ns"; "word_ngrams"; "loss";
                "model"; "buckets"; "min_n"; "max_n"; "lr_update_rate"; "sampling_threshold"]%string.
  (* compat/fasttext.py 131. *)
  Definition ft_losses : list str :=
    map py_str ["HierarchicalSoftmax"; "NegativeSampling"; "Softmax"]%string.
  (* compat/fasttext.py 133. *)
  Definition ft_models : list str := map py_str ["CBOW"; "SkipGram"; "Supervised"]%string.

  (* the configuration as a Python object: the metadata together with the three values that
     are looked up in it (fasttext.py 50-51) *)
  Record ft_cfg : Type := FtCfg { fc_metadata : metadata; fc_buckets : Z; fc_min_n : Z; fc_max_n : Z }.

  (* fasttext.py 126-135, _read_ft_cfg; the index is one less than the stored number, so that
     0, -1 and -2 count from the end of the list *)
  Definition read_ft_cfg : reader ft_cfg :=
    cfg <~ read_required_binary (repeat fI32 12 ++ [fF64]) ;;
    match cfg with
    | [dims; ws; epoch; mc; ns; wn; loss; model; buckets; min_n; max_n; lr; st] =>
        loss <~ rlift (py_index ft_losses (loss - 1)) ;;
        model <~ rlift (py_index ft_models (model - 1)) ;;
        rret (FtCfg (combine ft_cfg_keys
                       [MInt dims; MInt ws; MInt epoch; MInt mc; MInt ns; MInt wn; MStr loss;
                        MStr model; MInt buckets; MInt min_n; MInt max_n; MInt lr; MFloat st])
                    buckets min_n max_n)
    | _ => rfail ValueError
    end.

  (* fasttext.py 162-180, _read_binary_word *)
  Definition ft_read_word (lossy : bool) : reader str :=
    word <~ read_until x00 ;;
    _ <~ read1 fI64 ;;
    entry_type <~ read1 fI8 ;;
    if negb (entry_type =? 0)%Z then rfail ValueError
    else rlift (decode_word lossy word).

  (* fasttext.py 138-159, _read_ft_vocab *)
  Definition read_ft_vocab (buckets min_n max_n : Z) (lossy : bool) : reader vocab :=
    h <~ read_required_binary [fI32; fI32; fI32] ;;
    match h with
    | [vocab_size; _; n_labels] =>
        if negb (n_labels =? 0)%Z then rfail NotImplementedError
        else
          _ <~ read1 fI64 ;;
          prune_idx_size <~ read1 fI64 ;;
          if (0 <=? prune_idx_size)%Z then rfail NotImplementedError
          else
            words <~ rrepeat (Z.to_nat vocab_size) (ft_read_word lossy) ;;
            rlift (indexer <- ft_new buckets min_n max_n ;; fasttext_vocab_new words indexer)
    | _ => rfail ValueError
    end.

  (* np.fromfile with any count: a negative one reads all complete elements that are left.
     compat/fasttext.py 196-197. *)
  Definition fromfile_count (count : Z) : reader (list F) :=
    if (count <? 0)%Z
    then fun d p => fromfile_native host c ((lenN d - p) / 4) d p
    else fromfile_native host c (Z.to_N count).
  (* reshape((rows, cols)): a negative dimension is inferred from the other one.
     compat/fasttext.py 196-197. *)
  Definition reshape_any (rows cols : Z) (l : list F) : result (N * N * list (list F)) :=
    let infer (known : Z) : result Z :=
      if (known <=? 0)%Z then Err ValueError
      else if (Z.of_nat (length l) mod known =? 0)%Z then Ok (Z.of_nat (length l) / known)%Z
      else Err ValueError in
    rows' <- (if (rows <? 0)%Z then infer cols else Ok rows) ;;
    cols' <- (if (cols <? 0)%Z then infer rows else Ok cols) ;;
    m <- reshape2 (Z.to_N rows') (Z.to_N cols') l ;;
    Ok (Z.to_N rows', Z.to_N cols', m).

  (* fasttext.py 205-218, _precompute_word_vecs; mean(0) is the sum of the rows divided by
     their number *)
  Definition precompute_word_vecs (v : vocab) (cols : N) (matrix : list (list F))
    : result (list (list F)) :=
    foldM (fun m (wi : str * Z) =>
             let (word, i) := wi in
             sub <- vocab_subword_indices v word true false ;;
             let indices := i :: map sw_index sub in
             rows <- mapM (py_index m) indices ;;
             py_setrow m i (vdiv o (vsum o (N.to_nat cols) rows) (fofZ o (Z.of_nat (length indices)))))
          (enumerate (vocab_words v)) matrix.

  (* fasttext.py 183-202, _read_ft_storage; the vocabulary is always a FastTextVocab *)
  Definition read_ft_storage (v : vocab) : reader (ndarray F) :=
    quantized <~ read1 fBool ;;
    if negb (quantized =? 0)%Z then rfail NotImplementedError
    else
      rc <~ read2 fI64 fI64 ;;
      let '(rows, cols) := rc in
      array <~ fromfile_count (rows * cols) ;;
      rlift ('(_, ncols, m) <- reshape_any rows cols array ;;
             m' <- precompute_word_vecs v ncols m ;;
             Ok (NdA BoNative ncols m')).

  (* fasttext.py 22-58; the rows of the words are normalised in place through the slice *)
  Definition load_fasttext (lossy : bool) : reader (embeddings F) :=
    _ <~ read_ft_header ;;
    cfg <~ read_ft_cfg ;;
    v <~ read_ft_vocab (fc_buckets cfg) (fc_min_n cfg) (fc_max_n cfg) lossy ;;
    a <~ read_ft_storage v ;;
    let n := N.to_nat (vocab_len v) in
    let (words, norms) := normalize_matrix (firstn n (nd_rows a)) in
    rlift (embeddings_new (SNd (NdA (nd_bo a) (nd_cols a) (words ++ skipn n (nd_rows a)))) v
             (Some (Norms BoNative norms)) (Some (fc_metadata cfg))).

  (* fasttext.py 221-257, _write_ft_cfg; the last value is a double, 0.0 *)
  Definition write_ft_cfg (dims n_buckets min_n max_n : Z) : writer :=
    write_binary (repeat fI32 12 ++ [fF64])
      [dims; 0; 0; 0; 0; 1; 1; 1; n_buckets; min_n; max_n; 0; 0]%Z.

  (* fasttext.py 260-274, _write_ft_vocab *)
  Definition write_ft_vocab (v : vocab) : writer :=
    write_binary [fI32; fI32; fI32] [Z.of_N (vocab_len v); Z.of_N (vocab_len v); 0%Z] ;w;
    write_binary [fI64; fI64] [0; -1]%Z ;w;
    wfor (fun word =>
            wlet (utf8_encode word) (fun b => wbytes b ;w; wbytes [x00] ;w;
              write_binary [fI64] [0%Z] ;w; write_binary [fI8] [0%Z]))
         (vocab_words v).

  (* fasttext.py 289-295: the vector of the word before precomputation and normalisation *)
  Definition ft_word_vector (e : embeddings F) (word : str) (i : Z) : result (list F) :=
    indices <- vocab_subword_indices (em_vocab e) word true false ;;
    embed <- storage_get o (em_storage e) i ;;
    let embed := map (fun a => fmul o a (fofZ o (Z.of_nat (length indices) + 1))) embed in
    embed <- match em_norms e with
             | None => Ok embed
             | Some n => x <- py_index (nm_vals n) i ;; Ok (map (fun a => fmul o a x) embed)
             end ;;
    sw_embeds <- storage_get_list o (em_storage e) (map sw_index indices) ;;
    Ok (vsub o embed (vsum o (N.to_nat (em_dims e)) sw_embeds)).

  (* _serialize_array_as_le of a storage: a QuantizedArray has no dtype.
     compat/fasttext.py 112, 298. *)
  Definition serialize_storage (s : storage F) : writer :=
    match s with
    | SNd a => serialize host c (nd_bo a) (concat (nd_rows a))
    | SQuant _ => wfail AttributeError
    end.

  (* fasttext.py 277-298, _write_ft_storage_subwords *)
  Definition write_ft_storage_subwords (e : embeddings F) : writer :=
    wfor (fun wi : str * Z =>
            wlet (ft_word_vector e (fst wi) (snd wi)) (fun embed => serialize host c BoNative embed))
         (enumerate (vocab_words (em_vocab e))) ;w;
    wlet (storage_slice (em_storage e) (slice_from (Z.of_N (vocab_len (em_vocab e)))))
      serialize_storage.

  (* fasttext.py 99-112: the body of the with statement.  A FastTextVocab is not a SimpleVocab,
     so lines 109 and 301-313 (_write_ft_storage_simple) are never reached. *)
  Definition ft_write (e : embeddings F) : writer :=
    match em_vocab e with
    | VFastText _ _ ix =>
        write_binary [fI32; fI32] [FT_MAGIC; 12%Z] ;w;
        write_ft_cfg (Z.of_N (em_dims e)) (Z.of_N (ft_buckets ix))
          (Z.of_N (ft_min_n ix)) (Z.of_N (ft_max_n ix)) ;w;
        write_ft_vocab (em_vocab e) ;w;
        write_binary [fBool; fU64; fU64]
          [0%Z; Z.of_N (fst (storage_shape (em_storage e))); Z.of_N (snd (storage_shape (em_storage e)))] ;w;
        write_ft_storage_subwords e ;w;
        serialize_storage (em_storage e)
    | _ => wfail ValueError
    end.
  (* fasttext.py 61-112 *)
  Definition write_fasttext (e : embeddings F) : file_action := open_wb (ft_write e).
End Compat.

(* ---------------------------------------------------------------- *)
(* File level behaviour of the finalfusion writers                   *)

(* io.py 33-52, Chunk.write: the test for headers is inside the with statement *)
Definition chunk_write_file (cid : chunk_id) (w : writer) : file_action := open_wb (chunk_write cid w).
(* embeddings.py 416-432 *)
Definition em_write_file (host : endian) (t : toml_lib) (e : embeddings f32) : file_action :=
  open_wb (em_write host t e).
