(* C50-C54: which word2vec, text and fastText files load, and as what.
   Statements only; proofs are in the other files. *)
From Verif Require Import Py Utf8 IO Arr Subword Vocab Storage Chunks Embeddings PyText Compat
  Spec SpecVocab SpecLookup SpecCompat SpecFasttext SpecText.
From Verif Require Import LossyProofs FtLayout FtCut TextLayout W2vLayout
  Samples VocabWitness LookupWitness CompatWitness FormatsWitness.
Local Open Scope N_scope.
Local Open Scope list_scope.

(* C50 *)
Theorem C50_word2vec : forall F (o : fops F) h (c : codec F) d,
  run_reader (load_word2vec o h c false) d = run_reader (load_word2vec o h c true) d
  \/ run_reader (load_word2vec o h c false) d = Err UnicodeDecodeError.
Proof. exact @lossy_word2vec. Qed.
Print Assumptions C50_word2vec.
Theorem C50_text : forall F (o : fops F) parse d,
  (load_text o parse false d = load_text o parse true d
   \/ load_text o parse false d = Err UnicodeDecodeError)
  /\ (load_text_dims o parse false d = load_text_dims o parse true d
      \/ load_text_dims o parse false d = Err UnicodeDecodeError).
Proof. exact (fun F o parse d => conj (@but_text F o parse d) (@but_text_dims F o parse d)). Qed.
Print Assumptions C50_text.
Theorem C50_fasttext : forall F (o : fops F) h (c : codec F) d,
  (run_reader (load_fasttext o h c false) d = run_reader (load_fasttext o h c true) d
   \/ run_reader (load_fasttext o h c false) d = Err UnicodeDecodeError)
  /\ run_reader (load_fasttext o h c true) d <> Err UnicodeDecodeError.
Proof. exact (fun F o h c d => conj (@lossy_fasttext F o h c d) (@lossy_fasttext_decodes F o h c d)). Qed.
Print Assumptions C50_fasttext.
(* a lossily read text is the text with the replacement characters written out *)
Theorem C50_text_again : forall F (o : fops F) parse d, exists d',
  utf8_encode (decode_replace d) = Ok d'
  /\ load_text o parse true d = load_text o parse false d'
  /\ load_text_dims o parse true d = load_text_dims o parse false d'.
Proof.
  exact (fun F o parse d => match lossy_text_encodes d with
         | ex_intro _ d' E => ex_intro _ d' (conj E (@lossy_text_again F o parse d d' E)) end).
Qed.
Print Assumptions C50_text_again.
Theorem C50_text_decodes : forall F (o : fops F) parse,
  (forall s, parse s <> Err UnicodeDecodeError) -> forall d,
  load_text o parse true d <> Err UnicodeDecodeError
  /\ load_text_dims o parse true d <> Err UnicodeDecodeError.
Proof. exact (fun F o parse P d => conj (@lossy_text_decodes F o parse P d) (@lossy_text_dims_decodes F o parse P d)). Qed.
Print Assumptions C50_text_decodes.
(* word2vec: the first line is always decoded strictly *)
Theorem C50_word2vec_header : forall F (o : fops F) h (c : codec F) d,
  run_reader (load_word2vec o h c true) d = Err UnicodeDecodeError
  <-> exists l b r, d = l ++ b :: r /\ ~ In x0a l /\ 128 <= Byte.to_N b.
Proof. exact @lossy_word2vec_header. Qed.
Print Assumptions C50_word2vec_header.
Example C50_word2vec_example : run_reader (load_word2vec z_ops1 Little zc false) w2v_malformed = Err UnicodeDecodeError
  /\ exists e, run_reader (load_word2vec z_ops1 Little zc true) w2v_malformed = Ok e
     /\ vocab_words (em_vocab e) = [[0xFFFD]].
Proof. exact w2v_malformed_loads. Qed.
Example C50_header_example : run_reader (load_word2vec z_ops1 Little zc true) [xc3; xa9; x20; x31; x0a] = Err UnicodeDecodeError.
Proof. exact w2v_first_line. Qed.
Example C50_text_example : load_text z_ops1 py_int false [x61; xff; x20; x31] = Err UnicodeDecodeError
  /\ exists e, load_text z_ops1 py_int true [x61; xff; x20; x31] = Ok e /\ vocab_words (em_vocab e) = [[97; 0xFFFD]].
Proof. exact txt_malformed. Qed.
Example C50_parse_example : forall s, py_int s <> Err UnicodeDecodeError.
Proof. exact py_int_decodes. Qed.

(* C51 *)
Theorem C51_cut : forall F (o : fops F) host (cd : codec F) lossy f rest r c ws k,
  ft_loadable lossy f rest r c ws -> (0 <= tf_rows f)%Z -> (0 <= tf_cols f)%Z ->
  (k < lenN (ft_bytes f) ->
     exists x, run_reader (load_fasttext o host cd lossy) (takeN k (ft_bytes f ++ rest)) = Err x)
  /\ (lenN (ft_bytes f) <= k ->
        run_reader (load_fasttext o host cd lossy) (takeN k (ft_bytes f ++ rest))
        = run_reader (load_fasttext o host cd lossy) (ft_bytes f ++ rest)).
Proof. exact @cut_loadable. Qed.
Print Assumptions C51_cut.
(* write_fasttext writes the storage twice *)
Theorem C51_written : forall F (o : fops F) host (cd : codec F) lossy (e : embeddings F) old out k,
  built_embeddings e -> Forall (fun w => ~ In 0 w) (vocab_words (em_vocab e)) ->
  array_fits (N.of_nat (storage_rows (em_storage e))) (em_dims e) ->
  write_fasttext o host cd e old = (Some out, Ok tt) ->
  let used := lenN out - 4 * (N.of_nat (storage_rows (em_storage e)) * em_dims e) in
  (k < used -> exists x, run_reader (load_fasttext o host cd lossy) (takeN k out) = Err x)
  /\ (used <= k -> run_reader (load_fasttext o host cd lossy) (takeN k out)
                   = run_reader (load_fasttext o host cd lossy) out).
Proof. exact @written_cut. Qed.
Print Assumptions C51_written.
(* with a negative number of columns a file cut short loads with fewer columns *)
Theorem C51_negative : exists f r c ws k e e',
  ft_loadable false f [] r c ws /\ k < lenN (ft_bytes f)
  /\ run_reader (load_fasttext z_ops1 Little zc false) (ft_bytes f) = Ok e
  /\ run_reader (load_fasttext z_ops1 Little zc false) (takeN k (ft_bytes f)) = Ok e'
  /\ em_dims e = 2 /\ em_dims e' = 1.
Proof. exact ft_negative_loads_less. Qed.
Print Assumptions C51_negative.
Example C51_cut_example : run_reader (load_fasttext z_ops1 Little zc false) (takeN 40 (ft_bytes (ft_sample 2 ft_data))) = Err FormatError.
Proof. exact ft_sample_cut. Qed.
Example C51_written_example : exists e out, built_embeddings e
  /\ Forall (fun w => ~ In 0 w) (vocab_words (em_vocab e))
  /\ array_fits (N.of_nat (storage_rows (em_storage e))) (em_dims e)
  /\ write_fasttext z_ops1 Little zc e None = (Some out, Ok tt)
  /\ run_reader (load_fasttext z_ops1 Little zc false) (takeN (lenN out - 33) out) = Err ValueError
  /\ run_reader (load_fasttext z_ops1 Little zc false) (takeN (lenN out - 32) out)
     = run_reader (load_fasttext z_ops1 Little zc false) out.
Proof. exact ft_written_sample. Qed.

(* C52 *)
Theorem C52_only : forall F (o : fops F) host (cd : codec F) lossy d e,
  run_reader (load_fasttext o host cd lossy) d = Ok e ->
  exists f rest r c ws, d = ft_bytes f ++ rest /\ ft_loadable lossy f rest r c ws
    /\ ft_embeddings o cd f r c ws e.
Proof. exact @load_fasttext_only. Qed.
Print Assumptions C52_only.
Theorem C52_any : forall F (o : fops F) host (cd : codec F) lossy f rest r c ws,
  ft_loadable lossy f rest r c ws ->
  exists e, run_reader (load_fasttext o host cd lossy) (ft_bytes f ++ rest) = Ok e
            /\ ft_embeddings o cd f r c ws e.
Proof. exact @load_fasttext_any. Qed.
Print Assumptions C52_any.
Example C52_example : ft_loadable false (ft_sample 2 ft_data) [x01; x02] 4 2 [[97; 98]; [233]].
Proof. exact ft_sample_loadable. Qed.
Example C52_loads : exists e, run_reader (load_fasttext z_ops1 Little zc false) (ft_bytes (ft_sample 2 ft_data) ++ [x01; x02]) = Ok e
  /\ em_dims e = 2 /\ vocab_words (em_vocab e) = [[97; 98]; [233]].
Proof. exact ft_sample_loads. Qed.

(* C53 *)
Theorem C53_text_only : forall F (o : fops F) parse lossy d e, load_text o parse lossy d = Ok e ->
  exists s first lines w0 comps0 ws ms,
    file_text lossy d s /\ text_has_lines s (first :: lines) /\ text_line first w0 comps0
    /\ array_fits (lenN (first :: lines)) (lenN comps0)
    /\ text_rows parse (lenN comps0) (first :: lines) ws ms /\ NoDup ws
    /\ simple_embeddings o e ws (lenN comps0) ms.
Proof. exact @load_text_only. Qed.
Print Assumptions C53_text_only.
Theorem C53_text_any : forall F (o : fops F) parse lossy d s first lines w0 comps0 ws ms,
  file_text lossy d s -> text_has_lines s (first :: lines) -> text_line first w0 comps0 ->
  array_fits (lenN (first :: lines)) (lenN comps0) ->
  text_rows parse (lenN comps0) (first :: lines) ws ms -> NoDup ws ->
  exists e, load_text o parse lossy d = Ok e /\ simple_embeddings o e ws (lenN comps0) ms.
Proof. exact @load_text_any. Qed.
Print Assumptions C53_text_any.
Theorem C53_dims_only : forall F (o : fops F) parse lossy d e, load_text_dims o parse lossy d = Ok e ->
  exists s first lines rest c ws ms,
    file_text lossy d s /\ text_has_lines s (first :: lines ++ rest)
    /\ header_line first (Z.of_nat (length lines)) (Z.of_N c)
    /\ array_fits (lenN lines) c /\ text_rows parse c lines ws ms /\ NoDup ws
    /\ simple_embeddings o e ws c ms.
Proof. exact @load_text_dims_only. Qed.
Print Assumptions C53_dims_only.
Theorem C53_dims_any : forall F (o : fops F) parse lossy d s first lines rest c ws ms,
  file_text lossy d s -> text_has_lines s (first :: lines ++ rest) ->
  header_line first (Z.of_nat (length lines)) (Z.of_N c) ->
  array_fits (lenN lines) c -> text_rows parse c lines ws ms -> NoDup ws ->
  exists e, load_text_dims o parse lossy d = Ok e /\ simple_embeddings o e ws c ms.
Proof. exact @load_text_dims_any. Qed.
Print Assumptions C53_dims_any.
Theorem C53_same : forall F (o : fops F) parse lossy h d s first lines w0 comps0,
  Forall (fun c => c < 128) h -> ~ In 10 h -> ~ In 13 h ->
  file_text lossy d s -> text_has_lines s (first :: lines) -> text_line first w0 comps0 ->
  header_line h (Z.of_nat (length (first :: lines))) (Z.of_nat (length comps0)) ->
  load_text_dims o parse lossy (map byte_of_N h ++ [x0a] ++ d) = load_text o parse lossy d.
Proof. exact @dims_like_text. Qed.
Print Assumptions C53_same.
Theorem C53_empty : forall F (o : fops F) parse lossy,
  load_text o parse lossy [] = Err ValueError /\ load_text_dims o parse lossy [] = Err StopIteration.
Proof. exact @empty_text. Qed.
Print Assumptions C53_empty.
Example C53_example : (forall lossy, file_text lossy txt_bytes txt_sample)
  /\ text_has_lines txt_sample txt_lines
  /\ text_line [97; 98; 9; 49; 32; 50; 32] [97; 98] [[49]; [50]]
  /\ text_rows py_int 2 txt_lines [[97; 98]; [233]] [[1; 2]; [3; 3]]%Z
  /\ header_line [50; 32; 43; 50] 2 2.
Proof. exact (conj txt_text (conj txt_has_lines (conj txt_first (conj txt_rows txt_header)))). Qed.
Example C53_loads : exists e, load_text z_ops1 py_int false txt_bytes = Ok e
  /\ load_text_dims z_ops1 py_int false (map byte_of_N [50; 32; 43; 50] ++ [x0a] ++ txt_bytes) = Ok e.
Proof. exact txt_loads. Qed.

(* C54 *)
Theorem C54_only : forall F (o : fops F) host (cd : codec F) lossy d e,
  run_reader (load_word2vec o host cd lossy) d = Ok e ->
  exists h body r c ws ms,
    w2v_file d h body /\ header_line h (Z.of_N r) (Z.of_N c) /\ array_fits r c
    /\ lenN ws = r /\ w2v_rows cd lossy c body ws ms /\ NoDup ws /\ simple_embeddings o e ws c ms.
Proof. exact @load_word2vec_only. Qed.
Print Assumptions C54_only.
Theorem C54_any : forall F (o : fops F) host (cd : codec F) lossy d h body r c ws ms,
  w2v_file d h body -> header_line h (Z.of_N r) (Z.of_N c) -> array_fits r c ->
  lenN ws = r -> w2v_rows cd lossy c body ws ms -> NoDup ws ->
  exists e, run_reader (load_word2vec o host cd lossy) d = Ok e /\ simple_embeddings o e ws c ms.
Proof. exact @load_word2vec_any. Qed.
Print Assumptions C54_any.
Example C54_example : w2v_file w2v_sample [50; 32; 50] w2v_body
  /\ header_line [50; 32; 50] (Z.of_N 2) (Z.of_N 2)
  /\ w2v_rows zc false 2 w2v_body [[97; 98]; [233]] [[1; 2]; [3; 3]]%Z.
Proof. exact (conj (proj1 w2v_sample_file) (conj (proj2 w2v_sample_file) w2v_sample_rows)). Qed.
Example C54_loads : exists e, run_reader (load_word2vec z_ops1 Little zc false) w2v_sample = Ok e
  /\ vocab_words (em_vocab e) = [[97; 98]; [233]].
Proof. exact w2v_sample_loads. Qed.
