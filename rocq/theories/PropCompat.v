(* C34-C38: word2vec, text and fastText files, and what rejected writes do to the target file.
   Statements only; proofs are in the other files. *)
From Coq Require Import Reals.
From Verif Require Import Py Utf8 IO Arr Subword Vocab Storage Chunks Embeddings PyText Compat
  Spec SpecVocab SpecLookup SpecReal SpecCompat.
From Verif Require Import CompatProofs Word2vecProofs W2vTrunc TextProofs FasttextProofs FasttextReal
  Samples VocabWitness LookupWitness CompatWitness.
Local Open Scope N_scope.

(* C34 *)
Theorem C34_writes : forall F (o : fops F) host (c : codec F) (e : embeddings F) old,
  built_embeddings e -> valid_codes (em_storage e) ->
  Forall encodable (vocab_words (em_vocab e)) ->
  exists out, write_word2vec o host c e old = (Some out, Ok tt).
Proof. exact @write_word2vec_succeeds. Qed.
Print Assumptions C34_writes.
(* any arithmetic: rows is what is written, in_file c rows what float32 makes of it *)
Theorem C34_round_trip : forall F (o : fops F) host (c : codec F) (e : embeddings F) old out,
  built_embeddings e ->
  Forall (fun w => ~ In 32 w) (vocab_words (em_vocab e)) ->
  Forall no_edge_space (vocab_words (em_vocab e)) ->
  array_fits (N.of_nat (n_words (em_vocab e))) (em_dims e) ->
  write_word2vec o host c e old = (Some out, Ok tt) ->
  exists rows, written_rows o e rows
    /\ forall h lossy, exists e', run_reader (load_word2vec o h c lossy) out = Ok e'
         /\ simple_embeddings o e' (vocab_words (em_vocab e)) (em_dims e) (in_file c rows).
Proof. exact @word2vec_round_trip. Qed.
Print Assumptions C34_round_trip.
(* exact arithmetic: the product of row and norm is the row that was written, if that is not zero *)
Theorem C34_product_partial : forall host (c : codec R) (e : embeddings R) old out,
  built_embeddings e ->
  Forall (fun w => ~ In 32 w) (vocab_words (em_vocab e)) ->
  Forall no_edge_space (vocab_words (em_vocab e)) ->
  array_fits (N.of_nat (n_words (em_vocab e))) (em_dims e) ->
  write_word2vec r_ops host c e old = (Some out, Ok tt) ->
  exists rows, written_rows r_ops e rows
    /\ (exact_in_file c rows -> forall h lossy, exists e',
           run_reader (load_word2vec r_ops h c lossy) out = Ok e'
           /\ vocab_words (em_vocab e') = vocab_words (em_vocab e)
           /\ storage_rows (em_storage e') = n_words (em_vocab e)
           /\ forall k row, nth_error rows k = Some row -> Exists (fun a => a <> 0%R) row ->
                split_row e' k row).
Proof. exact word2vec_exact. Qed.
Print Assumptions C34_product_partial.
(* a row of zeros does not come back if 0 / 0 is not a number *)
Theorem C34_zero_refuted : exists (e : embeddings (option Z)) out e' v n,
  built_embeddings e /\ written_row nan_ops e 0 [Some 0; Some 0]%Z
  /\ write_word2vec nan_ops Little nc e None = (Some out, Ok tt)
  /\ run_reader (load_word2vec nan_ops Little nc false) out = Ok e'
  /\ storage_get nan_ops (em_storage e') 0 = Ok v /\ em_norms e' = Some n
  /\ map (fun x => fmul nan_ops x (nth 0 (nm_vals n) (Some 1%Z))) v <> [Some 0; Some 0]%Z.
Proof.
  destruct e_zero_reload as (out & e' & H1 & H2 & H3 & H4).
  exists e_zero, out, e'. do 2 eexists. split; [exact e_zero_built|]. split; [eexists; split; reflexivity|].
  split; [exact H1|]. split; [exact H2|]. rewrite H3, H4. split; [reflexivity|]. split; [reflexivity|discriminate].
Qed.
Print Assumptions C34_zero_refuted.
Example C34_sample : built_embeddings e_w2v /\ valid_codes (em_storage e_w2v)
  /\ Forall (fun w => ~ In 32 w) (vocab_words (em_vocab e_w2v))
  /\ Forall no_edge_space (vocab_words (em_vocab e_w2v)) /\ Forall encodable (vocab_words (em_vocab e_w2v))
  /\ array_fits (N.of_nat (n_words (em_vocab e_w2v))) (em_dims e_w2v)
  /\ write_word2vec z_ops Little zc e_w2v (Some [x00]) = (Some out_w2v, Ok tt)
  /\ written_rows z_ops e_w2v [[32; 10]; [6; -2]; [30; 0]]%Z
  /\ exists e', run_reader (load_word2vec z_ops Big zc false) out_w2v = Ok e'
       /\ simple_embeddings z_ops e' [w_ab; w_ce; w_d] 2 [[32; 10]; [6; -2]; [30; 0]]%Z.
Proof.
  pose proof e_w2v_words as H. split; [exact e_w2v_built|]. split; [exact I|]. split; [apply H|]. split; [apply H|].
  split; [apply H|]. split; [apply H|]. split; [apply out_w2v_ok|]. split; [exact rows_w2v_written|exact out_w2v_reload].
Qed.
Example C34_sample_real : built_embeddings e_real
  /\ Forall (fun w => ~ In 32 w) (vocab_words (em_vocab e_real))
  /\ Forall no_edge_space (vocab_words (em_vocab e_real))
  /\ array_fits (N.of_nat (n_words (em_vocab e_real))) (em_dims e_real)
  /\ (exists out, write_word2vec r_ops Big (tc [1; 2; 3; 4]%R) e_real None = (Some out, Ok tt))
  /\ exists rows, written_rows r_ops e_real rows /\ exact_in_file (tc [1; 2; 3; 4]%R) rows
       /\ Forall (Exists (fun a => a <> 0%R)) rows.
Proof.
  pose proof e_real_words as H. split; [exact e_real_built|]. split; [apply H|]. split; [apply H|]. split; [apply H|].
  split; [|exact e_real_w2v]. apply C34_writes; [exact e_real_built|exact I|apply H].
Qed.

(* C35 is false: a file cut so that exactly one float of the last row is left still loads, the
   float fills the whole row.  Every other cut is rejected. *)
Theorem C35_refuted : exists (e : embeddings Z) out m e',
  built_embeddings e /\ write_word2vec z_ops Little zc e None = (Some out, Ok tt) /\ m + 5 = lenN out
  /\ run_reader (load_word2vec z_ops Little zc false) (takeN m out) = Ok e' /\ em_vocab e' = em_vocab e.
Proof.
  destruct out_w2v_cut as (e' & H1 & H2).
  exists e_w2v, out_w2v, (lenN out_w2v - 5), e'. split; [exact e_w2v_built|]. split; [apply out_w2v_ok|].
  split; [reflexivity|]. split; [exact H1|exact H2].
Qed.
Print Assumptions C35_refuted.
(* any file that loads; q is the number of bytes that are used *)
Theorem C35_cut_partial : forall F (o : fops F) h (c : codec F) lossy d e q m,
  load_word2vec o h c lossy d 0 = Ok (e, q) ->
  (0 < n_words (em_vocab e))%nat -> m < q ->
  exists s, last_row (em_dims e) d q s
    /\ ((one_float (em_dims e) m s
         /\ exists e', load_word2vec o h c lossy (takeN m d) 0 = Ok (e', m)
                       /\ vocab_words (em_vocab e') = vocab_words (em_vocab e)
                       /\ em_dims e' = em_dims e)
        \/ (~ one_float (em_dims e) m s
            /\ exists x, load_word2vec o h c lossy (takeN m d) 0 = Err x)).
Proof. exact @word2vec_cut. Qed.
Print Assumptions C35_cut_partial.
Theorem C35_written_partial : forall F (o : fops F) host (c : codec F) (e : embeddings F) old out h lossy m,
  built_embeddings e ->
  Forall (fun w => ~ In 32 w) (vocab_words (em_vocab e)) ->
  Forall no_edge_space (vocab_words (em_vocab e)) ->
  array_fits (N.of_nat (n_words (em_vocab e))) (em_dims e) -> (0 < n_words (em_vocab e))%nat ->
  write_word2vec o host c e old = (Some out, Ok tt) -> m + 1 < lenN out ->
  let s := lenN out - 1 - 4 * em_dims e in
  (one_float (em_dims e) m s
   /\ exists e', run_reader (load_word2vec o h c lossy) (takeN m out) = Ok e'
                 /\ vocab_words (em_vocab e') = vocab_words (em_vocab e) /\ em_dims e' = em_dims e)
  \/ (~ one_float (em_dims e) m s
      /\ exists x, run_reader (load_word2vec o h c lossy) (takeN m out) = Err x).
Proof. exact @word2vec_written_cut. Qed.
Print Assumptions C35_written_partial.
Example C35_sample : (exists e q, load_word2vec z_ops Little zc false out_w2v 0 = Ok (e, q)
    /\ (0 < n_words (em_vocab e))%nat /\ lenN out_w2v - 9 < q)
  /\ run_reader (load_word2vec z_ops Little zc false) (takeN (lenN out_w2v - 9) out_w2v) = Err ValueError
  /\ ~ one_float 2 (lenN out_w2v - 9) (lenN out_w2v - 1 - 4 * 2).
Proof.
  split; [|split; [vm_compute; reflexivity|]].
  - eexists. eexists. split; [vm_compute; reflexivity|]. split; vm_compute; [apply le_n|reflexivity] || (split; [repeat constructor|reflexivity]).
  - unfold one_float. vm_compute. intros [_ [H _]]. now apply H.
Qed.

(* C36: the round trip holds but for the empty vocabulary without dimensions; a line with a
   single component is accepted whatever the number of columns. *)
Theorem C36_writes : forall F (o : fops F) (show : F -> str) (e : embeddings F) dims sep old rows,
  built_embeddings e -> valid_codes (em_storage e) ->
  Forall encodable (vocab_words (em_vocab e)) -> encodable sep ->
  written_rows o e rows -> Forall (Forall (fun x => encodable (show x))) rows ->
  exists out, write_text_any o show e dims sep old = (Some out, Ok tt).
Proof. exact (fun F o show => write_text_succeeds o show (fun _ => Err ValueError)). Qed.
Print Assumptions C36_writes.
Theorem C36_dims_round_trip : forall F (o : fops F) (show : F -> str) (parse : str -> result F)
  (e : embeddings F) sep old out rows,
  built_embeddings e -> 0 < em_dims e ->
  gap sep -> ~ In 10 sep -> ~ In 13 sep -> Forall no_ascii_space (vocab_words (em_vocab e)) ->
  array_fits (N.of_nat (n_words (em_vocab e))) (em_dims e) ->
  write_text_any o show e true sep old = (Some out, Ok tt) ->
  written_rows o e rows -> text_exact show parse rows ->
  forall lossy, exists e', load_text_dims o parse lossy out = Ok e'
     /\ simple_embeddings o e' (vocab_words (em_vocab e)) (em_dims e) rows.
Proof. exact @text_dims_round_trip. Qed.
Print Assumptions C36_dims_round_trip.
Theorem C36_round_trip_partial : forall F (o : fops F) (show : F -> str) (parse : str -> result F)
  (e : embeddings F) sep old out rows,
  built_embeddings e -> 0 < em_dims e -> (0 < n_words (em_vocab e))%nat ->
  gap sep -> ~ In 10 sep -> ~ In 13 sep -> Forall no_ascii_space (vocab_words (em_vocab e)) ->
  array_fits (N.of_nat (n_words (em_vocab e))) (em_dims e) ->
  write_text_any o show e false sep old = (Some out, Ok tt) ->
  written_rows o e rows -> text_exact show parse rows ->
  forall lossy, exists e', load_text o parse lossy out = Ok e'
     /\ simple_embeddings o e' (vocab_words (em_vocab e)) (em_dims e) rows.
Proof. exact @text_round_trip. Qed.
Print Assumptions C36_round_trip_partial.
Theorem C36_empty_refuted : exists (e : embeddings Z) out,
  built_embeddings e /\ 0 < em_dims e /\ Forall no_ascii_space (vocab_words (em_vocab e))
  /\ write_text_any z_ops z_show e false [32] None = (Some out, Ok tt)
  /\ forall lossy, load_text z_ops py_int lossy out = Err ValueError.
Proof.
  exists e_none, []. split; [exact e_none_built|]. split; [reflexivity|]. split; [constructor|].
  split; [apply e_none_text; exact true|]. intros lossy. exact (proj2 (e_none_text lossy None)).
Qed.
Print Assumptions C36_empty_refuted.
Example C36_sample : built_embeddings e_text /\ 0 < em_dims e_text /\ (0 < n_words (em_vocab e_text))%nat
  /\ gap [32] /\ Forall no_ascii_space (vocab_words (em_vocab e_text))
  /\ array_fits (N.of_nat (n_words (em_vocab e_text))) (em_dims e_text)
  /\ (forall dims old, write_text_any z_ops z_show e_text dims [32] old = (Some (out_text dims), Ok tt))
  /\ written_rows z_ops e_text [[32; 10]; [6; 2]; [30; 0]]%Z /\ text_exact z_show py_int [[32; 10]; [6; 2]; [30; 0]]%Z.
Proof.
  pose proof e_w2v_words as H. split; [exact e_text_built|]. split; [reflexivity|]. split; [repeat constructor|].
  split; [split; [discriminate|repeat constructor]|]. split; [apply H|]. split; [apply H|]. split; [exact out_text_ok|].
  split; [exact rows_text_written|exact rows_text_exact].
Qed.
(* what the loaders check *)
Theorem C36_counts_partial : forall F (o : fops F) (parse : str -> result F) lossy lines d e first w0 comps0,
  text_file (first :: lines) d -> text_line first w0 comps0 -> load_text o parse lossy d = Ok e ->
  em_dims e = lenN comps0 /\ n_words (em_vocab e) = S (length lines)
  /\ forall i line w comps, nth_error (first :: lines) i = Some line -> text_line line w comps ->
       nth_error (vocab_words (em_vocab e)) i = Some w /\ (lenN comps = em_dims e \/ lenN comps = 1).
Proof. exact @load_text_counts. Qed.
Print Assumptions C36_counts_partial.
Theorem C36_dims_counts_partial : forall F (o : fops F) (parse : str -> result F) lossy lines d e first,
  text_file (first :: lines) d -> load_text_dims o parse lossy d = Ok e ->
  (n_words (em_vocab e) <= length lines)%nat
  /\ (exists r k, py_split (first ++ [10]) = [r; k] /\ py_int r = Ok (Z.of_nat (n_words (em_vocab e)))
                  /\ py_int k = Ok (Z.of_N (em_dims e)))
  /\ forall i line w comps, nth_error lines i = Some line -> (i < n_words (em_vocab e))%nat ->
       text_line line w comps ->
       nth_error (vocab_words (em_vocab e)) i = Some w /\ (lenN comps = em_dims e \/ lenN comps = 1).
Proof. exact @load_text_dims_counts. Qed.
Print Assumptions C36_dims_counts_partial.
Theorem C36_counts_refuted : exists lines d (e : embeddings Z) line w comps,
  text_file lines d /\ load_text z_ops1 py_int false d = Ok e /\ In line lines /\ text_line line w comps
  /\ lenN comps <> em_dims e.
Proof.
  destruct short_text_loads as (e & H1 & H2 & _).
  exists short_lines, short_text, e, [98; 32; 51], [98], [[51]]. split; [exact short_text_file|]. split; [exact H1|].
  split; [right; left; reflexivity|]. split; [apply short_text_lines|]. rewrite H2. discriminate.
Qed.
Print Assumptions C36_counts_refuted.

(* C37 *)
Theorem C37_writes : forall F (o : fops F) host (c : codec F) (e : embeddings F) a ws idx ix old,
  built_embeddings e -> em_vocab e = VFastText ws idx ix -> em_storage e = SNd a -> Forall encodable ws ->
  lenN ws < 2 ^ 31 -> em_dims e < 2 ^ 31 -> ft_buckets ix < 2 ^ 31 -> ft_max_n ix < 2 ^ 31 ->
  exists out, write_fasttext o host c e old = (Some out, Ok tt).
Proof. exact @write_fasttext_succeeds. Qed.
Print Assumptions C37_writes.
(* any arithmetic: the vocabulary (words, n-gram range, buckets) and the subword rows are
   restored, the rows of the words are averages of what is in the file, normalised *)
Theorem C37_reload : forall F (o : fops F) host (c : codec F) (e : embeddings F) old out,
  built_embeddings e ->
  Forall (fun w => ~ In 0 w) (vocab_words (em_vocab e)) ->
  array_fits (N.of_nat (storage_rows (em_storage e))) (em_dims e) ->
  write_fasttext o host c e old = (Some out, Ok tt) ->
  exists us, length us = n_words (em_vocab e)
    /\ (forall k w, nth_error (vocab_words (em_vocab e)) k = Some w ->
          exists u, nth_error us k = Some u /\ fasttext_average o e c k w u)
    /\ forall h lossy, exists e', run_reader (load_fasttext o h c lossy) out = Ok e'
          /\ fasttext_embeddings o e e' c us.
Proof. exact @fasttext_reload. Qed.
Print Assumptions C37_reload.
(* exact arithmetic: products of row and norm are restored, and the subword rows *)
Theorem C37_product : forall host (c : codec R) (e : embeddings R) old out,
  built_embeddings e ->
  Forall (fun w => ~ In 0 w) (vocab_words (em_vocab e)) ->
  array_fits (N.of_nat (storage_rows (em_storage e))) (em_dims e) ->
  exact_fasttext r_ops e c ->
  write_fasttext r_ops host c e old = (Some out, Ok tt) ->
  exists rows, written_rows r_ops e rows
    /\ forall h lossy, exists e', run_reader (load_fasttext r_ops h c lossy) out = Ok e'
         /\ em_vocab e' = em_vocab e
         /\ storage_rows (em_storage e') = storage_rows (em_storage e)
         /\ (forall k row, nth_error rows k = Some row -> Exists (fun a => a <> 0%R) row ->
               split_row e' k row)
         /\ (forall k, (n_words (em_vocab e) <= k < storage_rows (em_storage e))%nat ->
               storage_get r_ops (em_storage e') (Z.of_nat k) = storage_get r_ops (em_storage e) (Z.of_nat k)).
Proof. exact fasttext_product. Qed.
Print Assumptions C37_product.
(* the rows and norms themselves are restored if the rows are unit vectors *)
Theorem C37_partial : forall host (c : codec R) (e : embeddings R) n old out,
  built_embeddings e ->
  Forall (fun w => ~ In 0 w) (vocab_words (em_vocab e)) ->
  array_fits (N.of_nat (storage_rows (em_storage e))) (em_dims e) ->
  exact_fasttext r_ops e c ->
  em_norms e = Some n -> Forall (fun x => 0 < x)%R (nm_vals n) ->
  (forall k row, (k < n_words (em_vocab e))%nat -> storage_get r_ops (em_storage e) (Z.of_nat k) = Ok row ->
     sum_squares row = 1%R) ->
  write_fasttext r_ops host c e old = (Some out, Ok tt) ->
  forall h lossy, exists e', run_reader (load_fasttext r_ops h c lossy) out = Ok e'
    /\ em_vocab e' = em_vocab e /\ em_storage e' = native_storage (em_storage e)
    /\ em_norms e' = Some (Norms BoNative (nm_vals n)).
Proof. exact fasttext_identity. Qed.
Print Assumptions C37_partial.
(* otherwise they are not: C37 as stated is false *)
Theorem C37_refuted : exists (c : codec R) (e : embeddings R) out,
  built_embeddings e /\ Forall (fun w => ~ In 0 w) (vocab_words (em_vocab e))
  /\ array_fits (N.of_nat (storage_rows (em_storage e))) (em_dims e) /\ exact_fasttext r_ops e c
  /\ (forall rows, written_rows r_ops e rows -> rows = [[3; 4]%R])
  /\ write_fasttext r_ops Little c e None = (Some out, Ok tt)
  /\ forall h lossy, exists e', run_reader (load_fasttext r_ops h c lossy) out = Ok e'
       /\ em_storage e' <> em_storage e /\ em_norms e' <> em_norms e.
Proof.
  destruct e_long_changes as (out & H1 & H2). pose proof e_ft_words as H.
  exists c_long, e_long, out. split; [exact e_long_built|]. split; [apply H|]. split; [apply H|].
  split; [exact e_long_exact|]. split; [|split; [exact H1|exact H2]].
  intros rows WR. apply (written_rows_unique r_ops e_long); [exact WR|]. split; [reflexivity|].
  intros [|[|k]] row Hk; try discriminate. injection Hk as <-. eexists. split; reflexivity.
Qed.
Print Assumptions C37_refuted.
Example C37_sample : built_embeddings e_ftz /\ Forall (fun w => ~ In 0 w) (vocab_words (em_vocab e_ftz))
  /\ array_fits (N.of_nat (storage_rows (em_storage e_ftz))) (em_dims e_ftz)
  /\ write_fasttext z_ops1 Little zc e_ftz (Some [x07]) = (Some out_ft, Ok tt)
  /\ exists e', run_reader (load_fasttext z_ops1 Little zc false) out_ft = Ok e'
       /\ em_vocab e' = em_vocab e_ftz /\ em_storage e' = SNd (NdA BoNative 2 [[2; 0]; [1; 2]; [3; 5]; [0; 4]]%Z).
Proof.
  pose proof e_ft_words as H. split; [exact e_ftz_built|]. split; [apply H|]. split; [apply H|].
  split; [apply out_ft_ok|]. eexists. split; [vm_compute; reflexivity|]. split; reflexivity.
Qed.
Example C37_sample_real : built_embeddings e_unit /\ Forall (fun w => ~ In 0 w) (vocab_words (em_vocab e_unit))
  /\ array_fits (N.of_nat (storage_rows (em_storage e_unit))) (em_dims e_unit)
  /\ exact_fasttext r_ops e_unit c_unit
  /\ em_norms e_unit = Some (Norms BoNative [2%R]) /\ Forall (fun x => 0 < x)%R [2%R]
  /\ (forall k row, (k < n_words (em_vocab e_unit))%nat ->
        storage_get r_ops (em_storage e_unit) (Z.of_nat k) = Ok row -> sum_squares row = 1%R)
  /\ exists out, write_fasttext r_ops Little c_unit e_unit None = (Some out, Ok tt).
Proof.
  pose proof e_ft_words as H. split; [exact e_unit_built|]. split; [apply H|]. split; [apply H|].
  split; [exact e_unit_exact|]. split; [reflexivity|]. split; [repeat constructor; apply IZR_lt; reflexivity|].
  split; [exact e_unit_rows|apply e_ftr_written; exact e_unit_built].
Qed.

(* C38 is false: the file is opened (and emptied) before anything is checked *)
Theorem C38_refuted : exists (e : embeddings f32) old new x,
  built_embeddings e /\ em_write_file Little s_toml e (Some old) = (new, Err x) /\ new <> Some old.
Proof.
  destruct e_bad_rejected as (out & H1 & H2). exists e_bad, [x01], (Some out), UnicodeEncodeError.
  split; [exact e_bad_built|]. split; [exact H1|]. intros [= E]. now apply H2.
Qed.
Print Assumptions C38_refuted.
Theorem C38_fasttext : forall F (o : fops F) host (c : codec F) (e : embeddings F) old,
  (forall ws idx ix, em_vocab e <> VFastText ws idx ix) ->
  write_fasttext o host c e old = (Some [], Err ValueError).
Proof. exact @ft_rejects. Qed.
Print Assumptions C38_fasttext.
Theorem C38_header : forall w old, chunk_write_file CHeader w old = (Some [], Err TypeError).
Proof. exact header_rejects. Qed.
Print Assumptions C38_header.
(* no writer keeps anything of the old contents *)
Theorem C38_partial : forall F (o : fops F) host (c : codec F) (show : F -> str) (e : embeddings F) old1 old2,
  built_embeddings e ->
  write_word2vec o host c e old1 = write_word2vec o host c e old2
  /\ (forall dims sep, write_text_any o show e dims sep old1 = write_text_any o show e dims sep old2)
  /\ write_fasttext o host c e old1 = write_fasttext o host c e old2.
Proof. exact @writers_ignore_old. Qed.
Print Assumptions C38_partial.
Example C38_sample : built_embeddings e_w2v /\ (forall ws idx ix, em_vocab e_w2v <> VFastText ws idx ix)
  /\ write_fasttext z_ops Little zc e_w2v (Some [x01; x02]) = (Some [], Err ValueError).
Proof. split; [exact e_w2v_built|]. split; [discriminate|reflexivity]. Qed.
