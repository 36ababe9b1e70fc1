(* C39-C40 and C45-C49: the scripts, and queries on embeddings that were loaded again.
   Statements only; proofs are in the other files. *)
From Coq Require Import String.
From Verif Require Import Py Utf8 IO Arr Subword Vocab Storage Chunks Embeddings PyText Compat Scripts
  Spec SpecVocab SpecLookup SpecCompat SpecSame SpecScripts.
From Verif Require Import CompatBuilt SameProofs ScriptsProofs QueryProofs QueryMain ConvertProofs
  Samples VocabWitness LookupWitness CompatWitness ScriptsWitness.
Local Open Scope N_scope.
Local Open Scope list_scope.

(* C39 is false: see C39_refuted.  What get_skips returns: *)
Theorem C39_skips : forall a b c includes w, In w (get_skips a b c includes) <->
  (includes = [] /\ (w = a \/ w = b \/ w = c))
  \/ (includes <> [] /\ (w = a /\ ~ In PartA includes
                         \/ w = b /\ (~ In PartB includes \/ ~ In PartC includes))).
Proof. exact get_skips_iff. Qed.
Print Assumptions C39_skips.
(* the exclusion is right without --include and if c is included; missing: c not included *)
Theorem C39_run_partial : forall o host t show parse argpartition heappush f lossy mmap k includes d e queries lines qs,
  includes = [] \/ In PartC includes ->
  format_load o host t parse f lossy mmap d = Ok e ->
  text_file lines queries -> Forall2 query_line lines qs ->
  let p := analogy_main o host t show parse argpartition heappush f lossy mmap k includes d queries in
  pr_outcome p = Ok tt ->
  exists answers,
    map fst answers = qs
    /\ analogy_answers o argpartition heappush e k
         (fun a b c => not_included a b c (included PartA includes) (included PartB includes)
                         (included PartC includes)) answers
    /\ p = Process (printed show answers) (map analogy_message (failed answers)) None (Ok tt).
Proof. exact analogy_run_right. Qed.
Print Assumptions C39_run_partial.
Theorem C39_excluded_partial : forall (o : fops f32) argpartition heappush (e : embeddings f32) k excluded answers,
  pushes heappush -> built_embeddings e ->
  analogy_answers o argpartition heappush e k excluded answers ->
  forall a b c res w s, In (a, b, c, Some res) answers -> In (w, s) res ->
    In w (vocab_words (em_vocab e)) /\ ~ excluded a b c w.
Proof. exact answers_excluded. Qed.
Print Assumptions C39_excluded_partial.
(* c is printed although it is not included, and b is missing although it is *)
Theorem C39_refuted : exists o host t show parse argpartition heappush d e queries line a b c s,
  partitions o argpartition /\ pushes heappush
  /\ format_load o host t parse Finalfusion false false d = Ok e
  /\ text_file [line] queries /\ query_line line (a, b, c) /\ c <> a /\ c <> b
  /\ analogy_main o host t show parse argpartition heappush Finalfusion false false 1 [PartA; PartB] d queries
     = Process [results_text show [(c, s)]] [] None (Ok tt)
  /\ In b (get_skips a b c [PartA; PartB]).
Proof.
  exists b_ops, Little, s_toml, b_show, b_parse, (argsort b_ops), (@push f32), d_abcd, e_abcd, q_file, q_line,
    [97], [98], [99], (bmk 4).
  split; [apply argsort_partitions|]. split; [exact push_pushes|]. split; [exact d_abcd_loads|].
  split; [exact q_file_ok|]. split; [exact q_line_ok|]. split; [discriminate|]. split; [discriminate|].
  split; [vm_compute; reflexivity|]. vm_compute. auto.
Qed.
Print Assumptions C39_refuted.
(* two lines that are not queries: too few words, too many *)
Theorem C39_malformed : forall o host t show parse argpartition heappush f lossy mmap k includes d e queries
  before line after qs,
  lenN includes <= 3 -> format_load o host t parse f lossy mmap d = Ok e ->
  text_file (before ++ line :: after) queries -> Forall2 query_line before qs ->
  (forall a b c, py_split (strip (line ++ [10])) <> [a; b; c]) ->
  pr_outcome (analogy_main o host t show parse argpartition heappush f lossy mmap k includes d queries) <> Ok tt.
Proof. exact analogy_bad_line. Qed.
Print Assumptions C39_malformed.
Example C39_sample : format_load b_ops Little s_toml b_parse Finalfusion false false d_abcd = Ok e_abcd
  /\ text_file [q_line] q_file /\ Forall2 query_line [q_line] [([97], [98], [99])]
  /\ analogy_main b_ops Little s_toml b_show b_parse (argsort b_ops) push Finalfusion false false 1 [] d_abcd q_file
     = Process [results_text b_show [([100], bmk 2)]] [] None (Ok tt)
  /\ analogy_main b_ops Little s_toml b_show b_parse (argsort b_ops) push Finalfusion false false 2 [PartC; PartA]
       d_abcd q_file
     = Process [results_text b_show [([99], bmk 4); ([100], bmk 2)]] [] None (Ok tt).
Proof.
  split; [exact d_abcd_loads|]. split; [exact q_file_ok|]. split; [constructor; [exact q_line_ok|constructor]|].
  split; vm_compute; reflexivity.
Qed.

(* C40 is false as far as --ignore_unk goes: see C40_refuted *)
Theorem C40_written_partial : forall o host t parse list_of_set f lossy mmap ign vb input d e ws words old p,
  lenN d < ssize_limit -> lists_sets list_of_set ->
  format_load o host t parse f lossy mmap d = Ok e -> word_file ws words ->
  select_main o host t parse list_of_set f lossy mmap ign vb input d words old = p ->
  pr_outcome p = Ok tt ->
  pr_stdout p = []
  /\ (forall w, In w ws -> em_getitem o e w <> Err KeyError -> exists v, em_getitem o e w = Ok v)
  /\ (forall w, In w ws -> em_getitem o e w = Err KeyError -> ign = true)
  /\ (exists bad, NoDup bad
        /\ (forall w, In w bad <-> In w ws /\ em_getitem o e w = Err KeyError)
        /\ pr_stderr p = if vb then map cannot_represent bad else [])
  /\ exists out, pr_file p = Some out
     /\ (lenN out < ssize_limit -> toml_roundtrips t (Some (source_info input (em_metadata e))) ->
         forall h2 mm, load_mode h2 mm -> exists e',
           run_reader (load_finalfusion h2 t mm) out = Ok e' /\ selected o e e' ws
           /\ em_metadata e' = Some (source_info input (em_metadata e))).
Proof. exact select_main_ok. Qed.
Print Assumptions C40_written_partial.
(* without --ignore_unk the output is not touched if a word cannot be represented *)
Theorem C40_exit : forall o host t parse list_of_set f lossy mmap vb input d e ws words old,
  lenN d < ssize_limit -> lists_sets list_of_set ->
  format_load o host t parse f lossy mmap d = Ok e -> word_file ws words ->
  array_fits (lenN ws) (em_dims e) ->
  (forall w, In w ws -> (exists v, em_getitem o e w = Ok v) \/ em_getitem o e w = Err KeyError) ->
  (exists w, In w ws /\ em_getitem o e w = Err KeyError) ->
  exists w, In w ws /\ em_getitem o e w = Err KeyError
    /\ select_main o host t parse list_of_set f lossy mmap false vb input d words old
       = Process [] [cannot_represent w] old (Err SystemExit).
Proof. exact select_main_exit. Qed.
Print Assumptions C40_exit.
(* nor if the embeddings cannot be loaded *)
Theorem C40_not_loaded : forall o host t parse list_of_set f lossy mmap ign vb input d words old x,
  format_load o host t parse f lossy mmap d = Err x ->
  let p := select_main o host t parse list_of_set f lossy mmap ign vb input d words old in
  pr_file p = old /\ pr_outcome p = Err x /\ pr_stdout p = [] /\ pr_stderr p = [].
Proof. exact select_not_loaded. Qed.
Print Assumptions C40_not_loaded.
Theorem C40_succeeds : forall o host t parse list_of_set f lossy mmap ign vb input d e ws words old s b,
  lenN d < ssize_limit -> lists_sets list_of_set ->
  format_load o host t parse f lossy mmap d = Ok e -> word_file ws words ->
  array_fits (lenN ws) (em_dims e) -> em_dims e < 2 ^ 32 -> lenN words < 2 ^ 32 ->
  toml_dumps t (source_info input (em_metadata e)) = Ok s -> utf8_encode s = Ok b -> lenN b < 2 ^ 64 ->
  (forall w, In w ws -> (exists v, em_getitem o e w = Ok v)
                        \/ ign = true /\ em_getitem o e w = Err KeyError) ->
  pr_outcome (select_main o host t parse list_of_set f lossy mmap ign vb input d words old) = Ok tt.
Proof. exact select_main_succeeds. Qed.
Print Assumptions C40_succeeds.
(* a word that cannot be represented is not skipped but written with a row of zeros *)
Theorem C40_refuted : exists o host t parse list_of_set input d e ws words out e' w,
  lists_sets list_of_set /\ format_load o host t parse Word2vec false false d = Ok e /\ word_file ws words
  /\ pr_file (select_main o host t parse list_of_set Word2vec false false true false input d words None) = Some out
  /\ pr_outcome (select_main o host t parse list_of_set Word2vec false false true false input d words None) = Ok tt
  /\ run_reader (load_finalfusion host t false) out = Ok e'
  /\ In w ws /\ em_getitem o e w = Err KeyError
  /\ In w (vocab_words (em_vocab e')) /\ em_getitem o e' w = Ok [fzero o].
Proof.
  exists b_ops, Little, w_toml, b_parse, b_set, [102], d_w, e_w, [[97]; []; [120]; [99]], s_file, out_sel, e_sel, [120].
  split; [exact b_set_ok|]. split; [exact d_w_loads|]. split; [exact s_file_ok|].
  split; [vm_compute; reflexivity|]. split; [vm_compute; reflexivity|]. split; [apply select_reload|].
  split; [simpl; auto|]. split; [reflexivity|]. split; [simpl; auto|reflexivity].
Qed.
Print Assumptions C40_refuted.
Example C40_sample : lenN d_w < ssize_limit /\ lists_sets b_set
  /\ format_load b_ops Little w_toml b_parse Word2vec false false d_w = Ok e_w
  /\ word_file [[97]; []; [120]; [99]] s_file /\ toml_roundtrips w_toml (Some (source_info [102] (em_metadata e_w)))
  /\ select_main b_ops Little w_toml b_parse b_set Word2vec false false true true [102] d_w s_file None
     = Process [] [cannot_represent []; cannot_represent [120]] (Some out_sel) (Ok tt)
  /\ run_reader (load_finalfusion Little w_toml false) out_sel = Ok e_sel
  /\ em_getitem b_ops e_sel [99] = Ok [bmk 2]
  /\ select_main b_ops Little w_toml b_parse b_set Word2vec false false false false [102] d_w s_file (Some [x00])
     = Process [] [cannot_represent []] (Some [x00]) (Err SystemExit)
  /\ format_load b_ops Little w_toml b_parse Finalfusion false false d_w = Err FormatError.
Proof.
  split; [reflexivity|]. split; [exact b_set_ok|]. split; [exact d_w_loads|]. split; [exact s_file_ok|].
  split; [exact w_toml_roundtrips|]. split; [exact select_ok|]. split; [apply select_reload|].
  split; [apply select_reload|]. split; [exact select_exit|]. reflexivity.
Qed.

(* C45 *)
Theorem C45_compat_consistent : forall F (o : fops F) host (c : codec F) parse lossy d e,
  run_reader (load_word2vec o host c lossy) d = Ok e \/ load_text o parse lossy d = Ok e
  \/ load_text_dims o parse lossy d = Ok e \/ run_reader (load_fasttext o host c lossy) d = Ok e ->
  consistent e.
Proof. exact @compat_consistent. Qed.
Print Assumptions C45_compat_consistent.
Example C45_sample : run_reader (load_word2vec b_ops Little bits false) d_w = Ok e_w
  /\ load_text b_ops b_parse true d_text = Ok e_t
  /\ exists e, run_reader (load_fasttext b_ops Little bits false) out_ft = Ok e
               /\ n_words (em_vocab e) = 1%nat /\ storage_rows (em_storage e) = 4%nat.
Proof.
  split; [exact d_w_loads|]. split; [vm_compute; reflexivity|]. eexists. split; [vm_compute; reflexivity|]. split; reflexivity.
Qed.

(* C46 *)
Theorem C46_similar : forall o host t show parse argpartition heappush f lossy mmap k d e queries words,
  format_load o host t parse f lossy mmap d = Ok e -> word_file words queries ->
  let p := similar_main o host t show parse argpartition heappush f lossy mmap k d queries in
  pr_outcome p = Ok tt ->
  exists answers,
    map fst answers = filter (fun w => negb (str_eqb w [])) words
    /\ Forall (fun a => em_word_similarity o argpartition heappush e (fst a) k = Ok (snd a)) answers
    /\ p = Process (printed show answers)
             (map (fun w => py_str "Could not compute neighbours for: " ++ w) (failed answers)) None (Ok tt).
Proof. exact similar_run. Qed.
Print Assumptions C46_similar.
(* a word is not its own neighbour *)
Theorem C46_excluded : forall F (o : fops F) argpartition heappush, pushes heappush ->
  forall e q k res, built_vocab (em_vocab e) ->
  em_word_similarity o argpartition heappush e q k = Ok (Some res) ->
  forall w s, In (w, s) res -> In w (vocab_words (em_vocab e)) /\ w <> q.
Proof. exact @word_similarity_excludes. Qed.
Print Assumptions C46_excluded.
Example C46_sample : word_file [[97]; []; [120]; [99]] s_file
  /\ similar_main b_ops Little s_toml b_show b_parse (argsort b_ops) push Finalfusion false false 2 d_abcd s_file
     = Process [results_text b_show [([99], bmk 2); ([100], bmk 1)];
                results_text b_show [([100], bmk 2); ([98], bmk 2)]]
         [py_str "Could not compute neighbours for: x"] None (Ok tt).
Proof. split; [exact s_file_ok|vm_compute; reflexivity]. Qed.

(* C47 *)
Theorem C47_to_finalfusion : forall o host t show parse from lossy mmap input old out e h2 mmap2,
  lenN input < ssize_limit -> lenN out < ssize_limit -> load_mode h2 mmap2 ->
  format_load o host t parse from lossy mmap input = Ok e -> toml_roundtrips t (em_metadata e) ->
  convert_main o host t show parse from Finalfusion lossy mmap input old = (Some out, Ok tt) ->
  exists e', run_reader (load_finalfusion h2 t mmap2) out = Ok e' /\ same_embeddings e e'
    /\ same_answers o e e'.
Proof. exact convert_finalfusion. Qed.
Print Assumptions C47_to_finalfusion.
Theorem C47_to_word2vec : forall o host t show parse from lossy mmap input old out e,
  lenN input < ssize_limit -> format_load o host t parse from lossy mmap input = Ok e ->
  Forall (fun w => ~ In 32 w) (vocab_words (em_vocab e)) -> Forall no_edge_space (vocab_words (em_vocab e)) ->
  array_fits (N.of_nat (n_words (em_vocab e))) (em_dims e) ->
  convert_main o host t show parse from Word2vec lossy mmap input old = (Some out, Ok tt) ->
  exists rows, written_rows o e rows
    /\ forall lossy2 mmap2, exists e', format_load o host t parse Word2vec lossy2 mmap2 out = Ok e'
         /\ simple_embeddings o e' (vocab_words (em_vocab e)) (em_dims e) rows.
Proof. exact convert_word2vec. Qed.
Print Assumptions C47_to_word2vec.
Theorem C47_to_textdims : forall o host t show parse from lossy mmap input old out e rows,
  lenN input < ssize_limit -> format_load o host t parse from lossy mmap input = Ok e ->
  0 < em_dims e -> Forall no_ascii_space (vocab_words (em_vocab e)) ->
  array_fits (N.of_nat (n_words (em_vocab e))) (em_dims e) ->
  written_rows o e rows -> text_exact show parse rows ->
  convert_main o host t show parse from Textdims lossy mmap input old = (Some out, Ok tt) ->
  forall lossy2 mmap2, exists e', format_load o host t parse Textdims lossy2 mmap2 out = Ok e'
    /\ simple_embeddings o e' (vocab_words (em_vocab e)) (em_dims e) rows.
Proof. exact convert_textdims. Qed.
Print Assumptions C47_to_textdims.
Theorem C47_to_text : forall o host t show parse from lossy mmap input old out e rows,
  lenN input < ssize_limit -> format_load o host t parse from lossy mmap input = Ok e ->
  0 < em_dims e -> (0 < n_words (em_vocab e))%nat -> Forall no_ascii_space (vocab_words (em_vocab e)) ->
  array_fits (N.of_nat (n_words (em_vocab e))) (em_dims e) ->
  written_rows o e rows -> text_exact show parse rows ->
  convert_main o host t show parse from Text lossy mmap input old = (Some out, Ok tt) ->
  forall lossy2 mmap2, exists e', format_load o host t parse Text lossy2 mmap2 out = Ok e'
    /\ simple_embeddings o e' (vocab_words (em_vocab e)) (em_dims e) rows.
Proof. exact convert_text. Qed.
Print Assumptions C47_to_text.
Theorem C47_to_fasttext : forall o host t show parse from lossy mmap input old out e,
  lenN input < ssize_limit -> format_load o host t parse from lossy mmap input = Ok e ->
  Forall (fun w => ~ In 0 w) (vocab_words (em_vocab e)) ->
  array_fits (N.of_nat (storage_rows (em_storage e))) (em_dims e) ->
  convert_main o host t show parse from Fasttext lossy mmap input old = (Some out, Ok tt) ->
  exists us, length us = n_words (em_vocab e)
    /\ (forall k w, nth_error (vocab_words (em_vocab e)) k = Some w ->
          exists u, nth_error us k = Some u /\ fasttext_average o e bits k w u)
    /\ forall lossy2 mmap2, exists e', format_load o host t parse Fasttext lossy2 mmap2 out = Ok e'
          /\ fasttext_embeddings o e e' bits us.
Proof. exact convert_fasttext. Qed.
Print Assumptions C47_to_fasttext.
Theorem C47_untouched : forall o host t show parse from to lossy mmap input old x,
  format_load o host t parse from lossy mmap input = Err x ->
  convert_main o host t show parse from to lossy mmap input old = (old, Err x).
Proof. exact convert_untouched. Qed.
Print Assumptions C47_untouched.
Example C47_sample : format_load b_ops Little s_toml b_parse Text false false d_text = Ok e_t
  /\ toml_roundtrips s_toml (em_metadata e_t)
  /\ (forall f old, f <> Fasttext ->
        convert_main b_ops Little s_toml b_show b_parse Text f false false d_text old = (Some (converted_to f), Ok tt))
  /\ converted_to Text = d_text
  /\ written_rows b_ops e_t [[bmk 1]; [bmk 3]] /\ text_exact b_show b_parse [[bmk 1]; [bmk 3]]
  /\ convert_main b_ops Little s_toml b_show b_parse Finalfusion Fasttext false false d_fasttext None
     = (Some out_ft, Ok tt)
  /\ convert_main b_ops Little s_toml b_show b_parse Word2vec Text false false [x0a] (Some [x01])
     = (Some [x01], Err ValueError).
Proof.
  split; [exact d_text_loads|]. split; [easy|]. split; [intros f old H; now apply convert_ok|].
  split; [exact convert_text_same|]. split; [exact rows_t|]. split; [exact rows_t_exact|].
  split; [exact convert_ft_ok|vm_compute; reflexivity].
Qed.

(* C48; what converted means for lookups is C23 *)
Theorem C48_explicit : forall o host t parse from lossy mmap input old out h2 mmap2,
  lenN input < ssize_limit -> lenN out < ssize_limit -> load_mode h2 mmap2 ->
  bucket_to_explicit_main o host t parse from lossy mmap input old = (Some out, Ok tt) ->
  exists e e' e'' ix, format_load o host t parse from lossy mmap input = Ok e
    /\ is_bucket (em_vocab e) /\ built_embeddings e
    /\ em_bucket_to_explicit o e = Ok e' /\ converted o e e' ix
    /\ run_reader (load_finalfusion h2 t mmap2) out = Ok e'' /\ same_answers o e' e''.
Proof. exact explicit_run. Qed.
Print Assumptions C48_explicit.
Theorem C48_untouched : forall o host t parse from lossy mmap input old x,
  format_load o host t parse from lossy mmap input = Err x
  \/ (exists e, format_load o host t parse from lossy mmap input = Ok e /\ em_bucket_to_explicit o e = Err x) ->
  bucket_to_explicit_main o host t parse from lossy mmap input old = (old, Err x).
Proof. exact explicit_untouched. Qed.
Print Assumptions C48_untouched.
Example C48_sample : lenN d_bucket < ssize_limit /\ lenN out_ex < ssize_limit
  /\ bucket_to_explicit_main b_ops Little s_toml b_parse Finalfusion false false d_bucket None = (Some out_ex, Ok tt)
  /\ bucket_to_explicit_main b_ops Little s_toml b_parse Finalfusion false false d_simple (Some [x01])
     = (Some [x01], Err TypeError).
Proof.
  split; [reflexivity|]. split; [reflexivity|]. split; [exact explicit_ok|vm_compute; reflexivity].
Qed.

(* C49: what same_embeddings means to a user; with C01 and C44 for embeddings that were loaded again *)
Theorem C49_same_answers : forall F (o : fops F) e e', same_embeddings e e' -> same_answers o e e'.
Proof. exact @same_same_answers. Qed.
Print Assumptions C49_same_answers.
Example C49_sample : exists e', run_reader (load_finalfusion Little s_toml false) d_explicit = Ok e'
  /\ same_embeddings e_explicit e' /\ em_getitem b_ops e' w_ab = Ok [f1; f2].
Proof.
  eexists. split; [vm_compute; reflexivity|]. split; [|reflexivity].
  split; [reflexivity|]. split; [|split; reflexivity]. vm_compute. constructor.
  intros k. unfold sget, dget. simpl.
  repeat match goal with |- context [str_eqb ?a ?b] => destruct (str_eqb a b) eqn:? end; try reflexivity.
  all: repeat match goal with H : str_eqb _ _ = true |- _ => apply PyProofs.str_eqb_eq in H end; subst; discriminate.
Qed.
