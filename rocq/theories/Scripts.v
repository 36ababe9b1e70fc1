(* Model of src/finalfusion/scripts/*.py.  No proofs in this file.

   Command line parsing (argparse) is not modelled: a main function takes the values that
   parse_args returns.  Files named on the command line are given by their contents; an input
   that is also the output is read completely before it is written (not so with --mmap, where
   the storage stays mapped to the file; that case is not modelled).  Text files without
   explicit encoding are taken to be UTF-8.  The order of the elements of a set is an oracle. *)
From Coq Require Import String.
From Verif Require Import Py Utf8 IO Arr Subword Vocab Storage Chunks Embeddings PyText Compat.
Local Open Scope N_scope.
Local Open Scope list_scope.

(* What a script run leaves behind: the text printed to stdout and stderr (one entry per call of
   print, without the final newline), the output file and the outcome; sys.exit raises
   SystemExit.
   scripts/similar.py, scripts/analogy.py, scripts/select.py, scripts/convert.py, scripts/bucket_to_explicit.py. *)
Record process : Type := Process {
  pr_stdout : list str;
  pr_stderr : list str;
  pr_file : option bytes;
  pr_outcome : result unit }.

(* util.py 51-59 *)
Inductive format : Set := Finalfusion | Fasttext | Word2vec | Textdims | Text.

Section Scripts.
  Context (o : fops f32) (host : endian) (t : toml_lib).
  Variable show : f32 -> str.
  Variable parse : str -> result f32.

  (* numpy float32 arrays hold what the files hold.
     scripts/util.py 61-92, the arrays of the loaders and writers chosen by format. *)
  Definition bits : codec f32 := Codec (fun x => x) (fun x => x).

  (* util.py 61-76, Format.write; the separator of the text formats is the default one *)
  Definition format_write (f : format) (e : embeddings f32) : file_action :=
    match f with
    | Finalfusion => em_write_file host t e
    | Word2vec => write_word2vec o host bits e
    | Text => write_text_any o show e false [32]
    | Textdims => write_text_any o show e true [32]
    | Fasttext => write_fasttext o host bits e
    end.

  (* util.py 78-92, Format.load *)
  Definition format_load (f : format) (lossy mmap : bool) (d : bytes) : result (embeddings f32) :=
    match f with
    | Finalfusion => run_reader (load_finalfusion host t mmap) d
    | Word2vec => run_reader (load_word2vec o host bits lossy) d
    | Text => load_text o parse lossy d
    | Textdims => load_text_dims o parse lossy d
    | Fasttext => run_reader (load_fasttext o host bits lossy) d
    end.

  (* convert.py 19-30, main *)
  Definition convert_main (from to : format) (lossy mmap : bool) (input : bytes) : file_action :=
    before_open (format_load from lossy mmap input) (fun embeds => format_write to embeds).

  (* bucket_to_explicit.py 9-21, main; the formats offered are finalfusion and fasttext *)
  Definition bucket_to_explicit_main (from : format) (lossy mmap : bool) (input : bytes)
    : file_action :=
    before_open (format_load from lossy mmap input) (fun embeds =>
    before_open (em_bucket_to_explicit o embeds) (fun e => em_write_file host t e)).

  (* ---------------------------------------------------------------- *)
  (* select.py                                                         *)

  (* list(set(words)): the distinct words in some order *)
  Variable list_of_set : list str -> list str.

  (* scripts/select.py 54. *)
  Definition cannot_represent (word : str) : str :=
    py_str "Cannot represent '" ++ word ++ py_str "'.".

  (* select.py 49-56: the loop; [matrix] is modified in place.  Returns what is printed to
     stderr and the matrix *)
  Fixpoint select_rows (embeds : embeddings f32) (ignore_unk verbose : bool) (cols : N)
    (words : list (str * Z)) (matrix : list (list f32)) : list str * result (list (list f32)) :=
    match words with
    | [] => ([], Ok matrix)
    | (word, i) :: words' =>
        match em_getitem o embeds word with
        | Ok v =>
            match (row <- np_assign cols v ;; py_setrow matrix i row) with
            | Ok matrix' => select_rows embeds ignore_unk verbose cols words' matrix'
            | Err x => ([], Err x)
            end
        | Err KeyError =>
            let out := if verbose || negb ignore_unk then [cannot_represent word] else [] in
            if negb ignore_unk then (out, Err SystemExit)
            else
              let (out', r) := select_rows embeds ignore_unk verbose cols words' matrix in
              (out ++ out', r)
        | Err x => ([], Err x)
        end
    end.

  (* select.py 57-59: the metadata of the new embeddings; [input] is the name of the file *)
  Definition select_metadata (input : str) (embeds : embeddings f32) : metadata :=
    let metadata := [(py_str "source_embeddings", MStr input)] in
    match em_metadata embeds with
    | Some m => sset (py_str "source_metadata") (MTable m) metadata
    | None => metadata
    end.

  (* select.py 43-61, main after the embeddings are loaded *)
  Definition select_embeds (lossy ignore_unk verbose : bool) (input : str)
    (embeds : embeddings f32) (words : bytes) (old : option bytes) : process :=
    match (lines <- text_lines lossy words ;;
           let unique_words := list_of_set (map strip lines) in
           let cols := em_dims embeds in
           dims <- np_zeros_shape (Z.of_nat (length unique_words)) (Z.of_N cols) ;;
           vocab <- simple_vocab_new unique_words ;;
           Ok (vocab, cols, repeat (vzero o (N.to_nat cols)) (length unique_words))) with
    | Err x => Process [] [] old (Err x)
    | Ok (vocab, cols, matrix) =>
        let (out, r) := select_rows embeds ignore_unk verbose cols
                          (enumerate (vocab_words vocab)) matrix in
        match r with
        | Err x => Process [] out old (Err x)
        | Ok matrix =>
            let (file, r) :=
              before_open (embeddings_new (SNd (NdA BoNative cols matrix)) vocab None
                             (Some (select_metadata input embeds)))
                (fun e => em_write_file host t e) old in
            Process [] out file r
        end
    end.
  (* select.py 14-61, main *)
  Definition select_main (f : format) (lossy mmap ignore_unk verbose : bool) (input : str)
    (embeddings words : bytes) (old : option bytes) : process :=
    match format_load f lossy mmap embeddings with
    | Err x => Process [] [] old (Err x)
    | Ok embeds => select_embeds lossy ignore_unk verbose input embeds words old
    end.

  (* ---------------------------------------------------------------- *)
  (* Queries: nothing is written to a file                             *)

  Variable argpartition : list f32 -> nat -> list nat.
  Variable heappush : list (str * f32) -> str * f32 -> list (str * f32).

  (* '\n'.join(l).  scripts/similar.py 44, scripts/analogy.py 61. *)
  Definition join_nl (l : list str) : str :=
    match l with
    | [] => []
    | x :: l' => x ++ concat (map (fun s => 10 :: s) l')
    end.
  (* similar.py 44, analogy.py 61: str() of a similarity *)
  Definition show_results (res : list (str * f32)) : str :=
    join_nl (map (fun ws => fst ws ++ [32] ++ show (snd ws)) res).

  (* the for loop over the lines of the query file: each line prints to stdout or stderr or
     raises.  scripts/similar.py 35-48, scripts/analogy.py 48-63. *)
  Inductive answer : Type := Print (s : str) | Complain (s : str) | Nothing.
  (* scripts/similar.py 35-48, scripts/analogy.py 48-63. *)
  Fixpoint for_queries (f : str -> result answer) (lines : list str) : process :=
    match lines with
    | [] => Process [] [] None (Ok tt)
    | line :: lines' =>
        match f line with
        | Err x => Process [] [] None (Err x)
        | Ok a =>
            let p := for_queries f lines' in
            match a with
            | Print s => Process (s :: pr_stdout p) (pr_stderr p) None (pr_outcome p)
            | Complain s => Process (pr_stdout p) (s :: pr_stderr p) None (pr_outcome p)
            | Nothing => p
            end
        end
    end.

  (* similar.py 36-44: one line *)
  Definition similar_query (embeds : embeddings f32) (k : Z) (line : str) : result answer :=
    let query := strip line in
    match query with
    | [] => Ok Nothing
    | _ =>
        res <- em_word_similarity o argpartition heappush embeds query k ;;
        match res with
        | None => Ok (Complain (py_str "Could not compute neighbours for: " ++ query))
        | Some res => Ok (Print (show_results res))
        end
    end.
  (* similar.py 10-44, main; the query file is opened with errors='strict' *)
  Definition similar_main (f : format) (lossy mmap : bool) (k : Z) (embeddings queries : bytes)
    : process :=
    match (embeds <- format_load f lossy mmap embeddings ;;
           lines <- text_lines false queries ;; Ok (embeds, lines)) with
    | Err x => Process [] [] None (Err x)
    | Ok (embeds, lines) => for_queries (similar_query embeds k) lines
    end.

  (* analogy.py 64-76, get_skips; a choice of --include is 'a', 'b' or 'c' *)
  Inductive part : Set := PartA | PartB | PartC.
  (* scripts/analogy.py 64-80. *)
  Definition part_eqb (x y : part) : bool :=
    match x, y with
    | PartA, PartA | PartB, PartB | PartC, PartC => true
    | _, _ => false
    end.
  (* a set as a list; an element may occur several times.  scripts/analogy.py 64-80. *)
  Definition get_skips (query_a query_b query_c : str) (includes : list part) : list str :=
    match includes with
    | [] => [query_c; query_b; query_a]
    | _ =>
        (if mem_eqb part_eqb PartA includes then [] else [query_a])
        ++ (if mem_eqb part_eqb PartB includes then [] else [query_b])
        ++ (if mem_eqb part_eqb PartC includes then [] else [query_b])
    end.

  (* analogy.py 48-61: one line *)
  Definition analogy_query (embeds : embeddings f32) (k : Z) (includes : list part) (line : str)
    : result answer :=
    match py_split (strip line) with
    | [query_a; query_b; query_c] =>
        let skips := get_skips query_a query_b query_c includes in
        res <- em_analogy o argpartition heappush embeds query_a query_b query_c k (Some skips) ;;
        match res with
        | None =>
            Ok (Complain (py_str "Could not compute for: " ++ query_a ++ py_str " : " ++ query_b
                          ++ py_str ", " ++ query_c ++ py_str " : ? "))
        | Some res => Ok (Print (show_results res))
        end
    | _ => Err ValueError
    end.
  (* analogy.py 11-61, main *)
  Definition analogy_main (f : format) (lossy mmap : bool) (k : Z) (includes : list part)
    (embeddings queries : bytes) : process :=
    if 3 <? lenN includes then
      Process [] [py_str "-i/--include can take up to 3 unique values: a, b and c."] None
        (Err SystemExit)
    else
      match (embeds <- format_load f lossy mmap embeddings ;;
             lines <- text_lines false queries ;; Ok (embeds, lines)) with
      | Err x => Process [] [] None (Err x)
      | Ok (embeds, lines) => for_queries (analogy_query embeds k includes) lines
      end.
End Scripts.
