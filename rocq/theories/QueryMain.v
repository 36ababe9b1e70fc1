(* Whole runs of ffp-analogy. *)
From Coq Require Import Lia.
From Verif Require Import Py PyProofs Utf8 IO Arr Subword Vocab Storage Chunks Embeddings
  Spec SpecVocab SpecLookup PyText SpecCompat Compat Scripts SpecScripts ScriptsProofs QueryProofs.
Local Open Scope N_scope.

Section Main.
  Context (o : fops f32) (host : endian) (t : toml_lib).
  Context (show : f32 -> str) (parse : str -> result f32).
  Context (argpartition : list f32 -> nat -> list nat).
  Context (heappush : list (str * f32) -> str * f32 -> list (str * f32)).

  Lemma analogy_run_right f lossy mmap k includes d e queries lines qs :
    includes = [] \/ In PartC includes ->
    format_load o host t parse f lossy mmap d = Ok e ->
    text_file lines queries -> Forall2 query_line lines qs ->
    let p := analogy_main o host t show parse argpartition heappush f lossy mmap k includes d queries in
    pr_outcome p = Ok tt ->
    exists answers,
      map fst answers = qs
      /\ analogy_answers o argpartition heappush e k
           (fun a b c => not_included a b c (included PartA includes) (included PartB includes)
                           (included PartC includes)) answers
      /\ p = Process (printed show answers) (map analogy_message (failed answers)) None (Ok tt).
  Proof.
    intros HI HL T P p OK. destruct (analogy_run o host t show parse argpartition heappush
      f lossy mmap k includes d e queries lines qs HL T P OK) as (answers & H1 & H2 & H3).
    exists answers. split; [exact H1|]. split; [|exact H3]. eapply Forall_impl; [|exact H2].
    intros [[[a b] c] r] E. exists (get_skips a b c includes). split; [|exact E]. intros w. now apply get_skips_right.
  Qed.

  Lemma answers_excluded e k excluded answers : pushes heappush -> built_embeddings e ->
    analogy_answers o argpartition heappush e k excluded answers ->
    forall a b c res w s, In (a, b, c, Some res) answers -> In (w, s) res ->
      In w (vocab_words (em_vocab e)) /\ ~ excluded a b c w.
  Proof.
    intros PU (_ & B & _) H a b c res w s HI HR. unfold analogy_answers in H. rewrite Forall_forall in H.
    destruct (H _ HI) as (skips & H1 & H2). rewrite <- H1.
    exact (analogy_excludes o argpartition heappush PU e a b c k skips res B H2 w s HR).
  Qed.

  (* a line that does not consist of three words ends the run *)
  Lemma analogy_bad_line f lossy mmap k includes d e queries before line after qs :
    lenN includes <= 3 ->
    format_load o host t parse f lossy mmap d = Ok e ->
    text_file (before ++ line :: after) queries -> Forall2 query_line before qs ->
    (forall a b c, py_split (strip (line ++ [10])) <> [a; b; c]) ->
    pr_outcome (analogy_main o host t show parse argpartition heappush f lossy mmap k includes d queries) <> Ok tt.
  Proof.
    intros LI HL T P NL. unfold analogy_main. destruct (3 <? lenN includes) eqn:E; [apply N.ltb_lt in E; lia|].
    rewrite HL. cbn [bind]. rewrite (TextProofs.text_file_lines false _ queries T). cbn [bind].
    clear - P NL. rewrite map_app. induction P as [|l q before qs Hq P IH].
    - cbn [map app for_queries]. unfold analogy_query.
      destruct (py_split (strip (line ++ [10]))) as [|a [|b [|c [|]]]]; try easy. now destruct (NL a b c).
    - cbn [map app for_queries]. destruct (analogy_query _ _ _ _ _ _ _ _) as [[]|]; [exact IH..|easy].
  Qed.
End Main.
