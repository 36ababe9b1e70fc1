(* ffp-similar and ffp-analogy. *)
From Coq Require Import Lia String Permutation.
From Verif Require Import Py PyProofs Utf8 Utf8Proofs IO Arr Subword Vocab Storage Chunks Embeddings
  Spec SpecVocab SpecLookup LookupProofs VocabFacts SimProofs PyText SpecCompat PyTextProofs Compat TextProofs Scripts
  SpecScripts ScriptsProofs.
Local Open Scope N_scope.
Local Open Scope list_scope.

(* ---------------------------------------------------------------- *)
(* get_skips                                                         *)

Lemma mem_part (p : part) l : mem_eqb part_eqb p l = true <-> In p l.
Proof.
  induction l as [|q l IH]; simpl; [easy|]. rewrite orb_true_iff, IH. split; intros [H|H]; auto.
  - left. now destruct p, q.
  - left. subst. now destruct p.
Qed.
Lemma mem_part_false (p : part) l : mem_eqb part_eqb p l = false <-> ~ In p l.
Proof. rewrite <- mem_part. destruct (mem_eqb part_eqb p l); split; congruence. Qed.
Lemma In_part (p : part) l : In p l \/ ~ In p l.
Proof. rewrite <- mem_part. destruct (mem_eqb part_eqb p l); [now left|now right]. Qed.

Lemma get_skips_iff a b c includes w : In w (get_skips a b c includes) <->
  (includes = [] /\ (w = a \/ w = b \/ w = c))
  \/ (includes <> [] /\ (w = a /\ ~ In PartA includes
                         \/ w = b /\ (~ In PartB includes \/ ~ In PartC includes))).
Proof.
  unfold get_skips. destruct includes as [|x l].
  - simpl. intuition auto.
  - remember (x :: l) as inc. assert (NE : inc <> []) by (now subst). clear Heqinc.
    rewrite !in_app_iff. rewrite <- !mem_part.
    destruct (mem_eqb part_eqb PartA inc), (mem_eqb part_eqb PartB inc), (mem_eqb part_eqb PartC inc);
      simpl; intuition (try congruence; auto).
Qed.

Definition included (p : part) (includes : list part) : bool := existsb (part_eqb p) includes.
Lemma included_In p l : included p l = true <-> In p l.
Proof.
  unfold included. rewrite existsb_exists. split.
  - intros (q & I & E). now destruct p, q.
  - intros I. exists p. split; [easy|]. now destruct p.
Qed.
Lemma included_not p l : included p l = false <-> ~ In p l.
Proof. rewrite <- included_In. destruct (included p l); split; congruence. Qed.

Lemma get_skips_right a b c includes w : includes = [] \/ In PartC includes ->
  In w (get_skips a b c includes) <->
  not_included a b c (included PartA includes) (included PartB includes) (included PartC includes) w.
Proof.
  intros H. rewrite get_skips_iff. unfold not_included. rewrite !included_not.
  destruct H as [->|H].
  - simpl. intuition auto.
  - assert (includes <> []) by (now destruct includes). intuition auto.
Qed.

(* ---------------------------------------------------------------- *)
(* excluded words are not in the answers                              *)

Section Excluded.
  Context {F : Type} (o : fops F).
  Context (argpartition : list F -> nat -> list nat).
  Context (heappush : list (str * F) -> str * F -> list (str * F)) (PU : pushes heappush).

  Lemma heap_words words sims skip part : forall h0 heap,
    foldM (fun heap idx =>
             if mem_eqb Z.eqb (Z.of_nat idx) skip then Ok heap
             else
               w <- py_index words (Z.of_nat idx) ;;
               s <- py_index sims (Z.of_nat idx) ;;
               Ok (heappush heap (w, s))) part h0 = Ok heap ->
    forall w s, In (w, s) heap -> In (w, s) h0
      \/ exists i, nth_error words i = Some w /\ ~ In (Z.of_nat i) skip.
  Proof.
    induction part as [|i part IH]; intros h0 heap E w s HI; cbn [foldM] in E.
    - apply Ok_inj in E. subst. now left.
    - apply bind_ok in E as (h1 & E1 & E). destruct (IH h1 heap E w s HI) as [H|H]; [|now right].
      destruct (mem_eqb Z.eqb (Z.of_nat i) skip) eqn:M.
      + apply Ok_inj in E1. subst. now left.
      + apply bind_ok in E1 as (w1 & W1 & E1). apply bind_ok in E1 as (s1 & _ & E1). apply Ok_inj in E1. subst h1.
        apply (Permutation_in _ (PU h0 (w1, s1))) in H. destruct H as [H|H]; [|now left].
        injection H as -> ->. right. exists i. unfold py_index in W1. destruct (in_range _ _ _); [|easy].
        destruct (Z.of_nat i <? 0)%Z eqn:L in W1; [apply Z.ltb_lt in L; lia|]. rewrite Nat2Z.id in W1.
        destruct (nth_error words i); [|easy]. injection W1 as ->. split; [easy|].
        intros I. apply (mem_eqb_In Z.eqb Z.eqb_eq) in I. congruence.
  Qed.

  Lemma similarity_excludes (e : embeddings F) query k skips res : built_vocab (em_vocab e) ->
    em_similarity o argpartition heappush e query k skips = Ok res ->
    forall w s, In (w, s) res -> In w (vocab_words (em_vocab e)) /\ ~ In w skips.
  Proof.
    intros B H w s HI. unfold em_similarity in H. apply bind_ok in H as (st & _ & H). destruct st as [a|]; [|easy].
    apply bind_ok in H as (u & _ & H). cbv zeta in H. apply bind_ok in H as (part & _ & H).
    apply bind_ok in H as (p2 & _ & H). apply bind_ok in H as (heap & HH & H). apply Ok_inj in H. subst res.
    unfold nlargest in HI. apply firstn_In' in HI. apply (Permutation_in _ (sort_perm o heap)) in HI.
    destruct (heap_words _ _ _ _ _ _ HH w s HI) as [[]|(i & N0 & NI)].
    split; [now apply nth_error_In in N0|]. intros HS. apply NI. apply skip_indices_In; [easy|].
    exists w. split; [lia|]. now rewrite Nat2Z.id.
  Qed.

  Lemma analogy_excludes (e : embeddings F) a b c k skips res : built_vocab (em_vocab e) ->
    em_analogy o argpartition heappush e a b c k (Some skips) = Ok (Some res) ->
    forall w s, In (w, s) res -> In w (vocab_words (em_vocab e)) /\ ~ In w skips.
  Proof.
    intros B H. unfold em_analogy in H. apply bind_ok in H as (ea & _ & H). apply bind_ok in H as (eb & _ & H).
    apply bind_ok in H as (ec & _ & H). destruct ea, eb, ec; try easy. apply bind_ok in H as (r & HR & H).
    injection H as <-. exact (similarity_excludes _ _ _ _ _ B HR).
  Qed.
  Lemma word_similarity_excludes (e : embeddings F) q k res : built_vocab (em_vocab e) ->
    em_word_similarity o argpartition heappush e q k = Ok (Some res) ->
    forall w s, In (w, s) res -> In w (vocab_words (em_vocab e)) /\ w <> q.
  Proof.
    intros B H w s HI. unfold em_word_similarity in H. apply bind_ok in H as (v & _ & H). destruct v; [|easy].
    apply bind_ok in H as (r & HR & H). injection H as ->.
    destruct (similarity_excludes _ _ _ _ _ B HR w s HI) as [H1 H2]. split; [easy|]. intros ->. apply H2. now left.
  Qed.
End Excluded.

(* ---------------------------------------------------------------- *)
(* the loop over the queries                                         *)

Section Queries.
  Context (o : fops f32) (host : endian) (t : toml_lib).
  Context (show : f32 -> str) (parse : str -> result f32).
  Context (argpartition : list f32 -> nat -> list nat).
  Context (heappush : list (str * f32) -> str * f32 -> list (str * f32)).

  Lemma show_results_text res : show_results show res = results_text show res.
  Proof.
    unfold show_results. destruct res as [|[w x] res]; [easy|].
    revert w x. induction res as [|[w' x'] res IH]; intros w x.
    - simpl. now rewrite app_nil_r.
    - specialize (IH w' x'). cbn [map join_nl fst snd] in IH |- *. cbn [concat map].
      change (results_text show ((w, x) :: (w', x') :: res))
        with (w ++ 32 :: show x ++ 10 :: results_text show ((w', x') :: res)).
      rewrite <- IH. cbn [fst snd app]. now rewrite <- !app_assoc.
  Qed.

  (* queries that all give an answer *)
  Lemma for_queries_ok {Q} (f : str -> result answer) (message : Q -> str)
    (ask : Q -> result (option (list (str * f32)))) :
    forall lines (queries : list (option Q)),
    Forall2 (fun line q =>
      match q with
      | None => f line = Ok Nothing
      | Some q => f line = (res <- ask q ;; match res with
                            | None => Ok (Complain (message q))
                            | Some res => Ok (Print (show_results show res)) end)
      end) lines queries ->
    pr_outcome (for_queries f lines) = Ok tt ->
    exists answers,
      map fst answers = flat_map (fun q => match q with Some q => [q] | None => [] end) queries
      /\ Forall (fun a => ask (fst a) = Ok (snd a)) answers
      /\ for_queries f lines = Process (printed show answers) (map message (failed answers)) None (Ok tt).
  Proof.
    induction 1 as [|line q lines queries H HF IH]; intros OK.
    - exists []. easy.
    - cbn [for_queries] in OK |- *. destruct q as [q|].
      + rewrite H in OK |- *. destruct (ask q) as [r|] eqn:A; [|easy]. cbn [bind] in OK |- *.
        destruct r as [res|]; cbn [pr_outcome] in OK.
        * destruct (IH OK) as (answers & H1 & H2 & H3). exists ((q, Some res) :: answers).
          split; [cbn [map fst flat_map app]; now rewrite <- H1|]. split; [now constructor|]. rewrite H3. cbn. f_equal. f_equal.
          apply show_results_text.
        * destruct (IH OK) as (answers & H1 & H2 & H3). exists ((q, None) :: answers).
          split; [cbn [map fst flat_map app]; now rewrite <- H1|]. split; [now constructor|]. now rewrite H3.
      + rewrite H in OK |- *. destruct (IH OK) as (answers & H1 & H2 & H3). exists answers. easy.
  Qed.

  (* ---------------------------------------------------------------- *)
  (* ffp-similar                                                       *)

  Lemma similar_run f lossy mmap k d e queries words : format_load o host t parse f lossy mmap d = Ok e ->
    word_file words queries ->
    let p := similar_main o host t show parse argpartition heappush f lossy mmap k d queries in
    pr_outcome p = Ok tt ->
    exists answers,
      map fst answers = filter (fun w => negb (str_eqb w [])) words
      /\ Forall (fun a => em_word_similarity o argpartition heappush e (fst a) k = Ok (snd a)) answers
      /\ p = Process (printed show answers)
               (map (fun w => py_str "Could not compute neighbours for: " ++ w) (failed answers)) None (Ok tt).
  Proof.
    intros HL (lines & T & P) p. unfold p, similar_main. rewrite HL. cbn [bind].
    rewrite (text_file_lines false lines queries T). cbn [bind]. intros OK.
    destruct (for_queries_ok (similar_query o show argpartition heappush e k)
                (fun w => py_str "Could not compute neighbours for: " ++ w)
                (fun w => em_word_similarity o argpartition heappush e w k)
                (map (fun l => l ++ [10]) lines)
                (map (fun w => match w with [] => None | _ => Some w end) words)) as (answers & H1 & H2 & H3);
      [|exact OK|].
    - clear - P. induction P as [|l w lines words H P IH]; constructor; [|exact IH].
      unfold similar_query. rewrite (padded_strip l w H). destruct w as [|ch w]; reflexivity.
    - exists answers. split; [|easy]. refine (eq_trans H1 _). clear. induction words as [|[|c w] ws IH]; simpl; [easy..|].
      now f_equal.
  Qed.

  (* ---------------------------------------------------------------- *)
  (* ffp-analogy                                                       *)

  Lemma strip_both g w g' : Forall (fun c => is_space c = true) g -> Forall (fun c => is_space c = true) g' ->
    no_edge_space w -> w <> [] -> strip (g ++ w ++ g') = w.
  Proof.
    intros H H' E W. unfold strip. rewrite lstrip_spaces by easy. destruct w as [|c w]; [easy|].
    rewrite lstrip_id by apply E. rewrite rstrip_spaces by easy. apply rstrip_id, E.
  Qed.
  Lemma rev_last_edge (P : N -> Prop) (w : str) : w <> [] -> Forall P w ->
    match rev w with [] => False | c :: _ => P c end.
  Proof.
    intros W H. destruct (rev w) as [|c r] eqn:E.
    - apply W. now rewrite <- (rev_involutive w), E.
    - rewrite Forall_forall in H. apply H. rewrite in_rev, E. now left.
  Qed.
  Lemma query_line_parts line a b c : query_line line (a, b, c) -> py_split (strip (line ++ [10])) = [a; b; c].
  Proof.
    intros (g1 & g2 & g3 & g4 & -> & HG & G2 & G3 & HW).
    inversion HG as [|? ? S1 HG1]; subst. inversion HG1 as [|? ? S2 HG2]; subst.
    inversion HG2 as [|? ? S3 HG3]; subst. inversion HG3 as [|? ? S4 _]; subst.
    inversion HW as [|? ? [A1 A2] HW1]; subst. inversion HW1 as [|? ? [B1 B2] HW2]; subst.
    inversion HW2 as [|? ? [C1 C2] _]; subst.
    replace ((g1 ++ a ++ g2 ++ b ++ g3 ++ c ++ g4) ++ [10]) with (g1 ++ (a ++ g2 ++ b ++ g3 ++ c) ++ (g4 ++ [10]))
      by (rewrite <- !app_assoc; easy).
    rewrite strip_both.
    - unfold py_split. rewrite split_runs_first by easy. rewrite split_runs_next by easy.
      rewrite split_runs_last by easy. cbn [filter]. destruct a; [easy|]. destruct b; [easy|]. now destruct c.
    - easy.
    - apply Forall_app. split; [easy|]. now repeat constructor.
    - split.
      + destruct a as [|x a]; [easy|]. cbn [app]. now inversion A2.
      + rewrite !rev_app_distr, <- !app_assoc. pose proof (rev_last_edge _ c C1 C2) as R.
        destruct (rev c); [easy|]. exact R.
    - destruct a; easy.
  Qed.

  Definition analogy_message (q : str * str * str) : str :=
    let '(a, b, c) := q in
    py_str "Could not compute for: " ++ a ++ py_str " : " ++ b ++ py_str ", " ++ c ++ py_str " : ? ".

  Lemma analogy_run f lossy mmap k includes d e queries lines qs : format_load o host t parse f lossy mmap d = Ok e ->
    text_file lines queries -> Forall2 query_line lines qs ->
    let p := analogy_main o host t show parse argpartition heappush f lossy mmap k includes d queries in
    pr_outcome p = Ok tt ->
    exists answers,
      map fst answers = qs
      /\ Forall (fun x => let '(a, b, c, r) := x in
           em_analogy o argpartition heappush e a b c k (Some (get_skips a b c includes)) = Ok r) answers
      /\ p = Process (printed show answers) (map analogy_message (failed answers)) None (Ok tt).
  Proof.
    intros HL T P p. unfold p, analogy_main. destruct (3 <? lenN includes); [easy|]. rewrite HL. cbn [bind].
    rewrite (text_file_lines false lines queries T). cbn [bind]. intros OK.
    destruct (for_queries_ok (analogy_query o show argpartition heappush e k includes) analogy_message
                (fun q => let '(a, b, c) := q in
                   em_analogy o argpartition heappush e a b c k (Some (get_skips a b c includes)))
                (map (fun l => l ++ [10]) lines) (map Some qs)) as (answers & H1 & H2 & H3); [|exact OK|].
    - clear - P. induction P as [|l [[a b] c] lines words H P IH]; constructor; [|exact IH].
      unfold analogy_query. rewrite (query_line_parts l a b c H). cbv zeta. reflexivity.
    - exists answers. split; [|split; [|easy]].
      + refine (eq_trans H1 _). clear. induction qs as [|q qs IH]; simpl; [easy|]. now f_equal.
      + eapply Forall_impl; [|exact H2]. now intros [[[a b] c] r].
  Qed.
End Queries.
