(* Specification vocabulary for the scripts.  Nothing in this file is used by the model. *)
From Coq Require Import String.
From Verif Require Import Py Utf8 IO Arr Subword Vocab Storage Chunks Embeddings PyText Spec
  SpecCompat.
Local Open Scope N_scope.
Local Open Scope list_scope.

(* the elements of a set, each of them once, in some order *)
Definition lists_sets (list_of_set : list str -> list str) : Prop :=
  forall l, NoDup (list_of_set l) /\ forall x, In x (list_of_set l) <-> In x l.

(* a line that consists of a word and surrounding whitespace *)
Definition padded (line word : str) : Prop :=
  exists before after, line = before ++ word ++ after
    /\ Forall (fun c => is_space c = true) before /\ Forall (fun c => is_space c = true) after
    /\ no_edge_space word.
(* a file with one word per line *)
Definition word_file (words : list str) (d : bytes) : Prop :=
  exists lines, text_file lines d /\ Forall2 padded lines words.

(* where selected embeddings come from *)
Definition source_info (input : str) (m : option metadata) : metadata :=
  (py_str "source_embeddings", MStr input)
  :: match m with Some m => [(py_str "source_metadata", MTable m)] | None => [] end.

Section Select.
  Context {F : Type} (o : fops F).

  (* embeddings with exactly the given words; the source's embedding for the words that it can
     represent and zeros for the others *)
  Record selected (e e' : embeddings F) (words : list str) : Prop := {
    sel_simple : exists ws index, em_vocab e' = VSimple ws index;
    sel_distinct : NoDup (vocab_words (em_vocab e'));
    sel_words : forall w, In w (vocab_words (em_vocab e')) <-> In w words;
    sel_dims : em_dims e' = em_dims e;
    sel_norms : em_norms e' = None;
    sel_known : forall w v, In w words -> em_getitem o e w = Ok v -> em_getitem o e' w = Ok v;
    sel_unknown : forall w, In w words -> em_getitem o e w = Err KeyError ->
      em_getitem o e' w = Ok (repeat (fzero o) (N.to_nat (em_dims e)));
    sel_others : forall w, ~ In w words -> em_getitem o e' w = Err KeyError }.
End Select.

(* which query words of an analogy query are to be excluded from the answers *)
Definition not_included (a b c : str) (inc_a inc_b inc_c : bool) (w : str) : Prop :=
  w = a /\ inc_a = false \/ w = b /\ inc_b = false \/ w = c /\ inc_c = false.

(* the neighbours as they are printed: one per line, word and similarity *)
Fixpoint results_text {F} (show : F -> str) (res : list (str * F)) : str :=
  match res with
  | [] => []
  | [(w, x)] => w ++ 32 :: show x
  | (w, x) :: res' => w ++ 32 :: show x ++ 10 :: results_text show res'
  end.

(* the answers to the queries, in order: neighbours are printed to stdout, failures are reported
   on stderr *)
Fixpoint printed {F Q} (show : F -> str) (answers : list (Q * option (list (str * F)))) : list str :=
  match answers with
  | [] => []
  | (_, Some res) :: answers' => results_text show res :: printed show answers'
  | (_, None) :: answers' => printed show answers'
  end.
Fixpoint failed {F Q} (answers : list (Q * option (list (str * F)))) : list Q :=
  match answers with
  | [] => []
  | (q, None) :: answers' => q :: failed answers'
  | (_, Some _) :: answers' => failed answers'
  end.

(* a line with three words *)
Definition query_line (line : str) (q : str * str * str) : Prop :=
  let '(a, b, c) := q in
  exists g1 g2 g3 g4, line = g1 ++ a ++ g2 ++ b ++ g3 ++ c ++ g4
    /\ Forall (Forall (fun c => is_space c = true)) [g1; g2; g3; g4] /\ g2 <> [] /\ g3 <> []
    /\ Forall (fun w => w <> [] /\ Forall (fun c => is_space c = false) w) [a; b; c].

(* the answers to analogy queries when [excluded a b c] are not to be in them *)
Definition analogy_answers {F} (o : fops F) argpartition heappush (e : embeddings F) (k : Z)
  (excluded : str -> str -> str -> str -> Prop)
  (answers : list ((str * str * str) * option (list (str * F)))) : Prop :=
  Forall (fun x => let '(a, b, c, r) := x in
    exists skips, (forall w, In w skips <-> excluded a b c w)
      /\ em_analogy o argpartition heappush e a b c k (Some skips) = Ok r) answers.
