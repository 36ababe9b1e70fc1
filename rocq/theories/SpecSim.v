(* The outcome of similarity queries for every k. *)
From Verif Require Import Py Arr Vocab Storage Chunks Embeddings Spec SpecLookup.

(* n words, s of them skipped: [outcome] says what a query for k results returns or raises.
   Nothing is assumed about the comparison of similarities. *)
Definition outcome {F} (o : fops F) (e : embeddings F) (query : list F) (k : Z) (skips : list str)
  (r : result (list (str * F))) : Prop :=
  let n := Z.of_nat (n_words (em_vocab e)) in
  let s := Z.of_nat (n_skipped (em_vocab e) skips) in
  (n = 0%Z -> r = Ok [])
  /\ ((0 < n)%Z -> (n < k + s \/ k + s <= - n)%Z -> r = Err ValueError)
  /\ ((0 < n)%Z -> (- n < k + s <= n)%Z ->
      exists res, r = Ok res /\ length res = Z.to_nat k /\ NoDup (map fst res)
        /\ forall w x, In (w, x) res -> ~ In w skips
             /\ exists i, nth_error (vocab_words (em_vocab e)) i = Some w /\ similarity_of o e query i x).
