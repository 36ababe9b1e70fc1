(* Model of membership, iteration and length of vocabularies, indexers and embeddings.
   No proofs in this file. *)
From Verif Require Import Py Arr Subword Vocab Storage Chunks Embeddings.

(* The operand of "in": a str, an object with __iter__ that yields objects, or another object.
   vocab/vocab.py 77-84, subword/explicit_indexer.pyx 198-203.  Iterables are finite; objects that
   contain themselves (a RecursionError) and iteration that raises are left out. *)
Inductive item : Type :=
| ItStr (s : str)
| ItIter (l : list item)
| ItOther.

(* all(w in self for w in item) given the test of a str.
   vocab/vocab.py 77-84, subword/explicit_indexer.pyx 198-203. *)
Fixpoint item_in (known : str -> bool) (x : item) : bool :=
  match x with
  | ItStr s => known s
  | ItIter l => forallb (item_in known) l
  | ItOther => false
  end.
(* vocab/vocab.py 77-84, Vocab.__contains__ *)
Definition vocab_in (v : vocab) (x : item) : bool := item_in (vocab_contains v) x.
(* subword/explicit_indexer.pyx 198-203, ExplicitIndexer.__contains__ *)
Definition ex_in (ix : ex_indexer) (x : item) : bool :=
  item_in (fun s => match sget s (ex_index ix) with Some _ => true | None => false end) x.
(* embeddings.py 585-586, Embeddings.__contains__ *)
Definition em_in {F} (e : embeddings F) (x : item) : bool := vocab_in (em_vocab e) x.
(* vocab/vocab.py 86-87, Vocab.__iter__ *)
Definition vocab_iter (v : vocab) : list str := vocab_words v.
(* subword/explicit_indexer.pyx 183-184, ExplicitIndexer.__iter__ *)
Definition ex_iter (ix : ex_indexer) : list str := ex_ngrams ix.
(* subword/explicit_indexer.pyx 186-187, ExplicitIndexer.__len__ *)
Definition ex_len (ix : ex_indexer) : N := lenN (ex_index ix).
(* what a vocabulary or an indexer is as the operand of "in".
   vocab/vocab.py 86-87, subword/explicit_indexer.pyx 183-184. *)
Definition vocab_item (v : vocab) : item := ItIter (map ItStr (vocab_iter v)).
Definition ex_item (ix : ex_indexer) : item := ItIter (map ItStr (ex_iter ix)).
