(* The rows of the n-grams of a word, from the definitions of n-grams, hashes and UTF-8. *)
From Verif Require Import Py SpecUtf8 Arr Subword Vocab SpecVocab.

(* the range of lengths of the n-grams; words without subwords have none *)
Definition gram_range (v : vocab) (mn mx : N) : Prop :=
  match v with
  | VSimple _ _ => False
  | VBucket _ _ x => mn = ff_min_n x /\ mx = ff_max_n x
  | VFastText _ _ x => mn = ft_min_n x /\ mx = ft_max_n x
  | VExplicit _ _ x => mn = ex_min_n x /\ mx = ex_max_n x
  end.

(* the row of an n-gram: behind the rows of the words *)
Definition gram_row (v : vocab) (g : str) (i : Z) : Prop :=
  match v with
  | VSimple _ _ => False
  | VBucket ws _ x => i = Z.of_N (lenN ws + fnv1a_64 (ngram_bytes g) mod 2 ^ ff_exp x)
  | VFastText ws _ x => exists bs, utf8_of g bs
      /\ i = (Z.of_N (lenN ws) + fasttext_hash bs mod Z.of_N (ft_buckets x))%Z
  | VExplicit ws _ x => exists k, In (g, k) (ex_index x) /\ i = (Z.of_N (lenN ws) + k)%Z
  end.

(* the n-grams that have a row, with it, in order *)
Inductive gram_rows (v : vocab) : list str -> list (str * Z) -> Prop :=
| RowsNil : gram_rows v [] []
| RowsSome g i gs l : gram_row v g i -> gram_rows v gs l -> gram_rows v (g :: gs) ((g, i) :: l)
| RowsNone g gs l : (forall i, ~ gram_row v g i) -> gram_rows v gs l -> gram_rows v (g :: gs) l.

Definition word_rows (v : vocab) (bracket : bool) (w : str) (l : list (str * Z)) : Prop :=
  exists mn mx gs, gram_range v mn mx /\ is_ngrams (in_brackets bracket w) mn mx gs /\ gram_rows v gs l.

(* fastText hashes bytes, so the word needs a UTF-8 form *)
Definition can_hash (v : vocab) (w : str) : Prop :=
  match v with VFastText _ _ _ => Forall scalar w | _ => True end.
Definition subword_vocab (v : vocab) : Prop := match v with VSimple _ _ => False | _ => True end.
