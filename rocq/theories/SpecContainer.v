(* Vocabulary for the properties about membership. *)
From Verif Require Import Py Subword Vocab Container.

(* the objects that are not iterated over *)
Inductive leaf : item -> item -> Prop :=
| LeafStr s : leaf (ItStr s) (ItStr s)
| LeafOther : leaf ItOther ItOther
| LeafIter x y l : In y l -> leaf x y -> leaf x (ItIter l).
(* every leaf is one of the words *)
Definition all_among (words : list str) (x : item) : Prop :=
  forall y, leaf y x -> exists s, y = ItStr s /\ In s words.
