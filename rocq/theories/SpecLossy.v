(* Decoding with replacement characters as the Unicode standard recommends (3.9, "U+FFFD Substitution
   of Maximal Subparts"), independently of the codec. *)
From Verif Require Import Py SpecUtf8.

(* the bytes are the start of the form of some character, or all of it *)
Definition starts (x : bytes) : Prop := x <> [] /\ exists c rest, utf8_form c (x ++ rest).

(* Where no character starts: the longest bytes with which one might have started, or one byte if
   there are none. *)
Definition subpart (x after : bytes) : Prop :=
  (forall c b rest, utf8_form c b -> x ++ after <> b ++ rest)
  /\ (starts x /\ (forall y rest, after = y :: rest -> ~ starts (x ++ [y]))
      \/ length x = 1%nat /\ ~ starts x).

Inductive lossy_of : bytes -> str -> Prop :=
| LossyNil : lossy_of [] []
| LossyChar c b bs s : utf8_form c b -> lossy_of bs s -> lossy_of (b ++ bs) (c :: s)
| LossyBad x bs s : subpart x bs -> lossy_of bs s -> lossy_of (x ++ bs) (0xFFFD :: s).
