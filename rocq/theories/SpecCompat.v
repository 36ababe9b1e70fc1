(* Specification vocabulary for the word2vec, text and fastText formats. *)
From Verif Require Import Py Utf8 IO Arr Subword Vocab Storage Chunks Embeddings PyText Spec
  SpecLookup.

(* no leading or trailing whitespace (str.isspace) *)
Definition no_edge_space (w : str) : Prop :=
  match w with [] => True | c :: _ => is_space c = false end
  /\ match rev w with [] => True | c :: _ => is_space c = false end.

(* numpy can create a float32 array of this shape *)
Definition array_fits (rows cols : N) : Prop :=
  (N.max 1 rows * N.max 1 cols * 4 < 2 ^ 63)%N.

(* the string has an encoding (no surrogates, all below 0x110000) *)
Definition encodable (w : str) : Prop := exists b, utf8_encode w = Ok b.

(* In a word2vec file of which q bytes are used, the floats of the last row start at s. *)
Definition last_row (cols : N) (d : bytes) (q s : N) : Prop :=
  s <= q <= lenN d /\ (q = s + 4 * cols \/ q = lenN d /\ s + 4 <= q < s + 8).
(* A file cut after m bytes has exactly one complete float of a row of several floats that
   starts at s. *)
Definition one_float (cols m s : N) : Prop := 1 < cols /\ s + 4 <= m < s + 8.

(* the contents of a text file with these lines, '\n' after each of them *)
Definition text_file (lines : list str) (d : bytes) : Prop :=
  utf8_encode (concat (map (fun l => l ++ [10]) lines)) = Ok d
  /\ Forall (fun l => ~ In 10 l /\ ~ In 13 l) lines.
(* a non-empty gap of ASCII whitespace *)
Definition gap (g : str) : Prop := g <> [] /\ Forall (fun c => is_ascii_space c = true) g.
Definition no_ascii_space (w : str) : Prop := Forall (fun c => is_ascii_space c = false) w.
(* a line consists of a word and components, each preceded by a gap, and trailing whitespace *)
Definition text_line (line word : str) (comps : list str) : Prop :=
  exists gaps tail, length gaps = length comps
    /\ line = word ++ concat (map2 (@app N) gaps comps) ++ tail
    /\ no_ascii_space word /\ Forall gap gaps /\ Forall (fun x => x <> [] /\ no_ascii_space x) comps
    /\ Forall (fun c => is_space c = true) tail
    /\ match rev (last comps word) with [] => True | c :: _ => is_space c = false end.

Section Compat.
  Context {F : Type} (o : fops F).

  (* the row of word k times its norm, if there are norms *)
  Definition written_row (e : embeddings F) (k : nat) (row : list F) : Prop :=
    exists r, storage_get o (em_storage e) (Z.of_nat k) = Ok r
      /\ match em_norms e with
         | None => row = r
         | Some n => exists x, nth_error (nm_vals n) k = Some x
                               /\ row = map (fun a => fmul o a x) r
         end.
  Definition written_rows (e : embeddings F) (rows : list (list F)) : Prop :=
    length rows = n_words (em_vocab e)
    /\ forall k row, nth_error rows k = Some row -> written_row e k row.

  (* the rows after they have been stored as float32 *)
  Definition in_file (c : codec F) (rows : list (list F)) : list (list F) :=
    map (map (fun x => dec c (enc c x))) rows.
  (* the elements survive being stored as float32 *)
  Definition exact_in_file (c : codec F) (rows : list (list F)) : Prop :=
    Forall (Forall (fun x => dec c (enc c x) = x)) rows.

  (* str and float are inverse to each other on these elements; str gives something that
     contains no whitespace and can be encoded *)
  Definition text_exact (show : F -> str) (parse : str -> result F) (rows : list (list F)) : Prop :=
    Forall (Forall (fun x => show x <> [] /\ Forall (fun ch => is_space ch = false) (show x)
                             /\ encodable (show x) /\ parse (show x) = Ok x)) rows.

  (* embeddings without subwords: each row divided by its norm, the norms kept *)
  Definition simple_embeddings (e : embeddings F) (words : list str) (cols : N)
    (rows : list (list F)) : Prop :=
    em_storage e = SNd (NdA BoNative cols (map (fun r => map (fun x => fdiv o x (fnorm o r)) r) rows))
    /\ em_vocab e = VSimple words (vocab_index (em_vocab e))
    /\ indexed_words words (vocab_index (em_vocab e))
    /\ em_norms e = Some (Norms BoNative (map (fnorm o) rows))
    /\ em_metadata e = None.

  (* fastText: the vector of a word is stored before the average over its subwords and before
     normalisation: (number of subwords + 1) * row * norm - sum of the subword rows *)
  Definition fasttext_vector (e : embeddings F) (k : nat) (w : str) (vec : list F) : Prop :=
    exists sw row sub s,
      vocab_subword_indices (em_vocab e) w true false = Ok sw
      /\ storage_get o (em_storage e) (Z.of_nat k) = Ok row
      /\ rows_at o (em_storage e) (map sw_index sw) sub
      /\ is_sum o (N.to_nat (em_dims e)) sub s
      /\ vec = map2 (fsub o)
                 (map (fun a => let x := fmul o a (fofZ o (Z.of_nat (length sw) + 1)) in
                                match em_norms e with
                                | None => x
                                | Some n => fmul o x (nth k (nm_vals n) (fzero o))
                                end) row) s.
  (* the average that is computed when such a file is read *)
  Definition fasttext_average (e : embeddings F) (c : codec F) (k : nat) (w : str) (u : list F) : Prop :=
    exists sw sub vec s,
      vocab_subword_indices (em_vocab e) w true false = Ok sw
      /\ rows_at o (em_storage e) (map sw_index sw) sub
      /\ fasttext_vector e k w vec
      /\ is_sum o (N.to_nat (em_dims e)) (in_file c (vec :: sub)) s
      /\ u = map (fun x => fdiv o x (fofZ o (Z.of_nat (length sw) + 1))) s.

  (* fastText embeddings with the vocabulary of e: the rows of the words are us, each divided by
     its norm; the subword rows come from e *)
  Definition fasttext_embeddings (e e' : embeddings F) (c : codec F) (us : list (list F)) : Prop :=
    exists rows, em_vocab e' = em_vocab e
    /\ em_storage e' = SNd (NdA BoNative (em_dims e) rows)
    /\ em_norms e' = Some (Norms BoNative (map (fnorm o) us))
    /\ length us = n_words (em_vocab e)
    /\ length rows = storage_rows (em_storage e)
    /\ (forall k u, nth_error us k = Some u ->
          nth_error rows k = Some (map (fun x => fdiv o x (fnorm o u)) u))
    /\ (forall k, (n_words (em_vocab e) <= k < storage_rows (em_storage e))%nat ->
          exists row, storage_get o (em_storage e) (Z.of_nat k) = Ok row
                      /\ nth_error rows k = Some (map (fun x => dec c (enc c x)) row)).

  (* everything that is written to a fastText file survives being stored as float32 *)
  Definition exact_fasttext (e : embeddings F) (c : codec F) : Prop :=
    (forall k w vec, nth_error (vocab_words (em_vocab e)) k = Some w ->
       fasttext_vector e k w vec -> exact_in_file c [vec])
    /\ (forall j row, (n_words (em_vocab e) <= j)%nat ->
          storage_get o (em_storage e) (Z.of_nat j) = Ok row -> exact_in_file c [row]).
End Compat.
