(* The text formats, stated without the loaders. *)
From Verif Require Import Py Utf8 IO Arr Storage Vocab Embeddings PyText SpecCompat.
Local Open Scope N_scope.
Local Open Scope list_scope.

(* the lines of a text: each is ended by "\n", "\r\n" or "\r", or by the end of the text *)
Inductive text_has_lines : str -> list str -> Prop :=
| no_line : text_has_lines [] []
| last_line l : ~ In 10 l -> ~ In 13 l -> l <> [] -> text_has_lines l [l]
| line_lf l s ls : ~ In 10 l -> ~ In 13 l -> text_has_lines s ls ->
    text_has_lines (l ++ [10] ++ s) (l :: ls)
| line_crlf l s ls : ~ In 10 l -> ~ In 13 l -> text_has_lines s ls ->
    text_has_lines (l ++ [13; 10] ++ s) (l :: ls)
| line_cr l s ls : ~ In 10 l -> ~ In 13 l -> (forall t, s <> 10 :: t) -> text_has_lines s ls ->
    text_has_lines (l ++ [13] ++ s) (l :: ls).

Definition file_text (lossy : bool) (d : bytes) (s : str) : Prop :=
  if lossy then s = decode_replace d else utf8_decode d = Ok s.

(* integers: a sign and groups of digits with underscores in between *)
Definition digits (s : str) : Prop := s <> [] /\ Forall (fun c => 48 <= c <= 57) s.
Definition digits_value (s : str) : Z := fold_left (fun a c => a * 10 + (Z.of_N c - 48))%Z s 0%Z.
Definition int_text (s : str) (z : Z) : Prop :=
  exists sign d ds, s = sign ++ d ++ concat (map (fun g => 95 :: g) ds)
    /\ digits d /\ Forall digits ds
    /\ (((sign = [] \/ sign = [43]) /\ z = digits_value (d ++ concat ds))
        \/ (sign = [45] /\ z = (- digits_value (d ++ concat ds))%Z)).

(* the line "rows cols" *)
Definition header_line (line : str) (rows cols : Z) : Prop :=
  exists g1 a g2 b g3, line = g1 ++ a ++ g2 ++ b ++ g3
    /\ Forall (fun c => is_space c = true) (g1 ++ g2 ++ g3) /\ g2 <> []
    /\ Forall (fun c => is_space c = false) (a ++ b)
    /\ int_text a rows /\ int_text b cols.

Section Text.
  Context {F : Type} (parse : str -> result F).

  (* a single component fills the row *)
  Definition row_from (cols : N) (comps : list str) (row : list F) : Prop :=
    exists xs, Forall2 (fun s x => parse s = Ok x) comps xs
      /\ (lenN xs = cols /\ row = xs \/ exists x, xs = [x] /\ row = repeat x (N.to_nat cols)).

  (* what the lines say *)
  Inductive text_rows (cols : N) : list str -> list str -> list (list F) -> Prop :=
  | no_rows : text_rows cols [] [] []
  | more_rows line w comps row lines ws rows :
      text_line line w comps -> row_from cols comps row -> text_rows cols lines ws rows ->
      text_rows cols (line :: lines) (w :: ws) (row :: rows).
End Text.

Section Word2vec.
  Context {F : Type} (cd : codec F).

  (* white space around a word is dropped *)
  Definition stripped (s w : str) : Prop :=
    exists g1 g2, s = g1 ++ w ++ g2 /\ Forall (fun c => is_space c = true) (g1 ++ g2) /\ no_edge_space w.

  (* What follows the first line of a word2vec file: entries of a word, a blank and the elements
     of the row, then anything.  At the end of the file a single element, followed by less than
     four bytes, fills a row. *)
  Inductive w2v_rows (lossy : bool) (cols : N) : bytes -> list str -> list (list F) -> Prop :=
  | w2v_end rest : w2v_rows lossy cols rest [] []
  | w2v_full b s w l rest ws rows :
      ~ In x20 b -> file_text lossy b s -> stripped s w -> lenN l = cols ->
      w2v_rows lossy cols rest ws rows ->
      w2v_rows lossy cols (b ++ [x20] ++ concat (map f32_le l) ++ rest) (w :: ws) (map (dec cd) l :: rows)
  | w2v_short b s w x rest :
      ~ In x20 b -> file_text lossy b s -> stripped s w -> 1 < cols -> lenN rest < 4 ->
      w2v_rows lossy cols (b ++ [x20] ++ f32_le x ++ rest) [w] [repeat (dec cd x) (N.to_nat cols)].

  (* the first line is ASCII; the line break may be missing at the end of the file *)
  Definition w2v_file (d : bytes) (h : str) (body : bytes) : Prop :=
    Forall (fun c => c < 128) h /\ ~ In 10 h
    /\ (d = map byte_of_N h ++ [x0a] ++ body \/ d = map byte_of_N h /\ body = []).
End Word2vec.
