(* Python string functions used by the text based formats and the scripts.  No proofs in this
   file. *)
From Coq Require Import String Ascii.
From Verif Require Import Py Utf8 IO Arr.
Local Open Scope N_scope.
Local Open Scope list_scope.

(* a string constant.  E.g. compat/fasttext.py 131-133, 316-320. *)
Definition py_str (s : string) : str := map N_of_ascii (list_ascii_of_string s).

(* str.isspace for one character (unicodeobject.c, _PyUnicode_IsWhitespace); used by strip,
   rstrip and split without arguments *)
Definition is_space (c : N) : bool :=
  (9 <=? c) && (c <=? 13) || (28 <=? c) && (c <=? 32) || (c =? 0x85) || (c =? 0xA0)
  || (c =? 0x1680) || (0x2000 <=? c) && (c <=? 0x200A) || (c =? 0x2028) || (c =? 0x2029)
  || (c =? 0x202F) || (c =? 0x205F) || (c =? 0x3000).
(* the regular expression (?a)\s: [ \t\n\r\f\v].  compat/text.py 147. *)
Definition is_ascii_space (c : N) : bool := (9 <=? c) && (c <=? 13) || (c =? 32).

(* compat/text.py 83, 147; compat/word2vec.py 48; scripts/select.py 45. *)
Fixpoint lstrip (s : str) : str :=
  match s with
  | [] => []
  | c :: s' => if is_space c then lstrip s' else s
  end.
(* compat/text.py 83, 147; compat/word2vec.py 48; scripts/select.py 45. *)
Definition rstrip (s : str) : str := rev (lstrip (rev s)).
(* compat/text.py 83, 147; compat/word2vec.py 48; scripts/select.py 45. *)
Definition strip (s : str) : str := rstrip (lstrip s).

(* the pieces between maximal runs of separators; [cur] holds the current piece reversed,
   [in_sep] says that the previous character was a separator.  compat/text.py 83, 147. *)
Fixpoint split_runs (sep : N -> bool) (in_sep : bool) (cur : str) (s : str) : list str :=
  match s with
  | [] => [rev cur]
  | c :: s' =>
      if sep c then
        if in_sep then split_runs sep true [] s' else rev cur :: split_runs sep true [] s'
      else split_runs sep false (c :: cur) s'
  end.
(* re.compile(r'(?a)\s+').split(s).  compat/text.py 83, 147. *)
Definition re_split_ws (s : str) : list str := split_runs is_ascii_space false [] s.
(* s.split().  compat/text.py 45, compat/word2vec.py 45, scripts/analogy.py 49. *)
Definition py_split (s : str) : list str :=
  filter (fun w => match w with [] => false | _ => true end) (split_runs is_space false [] s).

(* str(n) for an int n >= 0; n has at most log2 n + 1 digits.  compat/word2vec.py 91. *)
Fixpoint dec_digits (fuel : nat) (n : N) : str :=
  match fuel with
  | O => []
  | S fuel' => if n <? 10 then [48 + n] else dec_digits fuel' (n / 10) ++ [48 + n mod 10]
  end.
(* compat/word2vec.py 91. *)
Definition str_of_N (n : N) : str := dec_digits (S (N.to_nat (N.log2 n))) n.

(* int(s) for a string without surrounding whitespace: optional sign, digits with single
   underscores in between.  Digits other than 0-9 (Unicode decimal digits) and the limit of 4300 digits
   are not modelled.  compat/word2vec.py 45. *)
Fixpoint int_digits (prev : bool) (acc : N) (s : str) : option N :=
  match s with
  | [] => if prev then Some acc else None
  | c :: s' =>
      if (48 <=? c) && (c <=? 57) then int_digits true (acc * 10 + (c - 48)) s'
      else if (c =? 95) && prev then int_digits false acc s'
      else None
  end.
(* compat/word2vec.py 45. *)
Definition py_int (s : str) : result Z :=
  let '(sign, rest) :=
    match s with
    | c :: s' => if c =? 45 then ((-1)%Z, s') else if c =? 43 then (1%Z, s') else (1%Z, s)
    | [] => (1%Z, s)
    end in
  match int_digits false 0 rest with
  | Some n => Ok (sign * Z.of_N n)%Z
  | None => Err ValueError
  end.

(* bytes.decode("ascii").  compat/word2vec.py 45. *)
Definition ascii_decode (bs : bytes) : result str :=
  if forallb (fun b => Byte.to_N b <? 128) bs then Ok (map Byte.to_N bs)
  else Err UnicodeDecodeError.

(* bytes.decode("utf-8", errors='replace' if lossy else 'strict').
   compat/word2vec.py 112-113, compat/fasttext.py 180. *)
Definition decode_word (lossy : bool) (bs : bytes) : result str :=
  if lossy then Ok (decode_replace bs) else utf8_decode bs.

(* file.readline() of a binary file: up to and including the next b'\n'.
   compat/word2vec.py 45. *)
Fixpoint first_line (bs : bytes) : bytes :=
  match bs with
  | [] => []
  | b :: bs' => if Byte.eqb b x0a then [b] else b :: first_line bs'
  end.
(* compat/word2vec.py 45. *)
Definition readline : reader bytes := fun d p =>
  let l := first_line (dropN p d) in Ok (l, p + lenN l).

(* The loop shared by the two _read_binary_word functions (word2vec.py 104-111, fasttext.py
   166-173): bytes are read one by one up to the delimiter. *)
Fixpoint until (delim : byte) (bs : bytes) : option bytes :=
  match bs with
  | [] => None
  | b :: bs' => if Byte.eqb b delim then Some []
                else match until delim bs' with Some w => Some (b :: w) | None => None end
  end.
(* compat/word2vec.py 103-111, compat/fasttext.py 166-173. *)
Definition read_until (delim : byte) : reader bytes := fun d p =>
  match until delim (dropN p d) with
  | Some w => Ok (w, p + lenN w + 1)
  | None => Err EOFError
  end.

(* Text files opened for reading: universal newlines, i.e. '\r\n' and '\r' become '\n'.
   compat/text.py 43-46, 77-87, 146. *)
Fixpoint newlines (s : str) : str :=
  match s with
  | [] => []
  | c :: s' =>
      if c =? 13 then
        10 :: match s' with
              | c' :: s'' => if c' =? 10 then newlines s'' else newlines s'
              | [] => []
              end
      else c :: newlines s'
  end.
(* iterating over a text file: lines with their '\n'.  compat/text.py 43-46, 77-87, 146. *)
Fixpoint split_lines (cur : str) (s : str) : list str :=
  match s with
  | [] => match cur with [] => [] | _ => [rev cur] end
  | c :: s' => if c =? 10 then rev (c :: cur) :: split_lines [] s' else split_lines (c :: cur) s'
  end.
(* The lines of a text file with encoding utf8.  The file is decoded as a whole: Python decodes
   blocks of some KiB, so that malformed bytes in a part of the file that is never read would
   go unnoticed.  compat/text.py 43-46, 77-87, 146. *)
Definition text_lines (lossy : bool) (d : bytes) : result (list str) :=
  s <- decode_word lossy d ;; Ok (split_lines [] (newlines s)).

(* np.zeros((rows, cols), dtype=np.float32): negative dimensions and sizes (zero dimensions
   count as one) that do not fit ssize_t are ValueErrors; running out of memory is not modelled.
   compat/word2vec.py 46, compat/text.py 145. *)
Definition np_zeros_shape (rows cols : Z) : result (N * N) :=
  if ((rows <? 0) || (cols <? 0))%Z then Err ValueError
  else if (2 ^ 63 <=? Z.max 1 rows * Z.max 1 cols * 4)%Z then Err ValueError
  else Ok (Z.to_N rows, Z.to_N cols).

(* row[:] = array for a row of cols elements: a single element is broadcast.
   compat/word2vec.py 52, compat/text.py 149. *)
Definition np_assign {F} (cols : N) (array : list F) : result (list F) :=
  if lenN array =? cols then Ok array
  else match array with
       | [x] => Ok (repeat x (N.to_nat cols))
       | _ => Err ValueError
       end.

(* How the elements of an array correspond to float32 bit patterns in a file.  For arrays of
   bit patterns both directions are the identity; exact-arithmetic statements use other
   element types.  compat/word2vec.py 49, compat/fasttext.py 196-197. *)
Record codec (F : Type) : Type := Codec { enc : F -> f32; dec : f32 -> F }.
Arguments Codec {F} _ _.
Arguments enc {F} _ _.
Arguments dec {F} _ _.

(* np.fromfile(file, count=count, dtype=np.float32) followed by byteswap(inplace=True) on big
   endian hosts.  compat/word2vec.py 49-51. *)
Definition fromfile_native {F} (host : endian) (c : codec F) (count : N) : reader (list F) :=
  raw <~ fromfile 4 count ;;
  let mem := match host with Big => map (@rev byte) raw | Little => raw end in
  rret (map (fun m => dec c (f32_of_le (of_mem host BoNative m))) mem).

(* _serialize_array_as_le(file, array).  io.py 315-326. *)
Definition serialize {F} (host : endian) (c : codec F) (bo : byteorder) (elems : list F) : writer :=
  serialize_array_as_le host bo (map (fun x => f32_le (enc c x)) elems).
