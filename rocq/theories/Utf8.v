(* UTF-8 codecs of the Python standard library as used by the code:
   str.encode("utf-8") / bytes(s, "utf-8"), bytes.decode("utf-8") (strict) and
   bytes.decode("utf-8", errors="replace").  No proofs in this file. *)
From Verif Require Import Py.

(* UTF-8 as in CPython's codec, called from vocab/vocab.py 133. *)
Definition is_cont (b : byte) : bool :=
  let n := Byte.to_N b in (0x80 <=? n) && (n <? 0xC0).
(* UTF-8 as in CPython's codec, called from vocab/vocab.py 133. *)
Definition cont_bits (b : byte) : N := Byte.to_N b mod 64.

(* one code point; surrogates and values above U+10FFFF cannot be encoded.
   For the calls in vocab/vocab.py 167, subword/hash_indexers.pyx 179. *)
Definition encode_cp (c : N) : option bytes :=
  if c <? 0x80 then Some [byte_of_N c]
  else if c <? 0x800 then
    Some [byte_of_N (0xC0 + c / 64); byte_of_N (0x80 + c mod 64)]
  else if (0xD800 <=? c) && (c <? 0xE000) then None
  else if c <? 0x10000 then
    Some [byte_of_N (0xE0 + c / 4096); byte_of_N (0x80 + (c / 64) mod 64);
          byte_of_N (0x80 + c mod 64)]
  else if c <? 0x110000 then
    Some [byte_of_N (0xF0 + c / 262144); byte_of_N (0x80 + (c / 4096) mod 64);
          byte_of_N (0x80 + (c / 64) mod 64); byte_of_N (0x80 + c mod 64)]
  else None.

(* s.encode("utf-8"), bytes(s, "utf-8").
   vocab/vocab.py 167, vocab/subword.py 382-385, subword/hash_indexers.pyx 179, 255. *)
Fixpoint utf8_encode (s : str) : result bytes :=
  match s with
  | [] => Ok []
  | c :: s' =>
      match encode_cp c with
      | None => Err UnicodeEncodeError
      | Some b => bs <- utf8_encode s' ;; Ok (b ++ bs)
      end
  end.

(* Second byte allowed after the lead byte (no overlong forms, no surrogates,
   nothing above U+10FFFF).  For the calls in vocab/vocab.py 133, 159. *)
Definition second_ok (lead second : byte) : bool :=
  let l := Byte.to_N lead in
  let s := Byte.to_N second in
  is_cont second &&
  (if l =? 0xE0 then 0xA0 <=? s
   else if l =? 0xED then s <? 0xA0
   else if l =? 0xF0 then 0x90 <=? s
   else if l =? 0xF4 then s <? 0x90
   else true).

(* Code points of two, three and four byte sequences, for vocab/vocab.py 133, 159. *)
Definition cp2 (b0 b1 : byte) : N := (Byte.to_N b0 - 0xC0) * 64 + cont_bits b1.
(* Code points of two, three and four byte sequences, for vocab/vocab.py 133, 159. *)
Definition cp3 (b0 b1 b2 : byte) : N :=
  (Byte.to_N b0 - 0xE0) * 4096 + cont_bits b1 * 64 + cont_bits b2.
(* Code points of two, three and four byte sequences, for vocab/vocab.py 133, 159. *)
Definition cp4 (b0 b1 b2 b3 : byte) : N :=
  (Byte.to_N b0 - 0xF0) * 262144 + cont_bits b1 * 4096 + cont_bits b2 * 64
  + cont_bits b3.

(* Code points of two, three and four byte sequences, for vocab/vocab.py 133, 159. *)
Definition ocons (c : N) (o : option str) : option str :=
  match o with Some s => Some (c :: s) | None => None end.

(* bytes.decode("utf-8") as an option, vocab/vocab.py 133, 159. *)
Fixpoint decode_strict (bs : bytes) : option str :=
  match bs with
  | [] => Some []
  | b0 :: r0 =>
      let n := Byte.to_N b0 in
      if n <? 0x80 then ocons n (decode_strict r0)
      else if n <? 0xC2 then None
      else if n <? 0xE0 then
        match r0 with
        | b1 :: r1 =>
            if is_cont b1 then ocons (cp2 b0 b1) (decode_strict r1) else None
        | _ => None
        end
      else if n <? 0xF0 then
        match r0 with
        | b1 :: (b2 :: r2) =>
            if second_ok b0 b1 && is_cont b2
            then ocons (cp3 b0 b1 b2) (decode_strict r2) else None
        | _ => None
        end
      else if n <? 0xF5 then
        match r0 with
        | b1 :: (b2 :: (b3 :: r3)) =>
            if second_ok b0 b1 && is_cont b2 && is_cont b3
            then ocons (cp4 b0 b1 b2 b3) (decode_strict r3) else None
        | _ => None
        end
      else None
  end.

(* bytes.decode("utf-8").  vocab/vocab.py 133, 159; metadata.py 49. *)
Definition utf8_decode (bs : bytes) : result str :=
  match decode_strict bs with
  | Some s => Ok s
  | None => Err UnicodeDecodeError
  end.

(* errors='replace', compat/word2vec.py 112-113, compat/fasttext.py 180. *)
Definition REPLACEMENT : N := 0xFFFD.

(* bytes.decode("utf-8", errors="replace"): every maximal prefix of a well-formed
   sequence that is cut short, and every byte that starts no sequence, becomes
   one U+FFFD (CPython Objects/stringlib/codecs.h, unicode_decode_utf8). *)
Fixpoint decode_replace (bs : bytes) : str :=
  match bs with
  | [] => []
  | b0 :: r0 =>
      let n := Byte.to_N b0 in
      if n <? 0x80 then n :: decode_replace r0
      else if n <? 0xC2 then REPLACEMENT :: decode_replace r0
      else if n <? 0xE0 then
        match r0 with
        | b1 :: r1 =>
            if is_cont b1 then cp2 b0 b1 :: decode_replace r1
            else REPLACEMENT :: decode_replace r0
        | [] => [REPLACEMENT]
        end
      else if n <? 0xF0 then
        match r0 with
        | [] => [REPLACEMENT]
        | b1 :: r1 =>
            if second_ok b0 b1 then
              match r1 with
              | [] => [REPLACEMENT]
              | b2 :: r2 =>
                  if is_cont b2 then cp3 b0 b1 b2 :: decode_replace r2
                  else REPLACEMENT :: decode_replace r1
              end
            else REPLACEMENT :: decode_replace r0
        end
      else if n <? 0xF5 then
        match r0 with
        | [] => [REPLACEMENT]
        | b1 :: r1 =>
            if second_ok b0 b1 then
              match r1 with
              | [] => [REPLACEMENT]
              | b2 :: r2 =>
                  if is_cont b2 then
                    match r2 with
                    | [] => [REPLACEMENT]
                    | b3 :: r3 =>
                        if is_cont b3 then cp4 b0 b1 b2 b3 :: decode_replace r3
                        else REPLACEMENT :: decode_replace r2
                    end
                  else REPLACEMENT :: decode_replace r1
              end
            else REPLACEMENT :: decode_replace r0
        end
      else REPLACEMENT :: decode_replace r0
  end.
