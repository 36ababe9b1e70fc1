(* UTF-8 as defined by the Unicode standard (3.9, definition D92), independently of the codec. *)
From Verif Require Import Py.

(* Unicode scalar values *)
Definition scalar (c : N) : Prop := c < 0xD800 \/ 0xE000 <= c < 0x110000.
Definition tail (b : byte) (bits : N) : Prop := Byte.to_N b = 0x80 + bits /\ bits < 64.

(* the bytes of one scalar value; the ranges rule out overlong forms *)
Inductive utf8_form : N -> bytes -> Prop :=
| Form1 c b : c < 0x80 -> Byte.to_N b = c -> utf8_form c [b]
| Form2 c b0 b1 hi x : 0x80 <= c < 0x800 -> c = 64 * hi + x -> Byte.to_N b0 = 0xC0 + hi -> tail b1 x ->
    utf8_form c [b0; b1]
| Form3 c b0 b1 b2 hi x y : 0x800 <= c < 0x10000 -> scalar c -> c = 4096 * hi + 64 * x + y ->
    Byte.to_N b0 = 0xE0 + hi -> tail b1 x -> tail b2 y -> utf8_form c [b0; b1; b2]
| Form4 c b0 b1 b2 b3 hi x y z : 0x10000 <= c < 0x110000 -> c = 262144 * hi + 4096 * x + 64 * y + z ->
    Byte.to_N b0 = 0xF0 + hi -> tail b1 x -> tail b2 y -> tail b3 z -> utf8_form c [b0; b1; b2; b3].

Inductive utf8_of : str -> bytes -> Prop :=
| UNil : utf8_of [] []
| UCons c s b bs : utf8_form c b -> utf8_of s bs -> utf8_of (c :: s) (b ++ bs).
