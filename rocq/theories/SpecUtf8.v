(** SpecUtf8.v -- the UTF-8 form of a text, as RFC 3629 section 3 and table
    3-7 of the Unicode standard have it.  Nothing of the model is used. *)
From Coq Require Import NArith List.
Import ListNotations.
Local Open Scope N_scope.

(** [utf8_char c b]: the character number [c] is written with the bytes [b].
    Each of the bytes after the first carries six bits of the number.  A number
    has one form only, the shortest, and the numbers set aside for UTF-16
    (D800 to DFFF) have none. *)
Inductive utf8_char : N -> list N -> Prop :=
| utf8_1 c : c <= 127 -> utf8_char c [c]
| utf8_2 x y :
    y < 64 -> 128 <= x * 64 + y <= 2047 -> utf8_char (x * 64 + y) [192 + x; 128 + y]
| utf8_3 x y z :
    y < 64 -> z < 64 -> 2048 <= x * 4096 + y * 64 + z <= 65535 ->
    ~ (55296 <= x * 4096 + y * 64 + z <= 57343) ->
    utf8_char (x * 4096 + y * 64 + z) [224 + x; 128 + y; 128 + z]
| utf8_4 w x y z :
    x < 64 -> y < 64 -> z < 64 -> 65536 <= w * 262144 + x * 4096 + y * 64 + z <= 1114111 ->
    utf8_char (w * 262144 + x * 4096 + y * 64 + z) [240 + w; 128 + x; 128 + y; 128 + z].
(** [utf8 s b]: the bytes [b] are the text [s], character by character. *)
Inductive utf8 : list N -> list N -> Prop :=
| utf8_nil : utf8 [] []
| utf8_cons c b s r : utf8_char c b -> utf8 s r -> utf8 (c :: s) (b ++ r).
(** a character that can be written *)
Definition scalar (c : N) : Prop := c <= 1114111 /\ ~ (55296 <= c <= 57343).
