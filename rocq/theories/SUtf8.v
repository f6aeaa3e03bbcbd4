(** UTF-8 (RFC 3629, section 3): the code points and their bytes, by the bit patterns
    0xxxxxxx, 110xxxxx 10xxxxxx, 1110xxxx 10xxxxxx 10xxxxxx, 11110xxx 10xxxxxx 10xxxxxx 10xxxxxx. *)
From Coq Require Import List NArith.
Import ListNotations.
Open Scope N_scope.

(** no code point beyond 10FFFF, no surrogate (D800 to DFFF) *)
Definition unicode (c : N) : Prop := c <= 1114111 /\ ~ (55296 <= c <= 57343).
Inductive pattern : N -> list N -> Prop :=
| one_byte c : c <= 127 -> pattern c [c]
| two_bytes x y : x < 32 -> y < 64 -> 128 <= 64 * x + y -> pattern (64 * x + y) [192 + x; 128 + y]
| three_bytes x y z : x < 16 -> y < 64 -> z < 64 -> 2048 <= 4096 * x + 64 * y + z ->
    pattern (4096 * x + 64 * y + z) [224 + x; 128 + y; 128 + z]
| four_bytes w x y z : w < 8 -> x < 64 -> y < 64 -> z < 64 -> 65536 <= 262144 * w + 4096 * x + 64 * y + z ->
    pattern (262144 * w + 4096 * x + 64 * y + z) [240 + w; 128 + x; 128 + y; 128 + z].
Definition utf8 (c : N) (b : list N) : Prop := unicode c /\ pattern c b.
