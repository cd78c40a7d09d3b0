(** * SpecUtf8: UTF-8 (RFC 3629), as a relation between characters and bytes. *)

From Verif Require Import Base.
Open Scope N_scope.

(** The last six bits of a continuation byte [10xxxxxx]. *)
Definition continuation (b x : N) : Prop := b = 0x80 + x /\ x < 64.

(** [encoded c bytes]: the one encoding of the character [c].  The numbers [x], [y],
    [z], [t] are the groups of bits of the table of RFC 3629, section 3. *)
Inductive encoded : N -> list N -> Prop :=
| enc_1 : forall x, x < 0x80 -> encoded x [x]
| enc_2 : forall x y b, x < 32 -> continuation b y -> 0x80 <= x * 64 + y ->
    encoded (x * 64 + y) [0xC0 + x; b]
| enc_3 : forall x y z b c, x < 16 -> continuation b y -> continuation c z ->
    0x800 <= x * 4096 + y * 64 + z ->
    ~ (0xD800 <= x * 4096 + y * 64 + z < 0xE000) ->
    encoded (x * 4096 + y * 64 + z) [0xE0 + x; b; c]
| enc_4 : forall x y z t b c d, x < 8 -> continuation b y -> continuation c z -> continuation d t ->
    0x10000 <= x * 262144 + y * 4096 + z * 64 + t < 0x110000 ->
    encoded (x * 262144 + y * 4096 + z * 64 + t) [0xF0 + x; b; c; d].

(** [encoding s bytes]: the characters one after the other. *)
Inductive encoding : list N -> list N -> Prop :=
| encoding_nil : encoding [] []
| encoding_cons : forall c bytes s rest, encoded c bytes -> encoding s rest ->
    encoding (c :: s) (bytes ++ rest).

(** Unicode scalar values. *)
Definition scalar (c : N) : Prop := c < 0xD800 \/ 0xE000 <= c < 0x110000.
