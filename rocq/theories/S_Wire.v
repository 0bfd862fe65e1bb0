(** Specification: CompactSize integers of the Bitcoin wire format, written out
    byte by byte (https://en.bitcoin.it/wiki/Protocol_documentation). *)
From Verif Require Import Py.

Inductive CompactSize : Z -> bytes -> Prop :=
| cs1 v : 0 <= v <= 0xfc -> CompactSize v [v]
| cs3 v b0 b1 :
    0xfd <= v <= 0xffff -> 0 <= b0 < 256 -> 0 <= b1 < 256 ->
    v = b0 + 0x100 * b1 -> CompactSize v [0xfd; b0; b1]
| cs5 v b0 b1 b2 b3 :
    0x10000 <= v <= 0xffffffff ->
    0 <= b0 < 256 -> 0 <= b1 < 256 -> 0 <= b2 < 256 -> 0 <= b3 < 256 ->
    v = b0 + 0x100 * b1 + 0x10000 * b2 + 0x1000000 * b3 ->
    CompactSize v [0xfe; b0; b1; b2; b3]
| cs9 v b0 b1 b2 b3 b4 b5 b6 b7 :
    0x100000000 <= v <= 0xffffffffffffffff ->
    0 <= b0 < 256 -> 0 <= b1 < 256 -> 0 <= b2 < 256 -> 0 <= b3 < 256 ->
    0 <= b4 < 256 -> 0 <= b5 < 256 -> 0 <= b6 < 256 -> 0 <= b7 < 256 ->
    v = b0 + 0x100 * b1 + 0x10000 * b2 + 0x1000000 * b3 + 0x100000000 * b4
        + 0x10000000000 * b5 + 0x1000000000000 * b6 + 0x100000000000000 * b7 ->
    CompactSize v [0xff; b0; b1; b2; b3; b4; b5; b6; b7].

(** Little-endian number of exactly [n] bytes, as a relation. *)
Inductive LEnum : nat -> Z -> bytes -> Prop :=
| le0 : LEnum 0 0 []
| leS n v b r : 0 <= b < 256 -> LEnum n v r -> LEnum (S n) (b + 256 * v) (b :: r).
