(** Specification: UTF-8 (RFC 3629), as a relation between code points and bytes. *)
From Verif Require Import Py.

Inductive Utf8Char : Z -> bytes -> Prop :=
| utf8_1 c : 0 <= c <= 0x7f -> Utf8Char c [c]
| utf8_2 c h l : 0x80 <= c <= 0x7ff -> c = 64 * h + l -> 0 <= l < 64 -> Utf8Char c [192 + h; 128 + l]
| utf8_3 c h m l : 0x800 <= c <= 0xffff -> ~ 0xd800 <= c <= 0xdfff -> c = 64 * (64 * h + m) + l ->
    0 <= m < 64 -> 0 <= l < 64 -> Utf8Char c [224 + h; 128 + m; 128 + l]
| utf8_4 c h g m l : 0x10000 <= c <= 0x10ffff -> c = 64 * (64 * (64 * h + g) + m) + l ->
    0 <= g < 64 -> 0 <= m < 64 -> 0 <= l < 64 -> Utf8Char c [240 + h; 128 + g; 128 + m; 128 + l].

Inductive Utf8 : pystr -> bytes -> Prop :=
| utf8_nil : Utf8 [] []
| utf8_cons c s b t : Utf8Char c b -> Utf8 s t -> Utf8 (c :: s) (b ++ t).
