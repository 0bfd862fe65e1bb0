(** Specification: integers in hexadecimal (C105). *)
From Coq Require Import String.
From Verif Require Import Py S_Hex S_Numeral.

(** [t] is a row of digits of the value [n]. *)
Inductive HexDigits : Z -> pystr -> Prop :=
| HD_nil : HexDigits 0 []
| HD_snoc n t c v : HexDigits n t -> hexdigit c v -> HexDigits (16 * n + v) (t ++ [c]).
(** [s] is a non-empty row of digits [t], with single underscores within it. *)
Inductive HexGrouped : pystr -> pystr -> Prop :=
| HG_one n t : HexDigits n t -> t <> [] -> HexGrouped t t
| HG_more n d s t : HexDigits n d -> d <> [] -> HexGrouped s t -> HexGrouped (d ++ 95 :: s) (d ++ t).
(** [s] is what Python's int(, 16) takes for the integer [z]. *)
Definition ReadsHex (z : Z) (s : pystr) : Prop := exists a sg pre m b t neg n,
  s = a ++ sg ++ pre ++ m ++ b /\ White a /\ White b /\ SignIs neg sg /\ In pre (map str [""; "0x"; "0X"; "0x_"; "0X_"]%string) /\
  HexGrouped m t /\ HexDigits n t /\ z = if neg then - n else n.

(** [h] writes the bytes [b], two digits each, with white space between them (C02). *)
Inductive SpacedHex : bytes -> pystr -> Prop :=
| SH_nil : SpacedHex [] []
| SH_blank c b h : In c [9; 10; 11; 12; 13; 32] -> SpacedHex b h -> SpacedHex b (c :: h)
| SH_byte c1 c2 v1 v2 b h : hexdigit c1 v1 -> hexdigit c2 v2 -> SpacedHex b h -> SpacedHex (16 * v1 + v2 :: b) (c1 :: c2 :: h).
