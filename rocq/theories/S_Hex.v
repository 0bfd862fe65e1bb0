(** Specification: hexadecimal notation, two characters per byte. *)
From Coq Require Import String.
From Verif Require Import Py.

Definition hexdigits : pystr := str "0123456789abcdef".
Definition HEXDIGITS : pystr := str "0123456789ABCDEF".

(** [c] is a hexadecimal digit of value [v], in either case. *)
Definition hexdigit (c v : Z) : Prop :=
  0 <= v /\ (nth_error hexdigits (Z.to_nat v) = Some c \/ nth_error HEXDIGITS (Z.to_nat v) = Some c).

(** [h] writes the bytes [b], most significant digit of each byte first. *)
Inductive HexOf : bytes -> pystr -> Prop :=
| hex_nil : HexOf [] []
| hex_cons x c1 c2 v1 v2 b h :
    hexdigit c1 v1 -> hexdigit c2 v2 -> x = 16 * v1 + v2 -> HexOf b h ->
    HexOf (x :: b) (c1 :: c2 :: h).
