(** Specification: the texts that Python's Decimal() takes for a finite number. *)
From Coq Require Import String.
From Verif Require Import Py S_Decimal.

(** White space, of the characters below U+0660 (the first digit of another script). *)
Definition white : list Z := [9; 10; 11; 12; 13; 28; 29; 30; 31; 32; 133; 160].
Definition White (s : pystr) : Prop := Forall (fun c => In c white) s.

(** [s] without its underscores is [t]. *)
Inductive Plainly : pystr -> pystr -> Prop :=
| Pl_nil : Plainly [] []
| Pl_underscore s t : Plainly s t -> Plainly (95 :: s) t
| Pl_other c s t : c <> 95 -> Plainly s t -> Plainly (c :: s) (c :: t).

(** + or nothing, -. *)
Inductive SignIs : bool -> pystr -> Prop :=
| Sg_none : SignIs false []
| Sg_plus : SignIs false [43]
| Sg_minus : SignIs true [45].

(** Nothing, or the letter e or E, a sign and digits. *)
Inductive Exponent : Z -> pystr -> Prop :=
| Ex_none : Exponent 0 []
| Ex_some l neg sg x xs : In l [69; 101] -> SignIs neg sg -> Digits x xs -> xs <> [] -> Exponent (if neg then - x else x) (l :: sg ++ xs).

(** [s] is a sign, digits with at most one point, and an exponent; its value is
    (-1)^neg * c * 10^e. *)
Definition Numeral (neg : bool) (c e : Z) (s : pystr) : Prop :=
  exists sg k m x ex, s = sg ++ m ++ ex /\ SignIs neg sg /\ Amount c k m /\ Exponent x ex /\ e = x - k.

(** The same with underscores anywhere within it, and white space around. *)
Definition Reads (neg : bool) (c e : Z) (s : pystr) : Prop :=
  exists a t b t', s = a ++ t ++ b /\ White a /\ White b /\ Plainly t t' /\ Numeral neg c e t'.

(** [s] is a non-empty row of digits [t], with single underscores within it. *)
Inductive Grouped : pystr -> pystr -> Prop :=
| Gr_one n t : Digits n t -> t <> [] -> Grouped t t
| Gr_more n d s t : Digits n d -> d <> [] -> Grouped s t -> Grouped (d ++ 95 :: s) (d ++ t).
(** [s] is what Python's int() takes for the integer [z]. *)
Definition ReadsInt (z : Z) (s : pystr) : Prop :=
  exists a sg m b t neg n, s = a ++ sg ++ m ++ b /\ White a /\ White b /\ SignIs neg sg /\ Grouped m t /\ Digits n t /\ z = if neg then - n else n.
