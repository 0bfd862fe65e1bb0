(** Model of bit/curve.py. *)
From Coq Require Import Zpow_facts.
From Verif Require Export Py.

(* repo: bit/curve.py:3-5 *)
Definition FIELD_SIZE : Z := 0xFFFFFFFFFFFFFFFFFFFFFFFFFFFFFFFFFFFFFFFFFFFFFFFFFFFFFFFEFFFFFC2F.
Definition GROUP_ORDER : Z := 0xFFFFFFFFFFFFFFFFFFFFFFFFFFFFFFFEBAAEDCE6AF48A03BBFD25E8CD0364141.
Definition TONELLI_SHANKS_CONSTANT : Z := (FIELD_SIZE + 1) / 4.

(* repo: bit/curve.py:11-12 *)
Definition parity (num : Z) : Z := Z.land num 1.

(* Python's pow(a, e, m); Zpow_mod is the standard library's square-and-multiply. *)
Definition py_pow_mod (a e m : Z) : Z := Zpow_mod a e m.

(* repo: bit/curve.py:15-22 *)
Definition x_to_y (x y_parity : Z) : Z :=
  let y := py_pow_mod (x * x * x + 7) TONELLI_SHANKS_CONSTANT FIELD_SIZE in
  if negb (parity y =? y_parity) then FIELD_SIZE - y else y.
