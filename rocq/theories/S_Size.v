(** Specification: weight and virtual size of a transaction (BIP141). *)
From Verif Require Import Py S_Tx.

(** Four units per byte of the format without witnesses, one per byte added by
    the extended format; [b] is the transaction as sent. *)
Definition Weight (x : tx) (b : bytes) (w : Z) : Prop :=
  exists base, EncLegacy x base /\ w = 3 * zlen base + zlen b.
(** A quarter of it, rounded up. *)
Definition VirtualSize (x : tx) (b : bytes) (v : Z) : Prop :=
  exists w, Weight x b w /\ w <= 4 * v < w + 4.
