(** Specification of fee estimation and changeless matches.  Input sizes are in
    quarters of a virtual byte, all else in bytes and satoshis. *)
From Verif Require Import Py.

Fixpoint total (l : list Z) : Z := match l with [] => 0 | x :: r => x + total r end.

(** Number of bytes needed to write the count n (at least one). *)
Definition CountBytes (n k : Z) : Prop :=
  1 <= k /\ n < 256 ^ k /\ (k = 1 \/ 256 ^ (k - 1) <= n).

(** Estimated virtual size: inputs, outputs, both counts, 8 bytes for version and
    lock time, half a byte for marker and flag; rounded up. *)
Definition EstimatedSize (ins4 : list Z) (outs : list Z) (segwit : bool) (s : Z) : Prop :=
  exists ki ko, CountBytes (Z.of_nat (length ins4)) ki /\ CountBytes (Z.of_nat (length outs)) ko /\
    let t := total ins4 + 4 * (ki + total outs + ko + 8) + (if segwit then 2 else 0) in
    t <= 4 * s /\ 4 * (s - 1) < t.

(** A set of coins (amount, size) pays for [target] without change: what is left
    for the fee covers the inputs, the outputs without change and 9 bytes, and
    exceeds that by at most a typical input plus a typical output. *)
Definition all_but_last (outs : list Z) : list Z := firstn (length outs - 1) outs.
Definition Changeless (target fee : Z) (outs : list Z) (coins : list (Z * Z)) : Prop :=
  let paid4 := 4 * (total (map fst coins) - target) in
  let needed4 := fee * (total (map snd coins) + 4 * (9 + total (all_but_last outs))) in
  needed4 <= paid4 <= needed4 + 4 * fee * (148 + 34).
