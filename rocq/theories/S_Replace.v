(** Specification: transactions that spend the same coins, and replacement (BIP 125). *)
From Verif Require Import Py S_Tx S_Size.

Definition outpoint (i : tin) : bytes * Z := (i_txid i, i_vout i).
(** At most one of the two can be confirmed. *)
Definition Conflict (x y : tx) : Prop :=
  exists i j, In i (t_ins x) /\ In j (t_ins y) /\ outpoint i = outpoint j.
(** Some input announces that the transaction may be replaced. *)
Definition Signals (x : tx) : Prop := Exists (fun i => i_seq i < 0xfffffffe) (t_ins x).
(** Nodes that know [x], with the fee [fx], take [y] (as sent: [b]) with the fee
    [fy] in its place: [x] announces it, [y] spends a coin of [x] and no others
    (none that might be unconfirmed), and pays what [x] does and for its own
    size at the rate of one satoshi per byte. *)
Definition Replaces (x y : tx) (b : bytes) (fx fy : Z) : Prop :=
  Signals x /\ Conflict x y /\ incl (map outpoint (t_ins y)) (map outpoint (t_ins x)) /\
  exists v, VirtualSize y b v /\ fx + v <= fy.
