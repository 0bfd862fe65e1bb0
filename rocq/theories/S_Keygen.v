(** Specification: vanity addresses, on what can be seen of a search. *)
From Verif Require Import Py M_crypto S_Base58 S_Addr M_keygen.

(** The address of the compressed public key of a secret on the main network. *)
Definition CompressedAddress {CR : Crypto} (s : bytes) (a : pystr) : Prop :=
  Base58CheckStr (0 :: hash160 (ec_pubkey s true)) a.
(** The standard form of a secret for import without compression. *)
Definition UncompressedWif {CR : Crypto} (s : bytes) (w : pystr) : Prop := Base58CheckStr (0x80 :: s) w.

(** Keys made so far. *)
Fixpoint made (t : list event) : Z :=
  match t with [] => 0 | Generated _ _ :: r => 1 + made r | _ :: r => made r end.
(** Keys made so far by one worker. *)
Fixpoint made_by (i : nat) (t : list event) : Z :=
  match t with [] => 0 | Generated j _ :: r => (if Nat.eqb i j then 1 else 0) + made_by i r | _ :: r => made_by i r end.
(** The number that a 32-bit counter shows after [n] steps. *)
Definition Counts (n k : Z) : Prop := - 2 ^ 31 <= k < 2 ^ 31 /\ exists d, k = n + d * 2 ^ 32.
