(** Specification: what an address holds once a transaction is known. *)
From Coq Require Import Permutation.
From Verif Require Import M_services S_Wire S_Tx S_Servers.

(** The transaction spends the coin; txids are shown in reverse. *)
Definition SpentBy (x : tx) (c : Coin) : Prop :=
  exists i, In i (t_ins x) /\ hex_to_bytes (c_txid c) = Ok (rev (i_txid i)) /\ i_vout i = c_index c.
(** The outputs, numbered from n on, under the given script: value, id, number. *)
Fixpoint received (script : pystr) (id : pystr) (n : Z) (outs : list tout) : list (Z * pystr * Z) :=
  match outs with
  | [] => []
  | o :: r => (if list_eqb (bytes_to_hex (o_script o)) script then [(o_value o, id, n)] else []) ++ received script id (n + 1) r
  end.
Definition entry (c : Coin) : Z * pystr * Z := (c_value c, c_txid c, c_index c).
(** L before, L' after; when either was confirmed is left open. *)
Definition After (x : tx) (id : pystr) (L L' : Ledger) : Prop :=
  l_script L' = l_script L /\
  exists spent kept, Permutation (l_coins L) (spent ++ kept) /\ Forall (SpentBy x) spent /\ Forall (fun c => ~ SpentBy x c) kept /\
    Permutation (map entry (l_coins L')) (map entry kept ++ received (l_script L) id 0 (t_outs x)).
(** What the transaction pays under scripts other than the two given ones. *)
Definition to_others (s1 s2 : pystr) (x : tx) : Z :=
  fold_right Z.add 0 (map o_value (filter (fun o => negb (list_eqb (bytes_to_hex (o_script o)) s1 || list_eqb (bytes_to_hex (o_script o)) s2)) (t_outs x))).
