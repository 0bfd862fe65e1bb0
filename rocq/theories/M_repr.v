(** Model of how transactions and coins are shown: repr(). *)
From Coq Require Import String.
From Verif Require Export M_tx M_unspent M_decimal.

(** CPython: a character inside quotes [q].  Simplified: characters above 126 in a
    str are written as they are (CPython escapes those that cannot be printed). *)
Definition escaped (wide : bool) (q c : Z) : pystr :=
  if (c =? q) || (c =? 92) then [92; c]
  else if c =? 9 then [92; 116] else if c =? 10 then [92; 110] else if c =? 13 then [92; 114]
  else if (c <? 32) || (127 <=? c) && negb (wide && (127 <? c)) then 92 :: 120 :: bytes_to_hex [c]
  else [c].
Definition quote (s : list Z) : Z := if existsb (Z.eqb 39) s && negb (existsb (Z.eqb 34) s) then 34 else 39.
Definition quoted (wide : bool) (s : list Z) : pystr := let q := quote s in q :: flat_map (escaped wide q) s ++ [q].
(** repr() of bytes, str, int, None and bool. *)
Definition repr_bytes (b : bytes) : pystr := 98 :: quoted false b.
Definition repr_str (s : pystr) : pystr := quoted true s.
Definition repr_bool (b : option bool) : pystr := match b with None => str "None" | Some true => str "True" | Some false => str "False" end.
(** ', '.join *)
Fixpoint commas (l : list pystr) : pystr :=
  match l with [] => [] | [a] => a | a :: r => a ++ str ", " ++ commas r end.

(* repo: bit/transaction.py:79-92 TxIn.__repr__ *)
Definition in_repr (i : TxIn) : pystr :=
  if in_is_segwit i
  then str "TxIn(" ++ commas [repr_bytes (script_sig i); repr_bytes (script_sig_len i); repr_bytes (txid i); repr_bytes (txindex i); repr_bytes (witness i);
         match amount i with Some a => repr_bytes a | None => str "None" end; repr_bytes (sequence i)] ++ str ")"
  else str "TxIn(" ++ commas [repr_bytes (script_sig i); repr_bytes (script_sig_len i); repr_bytes (txid i); repr_bytes (txindex i); repr_bytes (sequence i)] ++ str ")".
(* repo: bit/transaction.py:119-120 TxOut.__repr__ *)
Definition out_repr (o : TxOut) : pystr :=
  str "TxOut(" ++ commas [repr_bytes (out_amount o); repr_bytes (script_pubkey o); repr_bytes (script_pubkey_len o)] ++ str ")".
(* repo: bit/transaction.py:147-150 TxObj.__repr__ *)
Definition tx_repr (t : TxObj) : pystr :=
  str "TxObj(" ++ commas [repr_bytes (version t); str "[" ++ commas (map in_repr (TxIns t)) ++ str "]";
    str "[" ++ commas (map out_repr (TxOuts t)) ++ str "]"; repr_bytes (locktime t)] ++ str ")".
(* repo: bit/network/meta.py:59-68 Unspent.__repr__ *)
Definition unspent_repr (u : Unspent) : pystr :=
  str "Unspent(amount=" ++ str_of_int (u_amount u) ++ str ", confirmations=" ++ str_of_int (u_confirmations u) ++
  str ", script=" ++ repr_str (u_script u) ++ str ", txid=" ++ repr_str (u_txid u) ++ str ", txindex=" ++ str_of_int (u_txindex u) ++
  str ", segwit=" ++ repr_bool (u_segwit u) ++ str ", sequence=" ++ str_of_int (u_sequence u) ++ str ")".
