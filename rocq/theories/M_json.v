(** Model of what is sent to nodes: RPCHost, RPCMethod and json.dumps. *)
From Coq Require Import String.
From Verif Require Export M_services M_repr.

(** json.dumps of the Python library (json/encoder.py, py_encode_basestring_ascii):
    characters that are not printable ASCII are escaped. *)
Definition u_escape (n : Z) : pystr := 92 :: 117 :: bytes_to_hex [n / 256; n mod 256].
Definition json_char (c : Z) : pystr :=
  if (c =? 34) || (c =? 92) then [92; c]
  else if c =? 10 then [92; 110] else if c =? 13 then [92; 114] else if c =? 9 then [92; 116]
  else if c =? 12 then [92; 102] else if c =? 8 then [92; 98]
  else if (32 <=? c) && (c <=? 126) then [c]
  else if c <? 65536 then u_escape c
  else u_escape (55296 + (c - 65536) / 1024) ++ u_escape (56320 + (c - 65536) mod 1024).
Definition json_str (s : pystr) : pystr := 34 :: flat_map json_char s ++ [34].
Fixpoint dumps (j : json) : pystr :=
  match j with
  | JNull => str "null" | JBool true => str "true" | JBool false => str "false"
  | JInt n => str_of_int n | JFloat r _ => r | JStr s => json_str s
  | JList l => 91 :: commas (map dumps l) ++ [93]
  | JObj fs => 123 :: commas (map (fun p => json_str (fst p) ++ str ": " ++ dumps (snd p)) fs) ++ [125]
  end.

(* repo: bit/network/services.py:85-87 RPCMethod.__init__ *)
Record RPCMethod := mkRPC { rpc_method : pystr; rpc_host : pystr }.
(* repo: bit/network/services.py:30-31 RPCHost.__getattr__, 89-91 RPCMethod.__getattr__ *)
Definition host_attr (url name : pystr) : RPCMethod := mkRPC name url.
Definition method_attr (m : RPCMethod) (name : pystr) : RPCMethod := mkRPC (rpc_method m ++ str "." ++ name) (rpc_host m).
(* repo: bit/network/services.py:93-94 RPCMethod.__call__: the payload *)
Definition payload (m : RPCMethod) (args : list json) : pystr :=
  dumps (JObj [(str "method", JStr (rpc_method m)); (str "params", JList args); (str "jsonrpc", JStr (str "2.0"))]).
