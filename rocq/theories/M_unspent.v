(** Model of bit/network/meta.py: class Unspent. *)
From Coq Require Import String.
From Verif Require Export M_utils.

(* repo: bit/network/meta.py:7-22 UNSPENT_TYPES; sizes are kept in quarters of
   a byte because multisig wallets supply vsizes such as 131.5 (floats in Python). *)
Inductive utype := Unknown | P2PKH_uncompressed | P2PKH | P2SH | NP2WKH | NP2WSH | P2WKH | P2WSH.

Definition type_name (t : utype) : pystr :=
  match t with
  | Unknown => str "unknown" | P2PKH_uncompressed => str "p2pkh-uncompressed" | P2PKH => str "p2pkh"
  | P2SH => str "p2sh" | NP2WKH => str "np2wkh" | NP2WSH => str "np2wsh" | P2WKH => str "p2wkh" | P2WSH => str "p2wsh"
  end.
Definition type_segwit (t : utype) : option bool :=
  match t with
  | Unknown => None | P2PKH_uncompressed | P2PKH | P2SH => Some false
  | NP2WKH | NP2WSH | P2WKH | P2WSH => Some true
  end.
Definition type_vsize (t : utype) : Z :=
  4 * match t with
      | Unknown => 180 | P2PKH_uncompressed => 180 | P2PKH => 148 | P2SH => 298
      | NP2WKH => 91 | NP2WSH => 140 | P2WKH => 68 | P2WSH => 105
      end.
Definition all_types : list utype := [Unknown; P2PKH_uncompressed; P2PKH; P2SH; NP2WKH; NP2WSH; P2WKH; P2WSH].

(** [type if type in UNSPENT_TYPES else 'unknown'] *)
Definition type_of_name (s : pystr) : utype :=
  match find (fun t => list_eqb (type_name t) s) all_types with Some t => t | None => Unknown end.

(* repo: bit/network/meta.py:28 Unspent.__slots__; vsize in quarters of a byte;
   the script is only stored, never interpreted by the library *)
Record Unspent := mkU {
  u_amount : Z; u_confirmations : Z; u_script : pystr; u_txid : pystr; u_txindex : Z;
  u_type : utype; u_vsize : Z; u_segwit : option bool; u_sequence : Z
}.

(* repo: bit/network/meta.py:30-40 Unspent.__init__; the parameter segwit is ignored *)
Definition new_unspent (amount confirmations : Z) (script txid : pystr) (txindex : Z) (type : pystr)
    (vsize : option Z) (segwit : option bool) (sequence : Z) : Unspent :=
  let t := type_of_name type in
  mkU amount confirmations script txid txindex t
    (match vsize with Some v => if v =? 0 then type_vsize t else v | None => type_vsize t end)
    (type_segwit t) sequence.

(* repo: bit/network/meta.py:42-43 to_dict: the slots as a record of plain values *)
Record udict := mkD {
  d_amount : Z; d_confirmations : Z; d_script : pystr; d_txid : pystr; d_txindex : Z;
  d_type : pystr; d_vsize : Z; d_segwit : option bool; d_sequence : Z
}.
Definition to_dict (u : Unspent) : udict :=
  mkD (u_amount u) (u_confirmations u) (u_script u) (u_txid u) (u_txindex u) (type_name (u_type u))
    (u_vsize u) (u_segwit u) (u_sequence u).

(* repo: bit/network/meta.py:45-47 from_dict *)
Definition from_dict (d : udict) : Unspent :=
  new_unspent (d_amount d) (d_confirmations d) (d_script d) (d_txid d) (d_txindex d) (d_type d)
    (Some (d_vsize d)) (d_segwit d) (d_sequence d).

(* repo: bit/network/meta.py:49-57 __eq__: confirmations, type and vsize are not compared *)
Definition segwit_eqb (a b : option bool) : bool :=
  match a, b with Some x, Some y => Bool.eqb x y | None, None => true | _, _ => false end.
Definition unspent_eqb (a b : Unspent) : bool :=
  (u_amount a =? u_amount b) && list_eqb (u_script a) (u_script b) && list_eqb (u_txid a) (u_txid b)
  && (u_txindex a =? u_txindex b) && segwit_eqb (u_segwit a) (u_segwit b) && (u_sequence a =? u_sequence b).

(* repo: bit/network/meta.py:70-74 set_type *)
Definition set_type (u : Unspent) (type : pystr) (vsize : Z) : Unspent :=
  let t := type_of_name type in
  mkU (u_amount u) (u_confirmations u) (u_script u) (u_txid u) (u_txindex u) t
    (if vsize =? 0 then type_vsize t else vsize) (type_segwit t) (u_sequence u).

(* repo: bit/network/meta.py:76-78 opt_in_for_RBF *)
Definition opt_in_for_RBF (u : Unspent) : Unspent :=
  if u_sequence u >? 4294967293
  then mkU (u_amount u) (u_confirmations u) (u_script u) (u_txid u) (u_txindex u) (u_type u) (u_vsize u)
         (u_segwit u) 4294967293
  else u.

(** truth value of the segwit attribute *)
Definition u_is_segwit (u : Unspent) : bool := match u_segwit u with Some true => true | _ => false end.
