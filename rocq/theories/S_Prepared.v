(** Specification: prepared transactions as texts (C103). *)
From Coq Require Import String.
From Verif Require Import Py M_network M_unspent S_Json.

(** No object has two fields of the same name. *)
Inductive Unrepeated : json -> Prop :=
| U_null : Unrepeated JNull
| U_bool b : Unrepeated (JBool b)
| U_int n : Unrepeated (JInt n)
| U_float r d : Unrepeated (JFloat r d)
| U_str s : Unrepeated (JStr s)
| U_list l : Forall Unrepeated l -> Unrepeated (JList l)
| U_obj fs : NoDup (map fst fs) -> Forall (fun p => Unrepeated (snd p)) fs -> Unrepeated (JObj fs).

(** Coins and outputs that can be written down: texts of Unicode characters, sizes
    that floats hold exactly. *)
Definition WritableCoin (u : Unspent) : Prop := Forall scalar (u_script u) /\ Forall scalar (u_txid u) /\ 0 <= u_vsize u < 4 * 10 ^ 15.
Definition WritableDict (d : udict) : Prop := Forall scalar (d_script d) /\ Forall scalar (d_txid d) /\ Forall scalar (d_type d) /\ 0 <= d_vsize d < 4 * 10 ^ 15.
