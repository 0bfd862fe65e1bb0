(** Specification: Bitcoin transactions and their wire format (BIP144), written
    independently of the model as encoding relations. *)
From Verif Require Import Py S_Wire.

(** Abstract transactions: numbers are numbers, witnesses are stacks. *)
Record tin := Tin { i_txid : bytes; i_vout : Z; i_script : bytes; i_seq : Z; i_wit : list bytes }.
Record tout := Tout { o_value : Z; o_script : bytes }.
Record tx := Tx { t_ver : Z; t_ins : list tin; t_outs : list tout; t_lock : Z }.

(** A byte string preceded by its length. *)
Definition VarBytes (s b : bytes) : Prop :=
  exists n, CompactSize (Z.of_nat (length s)) n /\ b = n ++ s.

(** One encoding after the other. *)
Inductive EncSeq {A} (E : A -> bytes -> Prop) : list A -> bytes -> Prop :=
| es_nil : EncSeq E [] []
| es_cons a l b c : E a b -> EncSeq E l c -> EncSeq E (a :: l) (b ++ c).

(** A vector: its length, then its elements. *)
Definition EncVec {A} (E : A -> bytes -> Prop) (l : list A) (b : bytes) : Prop :=
  exists n c, CompactSize (Z.of_nat (length l)) n /\ EncSeq E l c /\ b = n ++ c.

Definition EncIn (i : tin) (b : bytes) : Prop :=
  exists vo sc sq, length (i_txid i) = 32%nat /\ LEnum 4 (i_vout i) vo /\ VarBytes (i_script i) sc /\
    LEnum 4 (i_seq i) sq /\ b = i_txid i ++ vo ++ sc ++ sq.

Definition EncOut (o : tout) (b : bytes) : Prop :=
  exists v sc, LEnum 8 (o_value o) v /\ VarBytes (o_script o) sc /\ b = v ++ sc.

Definition EncStack (w : list bytes) (b : bytes) : Prop := EncVec VarBytes w b.

(** The format without witnesses (also hashed for the transaction id). *)
Definition EncLegacy (t : tx) (b : bytes) : Prop :=
  exists v i o l, LEnum 4 (t_ver t) v /\ EncVec EncIn (t_ins t) i /\ EncVec EncOut (t_outs t) o /\
    LEnum 4 (t_lock t) l /\ b = v ++ i ++ o ++ l.

(** The extended format: marker 00, flag 01, one witness stack per input. *)
Definition EncSegwit (t : tx) (b : bytes) : Prop :=
  exists v i o w l, LEnum 4 (t_ver t) v /\ EncVec EncIn (t_ins t) i /\ EncVec EncOut (t_outs t) o /\
    EncSeq EncStack (map i_wit (t_ins t)) w /\ LEnum 4 (t_lock t) l /\
    b = v ++ [0x00; 0x01] ++ i ++ o ++ w ++ l.

(** The same transaction with other witnesses. *)
Definition no_wit (i : tin) : tin := Tin (i_txid i) (i_vout i) (i_script i) (i_seq i) [].
Definition strip_witness (t : tx) : tx := Tx (t_ver t) (map no_wit (t_ins t)) (t_outs t) (t_lock t).
