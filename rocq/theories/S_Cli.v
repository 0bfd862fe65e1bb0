(** Specification: what the command "bit gen" writes (C100). *)
From Coq Require Import String.
From Verif Require Import Py M_crypto S_Decimal S_Base58 S_Addr S_Keygen.

(** Decimal numbers without leading zeros. *)
Definition WritesInt (k : Z) (t : pystr) : Prop :=
  exists d, Digits (Z.abs k) d /\ (k < 0 /\ t = 45 :: d \/ 0 <= k /\ t = d) /\ (length d = 1%nat \/ exists c r, d = c :: r /\ c <> 48).
(** A progress message, which the next one overwrites. *)
Definition Progress (k : Z) (t : pystr) : Prop := exists n, WritesInt k n /\ t = str "Keys generated: " ++ n ++ [13].
(** The result of a search. *)
Definition Result (w a : pystr) : pystr := [10; 10] ++ str "WIF: " ++ w ++ 10 :: str "Address: " ++ a ++ [10; 10].
(** The result without a search. *)
Definition PairLine (w a : pystr) : pystr := str "('" ++ w ++ str "', '" ++ a ++ str "')" ++ [10].
(** The prefix begins with the digit one, which every address begins with. *)
Definition WithOne (prefix p : pystr) : Prop := exists r, p = 49 :: r /\ (prefix = p \/ hd 0 prefix <> 49 /\ prefix = r).
