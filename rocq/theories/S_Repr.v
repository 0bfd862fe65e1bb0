(** Specification: expressions of Python and what they stand for (C101). *)
From Coq Require Import String.
From Verif Require Import Py S_Hex S_Decimal S_Cli.

(** Values: byte strings, strings, integers, None, truth values, lists and calls,
    whose arguments have a name or none ([]). *)
Inductive value :=
| VBytes (b : bytes) | VStr (s : pystr) | VInt (z : Z) | VNone | VBool (b : bool)
| VList (l : list value) | VCall (f : pystr) (args : list (pystr * value)).

(** A character in a literal with quotes [q]: itself, a backslash and a letter, or
    its number in hexadecimal. *)
Inductive Char (q : Z) : Z -> pystr -> Prop :=
| C_plain c : c <> q -> c <> 92 -> c <> 10 -> c <> 13 -> Char q c [c]
| C_letter c e : In (e, c) [(92, 92); (39, 39); (34, 34); (116, 9); (110, 10); (114, 13)] -> Char q c [92; e]
| C_hex c t : HexOf [c] t -> Char q c (92 :: 120 :: t).
Inductive Chars (q : Z) : list Z -> pystr -> Prop :=
| Cs_nil : Chars q [] []
| Cs_cons c s t u : Char q c t -> Chars q s u -> Chars q (c :: s) (t ++ u).
Definition Quoted (s : list Z) (t : pystr) : Prop := exists q u, (q = 39 \/ q = 34) /\ Chars q s u /\ t = q :: u ++ [q].

(** [t] is an expression for [v]. *)
Inductive Reads : value -> pystr -> Prop :=
| R_bytes b t : Quoted b t -> Forall (fun c => c < 128) t -> Reads (VBytes b) (98 :: t)
| R_str s t : Quoted s t -> Reads (VStr s) t
| R_int z t : WritesInt z t -> Reads (VInt z) t
| R_none : Reads VNone (str "None")
| R_true : Reads (VBool true) (str "True")
| R_false : Reads (VBool false) (str "False")
| R_list l t : ReadsList l t -> Reads (VList l) (91 :: t ++ [93])
| R_call f l t : ReadsArgs l t -> Reads (VCall f l) (f ++ 40 :: t ++ [41])
with ReadsList : list value -> pystr -> Prop :=
| L_nil : ReadsList [] []
| L_one v t : Reads v t -> ReadsList [v] t
| L_more v w l t u : Reads v t -> ReadsList (w :: l) u -> ReadsList (v :: w :: l) (t ++ 44 :: 32 :: u)
with ReadsArgs : list (pystr * value) -> pystr -> Prop :=
| A_one k v t u : Reads v t -> Named k t u -> ReadsArgs [(k, v)] u
| A_more k v w l t u r : Reads v t -> Named k t u -> ReadsArgs (w :: l) r -> ReadsArgs ((k, v) :: w :: l) (u ++ 44 :: 32 :: r)
with Named : pystr -> pystr -> pystr -> Prop :=
| N_none t : Named [] t t
| N_name k t : k <> [] -> Named k t (k ++ 61 :: t).

(** How a call gives values to parameters, some with defaults: the arguments
    without names in order, then those with names. *)
Definition Given (params : list pystr) (args : list (pystr * value)) (p : pystr) (v : value) : Prop :=
  (exists i, nth_error params i = Some p /\ nth_error args i = Some ([], v)) \/ p <> [] /\ In (p, v) args.
(** More arguments without names than parameters: TypeError. *)
Definition TooMany (params : list pystr) (args : list (pystr * value)) : Prop := (length params < length (filter (fun a => list_eqb (fst a) []) args))%nat.
