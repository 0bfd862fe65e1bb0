(** Specification: the texts that json.loads accepts (C103).  They are the JSON
    texts of RFC 8259 (S_Json.v, here with all its numbers) and, as its
    documentation says, NaN, Infinity and -Infinity; and strings may name half of a
    pair. *)
From Coq Require Import String.
From Verif Require Import Py M_network M_unspent M_sign S_Hex S_Decimal S_Cli S_Json.

(** Characters of strings; the first half of a pair alone if no second half follows. *)
Definition first_half (n : Z) : Prop := 55296 <= n < 56320.
Definition second_half (n : Z) : Prop := 56320 <= n < 57344.
Inductive LChars : pystr -> pystr -> Prop :=
| Ls_nil : LChars [] []
| Ls_cons c s t u : JChar c t -> LChars s u -> LChars (c :: s) (t ++ u)
| Ls_first c s t u : UEscape c t -> first_half c -> (forall n x y, UEscape n x -> second_half n -> u <> x ++ y) -> LChars s u -> LChars (c :: s) (t ++ u)
| Ls_second c s t u : UEscape c t -> second_half c -> LChars s u -> LChars (c :: s) (t ++ u).
Definition LString (s t : pystr) : Prop := exists u, LChars s u /\ t = 34 :: u ++ [34].

(** Numbers with a fraction or an exponent. *)
Definition DigitsOnly (ds : pystr) : Prop := ds <> [] /\ Forall (fun c => 48 <= c <= 57) ds.
Inductive Exponent : pystr -> Prop :=
| X_none : Exponent []
| X_some e sg ds : e = 101 \/ e = 69 -> sg = [] \/ sg = [43] \/ sg = [45] -> DigitsOnly ds -> Exponent (e :: sg ++ ds).
Inductive Fraction : pystr -> Prop :=
| F_none : Fraction []
| F_some ds : DigitsOnly ds -> Fraction (46 :: ds).
Inductive Numeral : pystr -> Prop :=
| N_pos n i f x : 0 <= n -> WritesInt n i -> Fraction f -> Exponent x -> f ++ x <> [] -> Numeral (i ++ f ++ x)
| N_neg n i f x : 0 <= n -> WritesInt n i -> Fraction f -> Exponent x -> f ++ x <> [] -> Numeral (45 :: i ++ f ++ x).
(** Those that are read without rounding *)
Inductive Quarter : json -> pystr -> Prop :=
| Q_quarter n t f m a e : 0 <= n < 10 ^ 15 -> WritesInt n t -> In (f, m, a, e) quarters ->
    Quarter (JFloat (t ++ 46 :: f) (Fin false (m * n + a) e)) (t ++ 46 :: f).

Section Grammar.
Variable float : pystr -> pystr * dec.
Inductive LVal : json -> pystr -> Prop :=
| LV_null : LVal JNull (str "null")
| LV_true : LVal (JBool true) (str "true")
| LV_false : LVal (JBool false) (str "false")
| LV_nan : LVal (JFloat (str "nan") (NaN false)) (str "NaN")
| LV_inf : LVal (JFloat (str "inf") (Inf false)) (str "Infinity")
| LV_minus_inf : LVal (JFloat (str "-inf") (Inf true)) (str "-Infinity")
| LV_int n t : WritesInt n t -> LVal (JInt n) t
| LV_minus_zero : LVal (JInt 0) (str "-0")
| LV_quarter v t : Quarter v t -> LVal v t
| LV_float t : Numeral t -> (forall v, ~ Quarter v t) -> LVal (JFloat (fst (float t)) (snd (float t))) t
| LV_str s t : LString s t -> LVal (JStr s) t
| LV_none w : Blank w -> LVal (JList []) (91 :: w ++ [93])
| LV_list v l t : LElems v l t -> LVal (JList (v :: l)) (91 :: t ++ [93])
| LV_empty w : Blank w -> LVal (JObj []) (123 :: w ++ [125])
| LV_obj f fs t : LMembers f fs t -> LVal (JObj (f :: fs)) (123 :: t ++ [125])
with LText : json -> pystr -> Prop :=
| LT_blank v w t w' : Blank w -> LVal v t -> Blank w' -> LText v (w ++ t ++ w')
with LElems : json -> list json -> pystr -> Prop :=
| LE_one v t : LText v t -> LElems v [] t
| LE_more v v' l t u : LText v t -> LElems v' l u -> LElems v (v' :: l) (t ++ 44 :: u)
with LMembers : pystr * json -> list (pystr * json) -> pystr -> Prop :=
| LM_one f t : LMember f t -> LMembers f [] t
| LM_more f f' l t u : LMember f t -> LMembers f' l u -> LMembers f (f' :: l) (t ++ 44 :: u)
with LMember : pystr * json -> pystr -> Prop :=
| LM_field k v w s w' t : Blank w -> LString k s -> Blank w' -> LText v t -> LMember (k, v) (w ++ s ++ w' ++ 58 :: t).
End Grammar.

(** The field of an object: if its name comes more than once, the last. *)
Definition LastField (k : pystr) (v : json) (j : json) : Prop :=
  exists before after, j = JObj (before ++ (k, v) :: after) /\ ~ In k (map fst after).

(** The value of which each object has each name once. *)
Inductive Collapses : json -> json -> Prop :=
| K_null : Collapses JNull JNull
| K_bool b : Collapses (JBool b) (JBool b)
| K_int n : Collapses (JInt n) (JInt n)
| K_float r d : Collapses (JFloat r d) (JFloat r d)
| K_str s : Collapses (JStr s) (JStr s)
| K_list l l' : Forall2 Collapses l l' -> Collapses (JList l) (JList l')
| K_obj fs gs : NoDup (map fst gs) -> (forall k, In k (map fst gs) <-> In k (map fst fs)) ->
    (forall k v, In (k, v) gs -> exists v0, LastField k v0 (JObj fs) /\ Collapses v0 v) -> Collapses (JObj fs) (JObj gs).

(** A coin and an output as prepare_transaction writes them; other fields are allowed.
    Sizes are in quarters; null stands for the usual size.  What segwit is does not
    matter. *)
Inductive SizeIs : Z -> json -> Prop :=
| Z_null : SizeIs 0 JNull
| Z_int n : SizeIs (4 * n) (JInt n)
| Z_float r (neg : bool) c e v : e <= 0 -> v * 10 ^ (- e) = 4 * c -> SizeIs (if neg then - v else v) (JFloat r (Fin neg c e)).
Definition CoinIs (d : udict) (j : json) : Prop :=
  LastField (str "amount") (JInt (d_amount d)) j /\ LastField (str "confirmations") (JInt (d_confirmations d)) j /\
  LastField (str "script") (JStr (d_script d)) j /\ LastField (str "txid") (JStr (d_txid d)) j /\
  LastField (str "txindex") (JInt (d_txindex d)) j /\ LastField (str "type") (JStr (d_type d)) j /\
  (exists v, LastField (str "vsize") v j /\ SizeIs (d_vsize d) v) /\ (exists v, LastField (str "segwit") v j) /\
  LastField (str "sequence") (JInt (d_sequence d)) j.
Definition OutputIs (o : dest * Z) (j : json) : Prop := exists a n, o = (Addr a, n) /\ j = JList [JStr a; JInt n].
(** What the text of a prepared transaction says. *)
Definition Says (float : pystr -> pystr * dec) (t : pystr) (us : list udict) (outs : list (dest * Z)) : Prop :=
  exists j ul ol, LText float j t /\ LastField (str "unspents") (JList ul) j /\ LastField (str "outputs") (JList ol) j /\
    Forall2 CoinIs us ul /\ Forall2 OutputIs outs ol.
