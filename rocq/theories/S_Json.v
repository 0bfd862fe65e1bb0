(** Specification: JSON texts (RFC 8259) and what they stand for (C102, C103).  Of the
    numbers with fractions only those are here that count in quarters, which floats
    hold exactly. *)
From Coq Require Import String.
From Verif Require Import Py M_network S_Hex S_Decimal S_Cli.

Definition surrogate (n : Z) : Prop := 55296 <= n < 57344.
(** Characters that Unicode gives meaning to. *)
Definition scalar (c : Z) : Prop := 0 <= c < 1114112 /\ ~ surrogate c.
(** A character in a string: itself, a backslash and a letter, or its number in
    hexadecimal, in two halves if it is large. *)
Inductive UEscape : Z -> pystr -> Prop :=
| U_hex a b t : HexOf [a; b] t -> UEscape (256 * a + b) (92 :: 117 :: t).
Inductive JChar : Z -> pystr -> Prop :=
| J_plain c : 32 <= c -> c <> 34 -> c <> 92 -> JChar c [c]
| J_letter c e : In (e, c) [(34, 34); (92, 92); (47, 47); (98, 8); (102, 12); (110, 10); (114, 13); (116, 9)] -> JChar c [92; e]
| J_u c t : UEscape c t -> ~ surrogate c -> JChar c t
| J_pair h l t u : UEscape (55296 + h) t -> UEscape (56320 + l) u -> 0 <= h < 1024 -> 0 <= l < 1024 -> JChar (65536 + 1024 * h + l) (t ++ u).
Inductive JChars : pystr -> pystr -> Prop :=
| Js_nil : JChars [] []
| Js_cons c s t u : JChar c t -> JChars s u -> JChars (c :: s) (t ++ u).
Definition JString (s t : pystr) : Prop := exists u, JChars s u /\ t = 34 :: u ++ [34].
Definition Blank (w : pystr) : Prop := Forall (fun c => In c [32; 9; 10; 13]) w.

(** The fraction, and the number that 131 becomes with it: 131 * 100 + 25, which
    counts in hundredths. *)
Definition quarters : list (pystr * Z * Z * Z) := [(str "0", 1, 0, 0); (str "25", 100, 25, -2); (str "5", 10, 5, -1); (str "75", 100, 75, -2)].

(** [JText v t]: [t] stands for [v], with white space around. *)
Inductive JVal : json -> pystr -> Prop :=
| V_null : JVal JNull (str "null")
| V_true : JVal (JBool true) (str "true")
| V_false : JVal (JBool false) (str "false")
| V_int n t : WritesInt n t -> JVal (JInt n) t
| V_quarter n t f m a e : 0 <= n < 10 ^ 15 -> WritesInt n t -> In (f, m, a, e) quarters -> JVal (JFloat (t ++ 46 :: f) (Fin false (m * n + a) e)) (t ++ 46 :: f)
| V_str s t : JString s t -> JVal (JStr s) t
| V_none w : Blank w -> JVal (JList []) (91 :: w ++ [93])
| V_list v l t : Elems v l t -> JVal (JList (v :: l)) (91 :: t ++ [93])
| V_empty w : Blank w -> JVal (JObj []) (123 :: w ++ [125])
| V_obj f fs t : Members f fs t -> JVal (JObj (f :: fs)) (123 :: t ++ [125])
with JText : json -> pystr -> Prop :=
| T_blank v w t w' : Blank w -> JVal v t -> Blank w' -> JText v (w ++ t ++ w')
with Elems : json -> list json -> pystr -> Prop :=
| E_one v t : JText v t -> Elems v [] t
| E_more v v' l t u : JText v t -> Elems v' l u -> Elems v (v' :: l) (t ++ 44 :: u)
with Members : pystr * json -> list (pystr * json) -> pystr -> Prop :=
| M_one f t : Member f t -> Members f [] t
| M_more f f' l t u : Member f t -> Members f' l u -> Members f (f' :: l) (t ++ 44 :: u)
with Member : pystr * json -> pystr -> Prop :=
| M_field k v w s w' t : Blank w -> JString k s -> Blank w' -> JText v t -> Member (k, v) (w ++ s ++ w' ++ 58 :: t).

(** Values that the theorem is about: strings of characters, no other fractions. *)
Inductive Plain : json -> Prop :=
| P_null : Plain JNull
| P_bool b : Plain (JBool b)
| P_int n : Plain (JInt n)
| P_quarter n t f m a e : 0 <= n < 10 ^ 15 -> WritesInt n t -> In (f, m, a, e) quarters -> Plain (JFloat (t ++ 46 :: f) (Fin false (m * n + a) e))
| P_str s : Forall scalar s -> Plain (JStr s)
| P_list l : Forall Plain l -> Plain (JList l)
| P_obj fs : Forall (fun p => Forall scalar (fst p) /\ Plain (snd p)) fs -> Plain (JObj fs).
