(** Specification: amounts written in decimal notation. *)
From Coq Require Import String.
From Verif Require Import Py.

(** The digits [ds] (as characters) denote the number [n], leading zeros allowed. *)
Inductive Digits : Z -> pystr -> Prop :=
| Dnil : Digits 0 []
| Dsnoc n ds d : Digits n ds -> 0 <= d <= 9 -> Digits (10 * n + d) (ds ++ [48 + d]).

(** [s] reads as c / 10^k: digits with at most one point. *)
Inductive Amount : Z -> Z -> pystr -> Prop :=
| A_whole c ds : Digits c ds -> ds <> [] -> Amount c 0 ds
| A_point c ds fs : Digits c (ds ++ fs) -> ds ++ fs <> [] -> Amount c (zlen fs) (ds ++ 46 :: fs).

(** With an optional sign: the value is (-1)^neg * c / 10^k. *)
Inductive Signed : bool -> Z -> Z -> pystr -> Prop :=
| S_plain c k s : Amount c k s -> Signed false c k s
| S_plus c k s : Amount c k s -> Signed false c k (43 :: s)
| S_minus c k s : Amount c k s -> Signed true c k (45 :: s).

(** [s] reads as c / 10^k: as above or with a negative exponent, as in 1e-08. *)
Inductive Scientific : Z -> Z -> pystr -> Prop :=
| Sc_plain c k s : Amount c k s -> Scientific c k s
| Sc_exp c k s x xs : Amount c k s -> Digits x xs -> xs <> [] -> Scientific c (k + x) (s ++ [101; 45] ++ xs).

(** The shortest way to write T / 10^p: no superfluous zeros, no exponent. *)
Definition Shortest (T p : Z) (s : pystr) : Prop :=
  exists c k ds fs, 0 <= k <= p /\ T = c * 10 ^ (p - k) /\ zlen fs = k /\ Digits c (ds ++ fs) /\
    s = (if k =? 0 then ds else ds ++ 46 :: fs) /\
    (ds = [48] \/ exists d r, ds = d :: r /\ d <> 48) /\
    (k <> 0 -> c mod 10 <> 0).

(** Towards zero. *)
Definition trunc (neg : bool) (a b : Z) : Z := if neg then - (a / b) else a / b.

(** The units of bitcoin and the currencies, with the number of decimal places
    amounts are shown with.  Those of currencies are the ones in ISO 4217, but for
    the krona, which there has none. *)
Definition currencies : list (pystr * Z) :=
  [(str "satoshi", 0); (str "ubtc", 2); (str "mbtc", 5); (str "btc", 8);
   (str "aud", 2); (str "brl", 2); (str "cad", 2); (str "chf", 2); (str "clp", 0); (str "cny", 2); (str "dkk", 2);
   (str "eur", 2); (str "gbp", 2); (str "hkd", 2); (str "isk", 2); (str "jpy", 0); (str "krw", 0); (str "nzd", 2);
   (str "pln", 2); (str "rub", 2); (str "sek", 2); (str "sgd", 2); (str "thb", 2); (str "twd", 2); (str "usd", 2)].
