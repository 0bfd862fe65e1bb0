(** Model of the parts of Python's decimal module that bit relies on (as
    defined by its pure Python version, Lib/_pydecimal.py), and of the class
    Decimal of bit/utils.py. *)
From Coq Require Import String.
From Verif Require Export Py.

(** A decimal number: finite ones are (-1)^neg * coef * 10^exp with coef >= 0. *)
Inductive dec := Fin (neg : bool) (coef exp : Z) | Inf (neg : bool) | NaN (signalling : bool).

(** The digits of a non-negative integer, as str() writes them. *)
Fixpoint dig (fuel : nat) (c : Z) (acc : pystr) : pystr :=
  match fuel with
  | O => acc
  | S f => if c <? 10 then 48 + c :: acc else dig f (c / 10) (48 + c mod 10 :: acc)
  end.
Definition digits (c : Z) : pystr := dig (Z.to_nat (Z.log2 c) + 1) c [].
Definition ndigits (c : Z) : Z := zlen (digits c).
(** str(n) of an int *)
Definition str_of_int (n : Z) : pystr := (if n <? 0 then [45] else []) ++ digits (Z.abs n).

(** ** Reading *)

Definition is_digit (c : Z) : bool := (48 <=? c) && (c <=? 57).
Fixpoint span_digits (s : pystr) : pystr * pystr :=
  match s with
  | c :: r => if is_digit c then let '(d, t) := span_digits r in (c :: d, t) else ([], s)
  | [] => ([], [])
  end.
(** int(s) of ASCII digits *)
Definition num (ds : pystr) : Z := fold_left (fun a c => 10 * a + (c - 48)) ds 0.

(** str.strip(), for the white space below U+0100 *)
Definition is_space (c : Z) : bool :=
  (9 <=? c) && (c <=? 13) || (28 <=? c) && (c <=? 32) || (c =? 133) || (c =? 160).
Fixpoint lstrip (s : pystr) : pystr := match s with c :: r => if is_space c then lstrip r else s | [] => [] end.
Definition strip (s : pystr) : pystr := rev (lstrip (rev (lstrip s))).

Definition sign_of (s : pystr) : bool * pystr :=
  match s with c :: r => if c =? 45 then (true, r) else if c =? 43 then (false, r) else (false, s) | [] => (false, s) end.

(** Decimal(s) for a str; the digits of other scripts and exponents of more
    than 18 digits are not modelled. *)
Definition parse_dec (s : pystr) : result dec :=
  let '(neg, s) := sign_of (filter (fun c => negb (c =? 95)) (strip s)) in
  let '(i, r) := span_digits s in
  let '(f, r) := match r with c :: r' => if c =? 46 then span_digits r' else ([], r) | [] => ([], r) end in
  match i ++ f with
  | [] =>
      let s := lower s in
      if in_listb s [str "inf"; str "infinity"] then Ok (Inf neg)
      else if list_eqb (firstn 3 s) (str "nan") && forallb is_digit (skipn 3 s) then Ok (NaN false)
      else if list_eqb (firstn 4 s) (str "snan") && forallb is_digit (skipn 4 s) then Ok (NaN true)
      else Raise InvalidOperation
  | _ =>
      match r with
      | [] => Ok (Fin neg (num (i ++ f)) (- zlen f))
      | c :: r' =>
          let '(eneg, r') := sign_of r' in
          let '(x, rest) := span_digits r' in
          match x, rest with
          | _ :: _, [] => if (c =? 69) || (c =? 101) then Ok (Fin neg (num (i ++ f)) ((if eneg then - num x else num x) - zlen f))
                          else Raise InvalidOperation
          | _, _ => Raise InvalidOperation
          end
      end
  end.

(* repo: bit/utils.py:6-8 class Decimal: the argument is given by its str() *)
Definition Decimal (value : pystr) : result dec := parse_dec value.
(** The exact value of an int. *)
Definition dec_of_int (n : Z) : dec := Fin (n <? 0) (Z.abs n) 0.

(** ** Arithmetic in the current context: precision prec, Emax and Emin as
    below, rounding half to even, and the traps InvalidOperation,
    DivisionByZero and Overflow (the defaults). *)
Definition Emax : Z := 999999.
Definition Emin : Z := -999999.

Definition round_half_even (c k : Z) : Z :=
  let q := c / 10 ^ k in
  let r := 2 * (c mod 10 ^ k) in
  if r <? 10 ^ k then q else if r >? 10 ^ k then q + 1 else if Z.even q then q else q + 1.

(** Decimal._fix *)
Definition fix_dec (prec : Z) (neg : bool) (c e : Z) : result dec :=
  let Etiny := Emin - prec + 1 in
  let Etop := Emax - prec + 1 in
  if c =? 0 then Ok (Fin neg 0 (Z.min (Z.max e Etiny) Emax))
  else
    let exp_min := ndigits c + e - prec in
    if exp_min >? Etop then Raise DecimalOverflow
    else
      let exp_min := Z.max exp_min Etiny in
      if e <? exp_min then
        let c' := round_half_even c (exp_min - e) in
        let '(c', exp_min) := if ndigits c' >? prec then (c' / 10, exp_min + 1) else (c', exp_min) in
        if exp_min >? Etop then Raise DecimalOverflow else Ok (Fin neg c' exp_min)
      else Ok (Fin neg c e).

(** Decimal.__mul__ *)
Definition dec_mul (prec : Z) (a b : dec) : result dec :=
  match a, b with
  | NaN true, _ | _, NaN true => Raise InvalidOperation
  | NaN false, _ | _, NaN false => Ok (NaN false)
  | Inf s, Inf t => Ok (Inf (xorb s t))
  | Inf s, Fin t c _ | Fin t c _, Inf s => if c =? 0 then Raise InvalidOperation else Ok (Inf (xorb s t))
  | Fin s c e, Fin t d f => fix_dec prec (xorb s t) (c * d) (e + f)
  end.

(** while exp < ideal and coeff % 10 == 0: coeff //= 10; exp += 1 *)
Fixpoint strip_zeros (fuel : nat) (c e ideal : Z) : Z * Z :=
  match fuel with
  | O => (c, e)
  | S f => if (e <? ideal) && (c mod 10 =? 0) then strip_zeros f (c / 10) (e + 1) ideal else (c, e)
  end.

(** Decimal.__truediv__ *)
Definition dec_div (prec : Z) (a b : dec) : result dec :=
  match a, b with
  | NaN true, _ | _, NaN true => Raise InvalidOperation
  | NaN false, _ | _, NaN false => Ok (NaN false)
  | Inf _, Inf _ => Raise InvalidOperation
  | Inf s, Fin t _ _ => Ok (Inf (xorb s t))
  | Fin s _ _, Inf t => Ok (Fin (xorb s t) 0 (Emin - prec + 1))
  | Fin s c e, Fin t d f =>
      if d =? 0 then (if c =? 0 then Raise InvalidOperation else Raise DivisionByZero)
      else if c =? 0 then fix_dec prec (xorb s t) 0 (e - f)
      else
        let shift := ndigits d - ndigits c + prec + 1 in
        let exp := e - f - shift in
        let '(n, m) := if shift >=? 0 then (c * 10 ^ shift, d) else (c, d * 10 ^ (- shift)) in
        let coeff := n / m in
        let '(coeff, exp) :=
          if n mod m =? 0 then strip_zeros (Z.to_nat (e - f - exp)) coeff exp (e - f)
          else (if coeff mod 5 =? 0 then coeff + 1 else coeff, exp) in
        fix_dec prec (xorb s t) coeff exp
  end.

(** Decimal.quantize(Decimal('0.' + '0' * places), rounding=ROUND_DOWN) *)
Definition quantize_down (prec : Z) (d : dec) (places : Z) : result dec :=
  match d with
  | NaN true | Inf _ => Raise InvalidOperation
  | NaN false => Ok (NaN false)
  | Fin s c e =>
      if c =? 0 then fix_dec prec s 0 (- places)
      else
        let adjusted := e + ndigits c - 1 in
        if (adjusted >? Emax) || (adjusted + places + 1 >? prec) then Raise InvalidOperation
        else
          let c' := if e >=? - places then c * 10 ^ (e + places) else c / 10 ^ (- places - e) in
          if ndigits c' >? prec then Raise InvalidOperation else fix_dec prec s c' (- places)
  end.

(** Decimal.normalize *)
Definition normalize (prec : Z) (d : dec) : result dec :=
  match d with
  | NaN true => Raise InvalidOperation
  | NaN false => Ok (NaN false)
  | Inf s => Ok (Inf s)
  | Fin s c e =>
      x <- fix_dec prec s c e ;;
      match x with
      | Fin s c e => if c =? 0 then Ok (Fin s 0 0)
                     else let '(c, e) := strip_zeros (Z.to_nat (ndigits c)) c e Emax in Ok (Fin s c e)
      | _ => Ok x
      end
  end.

(** '{:f}'.format(d) *)
Definition format_f (d : dec) : pystr :=
  match d with
  | NaN false => str "NaN"
  | NaN true => str "sNaN"
  | Inf s => (if s then [45] else []) ++ str "Infinity"
  | Fin s c e =>
      let sign := if s then [45] else [] in
      if c =? 0 then sign ++ (if e <? 0 then [48; 46] ++ repeat 48 (Z.to_nat (- e)) else [48])
      else if e >=? 0 then sign ++ digits c ++ repeat 48 (Z.to_nat e)
      else
        let ds := digits c in
        let left := zlen ds + e in
        if left <=? 0 then sign ++ [48; 46] ++ repeat 48 (Z.to_nat (- left)) ++ ds
        else sign ++ firstn (Z.to_nat left) ds ++ [46] ++ skipn (Z.to_nat left) ds
  end.

(** int(d): towards zero *)
Definition dec_to_int (d : dec) : result Z :=
  match d with
  | NaN _ => Raise ValueError
  | Inf _ => Raise OverflowError
  | Fin s c e =>
      let n := if e >=? 0 then c * 10 ^ e else c / 10 ^ (- e) in
      Ok (if s then - n else n)
  end.
