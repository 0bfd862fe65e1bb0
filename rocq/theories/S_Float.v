(** Specification: what reading a decimal number as a float does (C107).  Doubles as
    in IEEE 754; float() of a text is the nearest one, an even one of two that are
    equally near; repr() is a decimal number with as few digits as any that reads as
    the same double, without zeros at the end, but for the one of 1.0; Decimal() of a float is its exact value. *)
From Coq Require Import String QArith Qabs Qpower.
From Verif Require Import Py M_decimal S_Decimal S_Cli.
Open Scope Z_scope.

(** The doubles that are not negative: m * 2^q, and normally m has 53 bits. *)
Definition Significand (m q : Z) : Prop :=
  -1074 <= q <= 971 /\ (2 ^ 52 <= m < 2 ^ 53 \/ q = -1074 /\ 0 <= m < 2 ^ 52).
Definition binary (m q : Z) : Q := (inject_Z m * Qpower 2 q)%Q.
Definition decimal (c e : Z) : Q := (inject_Z c * Qpower 10 e)%Q.
Definition IsDouble (x : Q) : Prop := exists m q, Significand m q /\ (x == binary m q)%Q.

(** The number v is read as m * 2^q. *)
Definition Rounds (v : Q) (m q : Z) : Prop :=
  Significand m q /\
  forall y, IsDouble y -> ~ (y == binary m q)%Q ->
    (Qabs (v - binary m q) < Qabs (v - y))%Q \/ (Qabs (v - binary m q) == Qabs (v - y))%Q /\ Z.Even m.

(** The number v can be written with D digits, and a power of ten. *)
Definition Written (D : Z) (v : Q) : Prop := exists c e, 0 <= c < 10 ^ D /\ (v == decimal c e)%Q.

(** float() of a text for v, below 10^16, as repr() shows it and as Decimal() takes it *)
Definition FloatOf (v : Q) (repr : pystr) (exact : dec) : Prop :=
  exists m q, Rounds v m q /\
  (exists d k, Scientific d k repr /\ zlen repr < 30 /\ k < 400 /\ (d mod 10 <> 0 \/ k <= 1) /\ Rounds (decimal d (- k)) m q /\
     forall D r, 0 <= D -> Written D r -> Rounds r m q -> Written D (decimal d (- k))) /\
  (exists c k, exact = Fin false c (- k) /\ 0 <= k <= 1074 /\ (decimal c (- k) == binary m q)%Q).

(** An amount in satoshis as bitcoins *)
Definition bitcoins (n : Z) : Q := decimal n (-8).
(** How a node writes it: with eight places *)
Definition NodeAmount (n : Z) (t : pystr) : Prop :=
  exists i f, WritesInt (n / 10 ^ 8) i /\ Digits (n mod 10 ^ 8) f /\ zlen f = 8 /\ t = i ++ 46 :: f.
