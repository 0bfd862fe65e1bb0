(** Specification: BIP173 (Bech32 and segwit addresses), independent of the model. *)
From Coq Require Import String.
From Verif Require Import Py.

(** ** The field GF(32): 5-bit numbers, addition is exclusive or, multiplication
    is polynomial multiplication modulo a^5 + a^3 + 1 (binary 101001 = 41). *)
Definition gf (x : Z) : Prop := 0 <= x < 32.

Definition gf_double (x : Z) : Z := if 16 <=? x then Z.lxor (2 * x) 41 else 2 * x.

(** [b] by Horner's rule on its bits b4 b3 b2 b1 b0. *)
Definition gf_mul (a b : Z) : Z :=
  fold_left (fun r i => Z.lxor (gf_double r) (if Z.testbit b i then a else 0)) [4; 3; 2; 1; 0] 0.

(** ** Polynomials over GF(32): coefficients, highest degree first *)
Definition coef (p : list Z) (n : nat) : Z := nth n (rev p) 0.

(** The generator polynomial of BIP173:
    x^6 + {29}x^5 + {22}x^4 + {20}x^3 + {21}x^2 + {29}x + {18}. *)
Definition gen_poly : list Z := [1; 29; 22; 20; 21; 29; 18].

(** Coefficient of x^n in the product with the generator. *)
Definition coef_mul_gen (q : list Z) (n : nat) : Z :=
  fold_left Z.lxor
    (map (fun j => if (j <=? n)%nat then gf_mul (coef q (n - j)) (coef gen_poly j) else 0) (seq 0 7)) 0.

(** [p] is congruent to [r] modulo the generator. *)
Definition CongruentModGen (p r : list Z) : Prop :=
  exists q, Forall gf q /\ forall n, coef p n = Z.lxor (coef_mul_gen q n) (coef r n).

(** BIP173: the human readable part is expanded to high bits, zero, low bits. *)
Definition expand_hrp (hrp : pystr) : list Z :=
  map (fun c => c / 32) hrp ++ [0] ++ map (fun c => c mod 32) hrp.

(** BIP173 checksum condition: with a leading 1 put in front, the values leave
    remainder 1. *)
Definition ChecksumOk (hrp : pystr) (data : list Z) : Prop :=
  CongruentModGen (1 :: expand_hrp hrp ++ data) [1].

(** ** Bits *)
(** The [n] lowest bits of [x], most significant first. *)
Fixpoint bits_of (n : nat) (x : Z) : list bool :=
  match n with
  | O => []
  | S k => Z.testbit x (Z.of_nat k) :: bits_of k x
  end.
Definition bitstring (n : nat) (l : list Z) : list bool := flat_map (bits_of n) l.

(** [fives] regroups the bits of [eights], padded with fewer than 5 zero bits. *)
Definition Regroup (eights fives : list Z) : Prop :=
  exists k, (k < 5)%nat /\ bitstring 5 fives = bitstring 8 eights ++ repeat false k.

(** ** Strings *)
(** The 32 characters of BIP173 by value. *)
Definition bech_char (d : Z) : Z := nth (Z.to_nat d) (str "qpzry9x8gf2tvdw0s3jn54khce6mua7l") 0.

(** Witness programs allowed by BIP141/BIP173. *)
Definition ValidWitness (ver : Z) (prog : list Z) : Prop :=
  0 <= ver <= 16 /\ Forall (fun b => 0 <= b < 256) prog /\
  (2 <= length prog <= 40)%nat /\
  (ver = 0 -> length prog = 20%nat \/ length prog = 32%nat).

(** The (lower case) segwit address of a witness program. *)
Definition SegwitAddress (hrp : pystr) (ver : Z) (prog : list Z) (s : pystr) : Prop :=
  exists fives chk,
    Forall gf fives /\ Forall gf chk /\ length chk = 6%nat /\
    Regroup prog fives /\
    ChecksumOk hrp ((ver :: fives) ++ chk) /\
    s = hrp ++ [49 (* 1 *)] ++ map bech_char ((ver :: fives) ++ chk).

(** Number of positions where two strings of the same length differ. *)
Definition hamming (a b : list Z) : nat :=
  length (filter (fun p => negb (fst p =? snd p)) (combine a b)).

(** [s] is a Bech32 string (BIP173): printable ASCII, one case, at most 90
    characters, non-empty prefix, separator 1, data symbols and six checksum symbols. *)
Definition BechString (s hrp : pystr) (data : list Z) : Prop :=
  exists chk,
    Forall (fun x => 33 <= x <= 126) s /\ (lower s = s \/ upper s = s) /\ (length s <= 90)%nat /\ hrp <> [] /\
    Forall gf data /\ Forall gf chk /\ length chk = 6%nat /\
    lower s = hrp ++ [49] ++ map bech_char (data ++ chk) /\
    ChecksumOk hrp (data ++ chk).
