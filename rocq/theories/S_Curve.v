(** Specification: points of secp256k1 in affine coordinates and the SEC1
    encodings of public keys. *)
From Verif Require Import Py.

Definition secp_p : Z := 2 ^ 256 - 2 ^ 32 - 977.

Definition OnCurve (x y : Z) : Prop :=
  0 <= x < secp_p /\ 0 <= y < secp_p /\ (y * y) mod secp_p = (x * x * x + 7) mod secp_p.

(** Big-endian value of 32 bytes. *)
Definition be_value (b : bytes) : Z := fold_left (fun a d => 256 * a + d) b 0.

Definition SEC1_compressed (x y : Z) (key : bytes) : Prop :=
  exists xb, length xb = 32%nat /\ Forall (fun b => 0 <= b < 256) xb /\ be_value xb = x /\
  key = (if Z.even y then 2 else 3) :: xb.

Definition SEC1_uncompressed (x y : Z) (key : bytes) : Prop :=
  exists xb yb, length xb = 32%nat /\ length yb = 32%nat /\
  Forall (fun b => 0 <= b < 256) xb /\ Forall (fun b => 0 <= b < 256) yb /\
  be_value xb = x /\ be_value yb = y /\ key = 4 :: xb ++ yb.
