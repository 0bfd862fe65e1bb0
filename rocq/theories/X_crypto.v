(** Concrete Crypto records: real hashes, caller-supplied elliptic curve part. *)
From Coq Require Import String.
From Verif Require Export X_hash M_crypto S_Addr.

Definition with_hashes (sec : bytes -> result bytes) (pub : bytes -> bool -> bytes)
    (sgn : bytes -> bytes -> bytes) (ver : bytes -> bytes -> bytes -> result bool) (der : bytes -> bool) : Crypto :=
  {| sha256 := SHA256; ripemd160 := RIPEMD160; ec_secret := sec; ec_pubkey := pub; ec_sign := sgn;
     ec_verify := ver; der_ok := der |}.

Lemma with_hashes_ok sec pub sgn ver der : HashOk (with_hashes sec pub sgn ver der).
Proof.
  split; intros x.
  - exact (SHA256_length x).
  - apply bytes_ok_Forall. exact (SHA256_ok x).
  - exact (RIPEMD160_length x).
  - apply bytes_ok_Forall. exact (RIPEMD160_ok x).
Qed.

(** For examples that use hashes only. *)
Definition hash_only : Crypto :=
  with_hashes (fun b => Ok b) (fun b _ => b) (fun _ m => m) (fun _ _ _ => Ok true) (fun _ => true).
Definition hash_only_ok : HashOk hash_only := with_hashes_ok _ _ _ _ _.

(** Bytes from a hexadecimal literal (test data). *)
Definition hex (s : string) : bytes := match hex_to_bytes (str s) with Ok b => b | Raise _ => [] end.
