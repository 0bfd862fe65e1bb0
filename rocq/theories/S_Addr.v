(** Specification: hash laws, Base58Check strings, standard output scripts. *)
From Verif Require Import Py M_crypto S_Base58 S_Script.

(** What theorems assume about hashlib: output lengths and byte outputs. *)
Record HashOk (CR : Crypto) : Prop := {
  sha256_len : forall x, length (sha256 x) = 32%nat;
  sha256_byte : forall x, Forall (fun b => 0 <= b < 256) (sha256 x);
  ripemd160_len : forall x, length (ripemd160 x) = 20%nat;
  ripemd160_byte : forall x, Forall (fun b => 0 <= b < 256) (ripemd160 x)
}.

(** HASH160 of Bitcoin. *)
Definition hash160 {CR : Crypto} (b : bytes) : bytes := ripemd160 (sha256 b).

(** [s] is the Base58 form of [payload] followed by the first four bytes of its
    double SHA-256. *)
Definition Base58CheckStr {CR : Crypto} (payload : bytes) (s : pystr) : Prop :=
  Base58 (payload ++ firstn 4 (sha256 (sha256 payload))) s.

(** Standard output scripts, by their parsed form. *)
Definition IsP2PKH (h : bytes) (script : bytes) : Prop :=
  length h = 20%nat /\
  ParsesTo script [Op OP_DUP_code; Op OP_HASH160_code; Push h; Op OP_EQUALVERIFY_code; Op OP_CHECKSIG_code].
Definition IsP2SH (h : bytes) (script : bytes) : Prop :=
  length h = 20%nat /\
  ParsesTo script [Op OP_HASH160_code; Push h; Op OP_EQUAL_code].
(** BIP141: a version opcode (OP_0 or OP_1..OP_16) and one push of 2 to 40 bytes. *)
Definition IsWitness (ver : Z) (prog : bytes) (script : bytes) : Prop :=
  0 <= ver <= 16 /\ (2 <= length prog <= 40)%nat /\
  ParsesTo script [(if ver =? 0 then Push [] else Op (OP_1 + ver - 1)); Push prog].

(** The m-of-n policy script. *)
Definition IsMultisig (m : Z) (keys : list bytes) (script : bytes) : Prop :=
  1 <= m <= Z.of_nat (length keys) /\ Z.of_nat (length keys) <= 16 /\
  ParsesTo script ([Op (OP_1 + m - 1)] ++ map Push keys ++
                   [Op (OP_1 + Z.of_nat (length keys) - 1); Op OP_CHECKMULTISIG_code]).
