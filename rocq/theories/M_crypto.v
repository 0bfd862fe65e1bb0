(** External cryptography as a record of functions: hashlib and coincurve.

    Nothing is assumed here; the laws a theorem needs are hypotheses of that
    theorem. *)
From Verif Require Export M_utils.

Class Crypto := {
  (* repo: bit/crypto.py:6-7, hashlib.sha256 *)
  sha256 : bytes -> bytes;
  (* hashlib.new('ripemd160') as used in bit/crypto.py:18-19 *)
  ripemd160 : bytes -> bytes;
  (* coincurve.PrivateKey(secret): the validated, padded secret, or ValueError *)
  ec_secret : bytes -> result bytes;
  (* coincurve PrivateKey.public_key.format(compressed=b) *)
  ec_pubkey : bytes -> bool -> bytes;
  (* coincurve PrivateKey.sign(data): DER signature of sha256(data) *)
  ec_sign : bytes -> bytes -> bytes;
  (* coincurve.verify_signature(signature, data, public_key); ValueError if the
     signature or the key cannot be parsed *)
  ec_verify : bytes -> bytes -> bytes -> result bool;
  (* whether coincurve.ecdsa.der_to_cdata accepts the bytes *)
  der_ok : bytes -> bool
}.

Section WithCrypto.
Context {CR : Crypto}.

(* repo: bit/crypto.py:10-11 *)
Definition double_sha256 (b : bytes) : bytes := sha256 (sha256 b).
(* repo: bit/crypto.py:14-15 *)
Definition double_sha256_checksum (b : bytes) : bytes := firstn 4 (double_sha256 b).
(* repo: bit/crypto.py:18-19, 22 *)
Definition ripemd160_sha256 (b : bytes) : bytes := ripemd160 (sha256 b).

(* repo: bit/utils.py:97-121 get_signatures_from_script.  Every round of the loop
   reads at least one byte, so [length script] rounds are enough; running out of
   fuel cannot happen (lemma get_sigs_fuel). *)
Fixpoint get_sigs_loop (fuel : nat) (script : bytes) : result (list bytes) :=
  match fuel with
  | O => Ok []
  | S k =>
    match script with
    | [] => Ok []
    | _ =>
      '(val, s) <- read_var_int script ;;
      let '(sig, s') := read_bytes s val in
      rest <- get_sigs_loop k s' ;;
      Ok (if der_ok (drop_last 1 sig) then sig :: rest else rest)
    end
  end.
Definition get_signatures_from_script (script : bytes) : result (list bytes) :=
  get_sigs_loop (length script) (tl script).

End WithCrypto.
