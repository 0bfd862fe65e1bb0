(** Model of what is left of the key and transaction classes: signing messages,
    the public point, equality of transaction objects. *)
From Verif Require Export M_key M_tx.

Section WithCrypto.
Context {CR : Crypto}.

(* repo: bit/wallet.py:87-96 BaseKey.sign *)
Definition key_sign (k : PrivateKey) (data : bytes) : bytes := ec_sign (k_secret k) data.
(* repo: bit/wallet.py:98-107 BaseKey.verify; the public key object of coincurve is
   identified with its serialized form public_key *)
Definition key_verify (k : PrivateKey) (signature data : bytes) : result bool := ec_verify signature data (k_public_key k).
(* repo: bit/format.py:25-36 verify_sig *)
Definition verify_sig (signature data public_key : bytes) : result bool := ec_verify signature data public_key.
(* repo: bit/wallet.py:109-111 pub_to_hex *)
Definition key_pub_to_hex (k : PrivateKey) : pystr := bytes_to_hex (k_public_key k).
(* repo: bit/wallet.py:80-85 public_point; that the point is kept after the first
   call is not visible, as public_key does not change *)
Definition key_public_point (k : PrivateKey) : result (Z * Z) := public_key_to_coords (k_public_key k).
(* repo: bit/format.py:213-214 point_to_public_key *)
Definition point_to_public_key (point : Z * Z) (compressed : bool) : result bytes :=
  coords_to_public_key (fst point) (snd point) compressed.
End WithCrypto.

(* repo: bit/transaction.py:67-77 TxIn.__eq__ *)
Definition in_eqb (a b : TxIn) : bool :=
  list_eqb (script_sig a) (script_sig b) && list_eqb (script_sig_len a) (script_sig_len b)
  && list_eqb (txid a) (txid b) && list_eqb (txindex a) (txindex b) && list_eqb (witness a) (witness b)
  && (match amount a, amount b with Some x, Some y => list_eqb x y | None, None => true | _, _ => false end)
  && list_eqb (sequence a) (sequence b) && Bool.eqb (segwit_input a) (segwit_input b).
(* repo: bit/transaction.py:112-117 TxOut.__eq__ *)
Definition out_eqb (a b : TxOut) : bool :=
  list_eqb (out_amount a) (out_amount b) && list_eqb (script_pubkey a) (script_pubkey b)
  && list_eqb (script_pubkey_len a) (script_pubkey_len b).
(** Python compares lists by length and element by element. *)
Fixpoint all_eqb {A} (eqb : A -> A -> bool) (l m : list A) : bool :=
  match l, m with
  | [], [] => true
  | a :: l', b :: m' => eqb a b && all_eqb eqb l' m'
  | _, _ => false
  end.
(* repo: bit/transaction.py:139-145 TxObj.__eq__ *)
Definition tx_eqb (a b : TxObj) : bool :=
  list_eqb (version a) (version b) && all_eqb in_eqb (TxIns a) (TxIns b)
  && all_eqb out_eqb (TxOuts a) (TxOuts b) && list_eqb (locktime a) (locktime b).
