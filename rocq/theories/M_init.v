(** Model of how key objects come to be (constructors, DER and PEM) and how they
    are shown. *)
From Coq Require Import String.
From Verif Require Export M_key.

Section WithCrypto.
Context {CR : Crypto}.

(** What a program may pass as [wif]: nothing (None), a string, a coincurve
    private key (given by its secret), or any other object, of which only the
    truth value matters. *)
Inductive keyinput := NoWif | Wif (s : pystr) | ECKey (secret : bytes) | Other (truth : bool).
(** bool() of the argument: a string is true unless empty; a coincurve key has
    neither __bool__ nor __len__. *)
Definition truth (a : keyinput) : bool :=
  match a with NoWif => false | Wif [] => false | Wif (_ :: _) => true | ECKey _ => true | Other b => b end.

(* repo: bit/wallet.py:58-73 BaseKey.__init__ and 156-160, 553-557: [random] is the
   secret that ECPrivateKey() makes; it is used only when no key is given *)
Definition new_key (cls : net) (random : bytes) (wif : keyinput) : result PrivateKey :=
  if truth wif then
    match wif with
    | Wif s =>
      ' p <- wif_to_bytes s ;;
      let '(private_key_bytes, compressed, version) := p in
      pk <- ec_secret private_key_bytes ;;
      Ok (make_key cls pk compressed)
    | ECKey pk => Ok (make_key cls pk true)
    | _ => Raise TypeError
    end
  else Ok (make_key cls random true).

(** DER and PEM are coincurve's: a record of functions, about which nothing is
    assumed here. *)
Record Coder := mkCoder {
  to_der : bytes -> bytes; from_der : bytes -> result bytes;
  to_pem : bytes -> bytes; from_pem : bytes -> result bytes
}.
Context (C : Coder).
(* repo: bit/wallet.py:121-127 to_der, to_pem *)
Definition key_to_der (k : PrivateKey) : bytes := to_der C (k_secret k).
Definition key_to_pem (k : PrivateKey) : bytes := to_pem C (k_secret k).
(* repo: bit/wallet.py:510-526, 909-925 from_der, from_pem *)
Definition key_from_der (cls : net) (random der : bytes) : result PrivateKey :=
  pk <- from_der C der ;; new_key cls random (ECKey pk).
Definition key_from_pem (cls : net) (random pem : bytes) : result PrivateKey :=
  pk <- from_pem C pem ;; new_key cls random (ECKey pk).

(* repo: bit/wallet.py:537-538, 936-937 __repr__, called in the same way by str()
   and print *)
Definition key_repr (k : PrivateKey) : result pystr :=
  a <- key_address k ;;
  Ok (match k_version k with Main => str "<PrivateKey: " | Test => str "<PrivateKeyTestnet: " end ++ a ++ str ">").
(* repo: bit/wallet.py:1262-1263, 1590-1591 __repr__ *)
Definition ms_repr (ms : MultiSig) : result pystr :=
  a <- ms_address ms ;;
  Ok (match ms_version ms with Main => str "<MultiSig: " | Test => str "<MultiSigTestnet: " end ++ a ++ str ">").
End WithCrypto.
