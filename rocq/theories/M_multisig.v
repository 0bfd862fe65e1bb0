(** Model of the constructors of MultiSig and MultiSigTestnet for any argument. *)
From Verif Require Export M_key.

(** What is given as public_keys: a list, a set (by its elements in iteration
    order), something else of which [in] can be asked, with the answer whether
    the key's public key is in it as hex or as bytes (tuples, dictionaries, a str
    that has the key in hex), or something of which one of the two cannot be asked
    (numbers, bytes, a str that does not have the key) *)
Inductive keys_arg := AList (l : list keyarg) | ASet (l : list keyarg) | Another (contains : bool) | NoContainer.

Section WithCrypto.
Context {CR : Crypto}.
(* repo: bit/wallet.py:963-992, 1286-1315 __init__; private_key is a PrivateKey or
   PrivateKeyTestnet, whose attribute instance differs *)
Definition new_multisig (cls : net) (private_key : PrivateKey) (public_keys : keys_arg) (m : Z) : result MultiSig :=
  if negb (net_eqb (k_version private_key) cls) then Raise TypeError
  else match public_keys with
       | AList l => make_multisig cls private_key false l m
       | ASet l => make_multisig cls private_key true l m
       | Another contains => if contains then Raise TypeError else Raise ValueError
       | NoContainer => Raise TypeError
       end.
End WithCrypto.
