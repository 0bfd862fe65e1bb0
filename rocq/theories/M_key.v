(** Model of the key classes of bit/wallet.py (what signing needs). *)
From Verif Require Export M_tx M_unspent.

Section WithCrypto.
Context {CR : Crypto}.

(* repo: bit/wallet.py:45-78, 145-169, 541-566: PrivateKey and PrivateKeyTestnet,
   which differ in version and instance only; the class is identified with its
   version.  public_key is stored when the object is made. *)
Record PrivateKey := mkKey { k_version : net; k_secret : bytes; k_public_key : bytes }.

Definition make_key (version : net) (secret : bytes) (compressed : bool) : PrivateKey :=
  mkKey version secret (ec_pubkey secret compressed).

(* repo: bit/wallet.py:58-73 BaseKey.__init__ for a non-empty WIF string; the
   version found in the string is disregarded *)
Definition key_from_wif (cls : net) (wif : pystr) : result PrivateKey :=
  ' p <- wif_to_bytes wif ;;
  let '(private_key_bytes, compressed, _) := p in
  secret <- ec_secret private_key_bytes ;;
  Ok (make_key cls secret compressed).

(* repo: bit/wallet.py:501-508, 900-907 from_bytes *)
Definition key_from_bytes (cls : net) (bytestr : bytes) : result PrivateKey :=
  secret <- ec_secret bytestr ;; Ok (make_key cls secret true).

(* repo: bit/wallet.py:492-499, 891-898 from_hex: coincurve decodes the string
   and goes on as with bytes *)
Definition key_from_hex (cls : net) (hexed : pystr) : result PrivateKey :=
  b <- hex_to_bytes hexed ;; key_from_bytes cls b.

(* repo: bit/wallet.py:528-535, 927-934 from_int: coincurve takes the shortest
   big-endian form and goes on as with bytes *)
Definition key_from_int (cls : net) (num : Z) : result PrivateKey :=
  b <- int_to_unknown_bytes num ;; key_from_bytes cls b.

(* repo: bit/wallet.py:113-119, 129-131 to_hex, to_bytes, to_int.  (to_der, to_pem,
   from_der, from_pem and the other ways to make a key are in M_init.) *)
Definition key_to_hex (k : PrivateKey) : pystr := bytes_to_hex (k_secret k).
Definition key_to_bytes (k : PrivateKey) : bytes := k_secret k.
Definition key_to_int (k : PrivateKey) : Z := from_be (k_secret k).

(* repo: bit/wallet.py:141-142 __eq__ *)
Definition key_eqb (a b : PrivateKey) : bool := key_to_int a =? key_to_int b.

(* repo: bit/wallet.py:30-42 wif_to_key *)
Definition wif_to_key (wif : pystr) : result PrivateKey :=
  ' p <- wif_to_bytes wif ;;
  let '(private_key_bytes, compressed, version) := p in
  match version with
  | Main => if compressed then key_from_bytes Main private_key_bytes else key_from_wif Main wif
  | Test => if compressed then key_from_bytes Test private_key_bytes else key_from_wif Test wif
  end.

(* repo: bit/wallet.py:133-139 is_compressed *)
Definition key_is_compressed (k : PrivateKey) : bool := zlen (k_public_key k) =? 33.

(* repo: bit/wallet.py:205-206, 602-603 to_wif *)
Definition key_to_wif (k : PrivateKey) : pystr := bytes_to_wif (k_secret k) (k_version k) (key_is_compressed k).

(* repo: bit/wallet.py:171-176, 568-573 address *)
Definition key_address (k : PrivateKey) : result pystr := public_key_to_address (k_public_key k) (k_version k).

(* repo: bit/wallet.py:178-185, 575-582 segwit_address; None if not compressed *)
Definition key_segwit_address (k : PrivateKey) : result (option pystr) :=
  if key_is_compressed k then rmap Some (public_key_to_segwit_address (k_public_key k) (k_version k)) else Ok None.

(** [len] and [+] on the value None that address_to_scriptpubkey may return raise TypeError. *)
Definition some_script (r : result (option bytes)) : result bytes :=
  o <- r ;; match o with Some b => Ok b | None => Raise TypeError end.

(** bytes_to_hex(None) raises AttributeError. *)
Definition script_hex (address : pystr) : result pystr :=
  o <- address_to_scriptpubkey address ;;
  match o with Some b => Ok (bytes_to_hex b) | None => Raise AttributeError end.

(* repo: bit/wallet.py:187-190, 584-587 scriptcode *)
Definition key_scriptcode (k : PrivateKey) : result bytes :=
  a <- key_address k ;; some_script (address_to_scriptpubkey a).

(* repo: bit/wallet.py:192-195, 589-592 segwit_scriptcode *)
Definition key_segwit_scriptcode (k : PrivateKey) : bytes := OP_0 ++ OP_PUSH_20 ++ ripemd160_sha256 (k_public_key k).

(* repo: bit/wallet.py:197-203, 594-600 and 1020-1026, 1343-1349 can_sign_unspent *)
Definition can_sign (address : result pystr) (segwit_address : result (option pystr)) (u : Unspent) : result bool :=
  a <- address ;;
  script <- script_hex a ;;
  s <- segwit_address ;;
  match s with
  | Some sa => segwit_script <- script_hex sa ;;
               Ok (list_eqb (u_script u) script || list_eqb (u_script u) segwit_script)
  | None => Ok (list_eqb (u_script u) script)
  end.

(** ** MultiSig *)

(** A public key given as bytes or as a hex string. *)
Inductive keyarg := KB (b : bytes) | KS (s : pystr).

Fixpoint lex_leb (a b : list Z) : bool :=
  match a, b with
  | [], _ => true
  | _ :: _, [] => false
  | x :: a', y :: b' => if x <? y then true else if x =? y then lex_leb a' b' else false
  end.
(** Python compares bytes with bytes and str with str, and raises TypeError otherwise. *)
Definition keyarg_leb (a b : keyarg) : option bool :=
  match a, b with
  | KB x, KB y => Some (lex_leb x y)
  | KS x, KS y => Some (lex_leb x y)
  | _, _ => None
  end.
Fixpoint insert_key (k : keyarg) (l : list keyarg) : result (list keyarg) :=
  match l with
  | [] => Ok [k]
  | x :: r => match keyarg_leb k x with
              | None => Raise TypeError
              | Some true => Ok (k :: l)
              | Some false => r' <- insert_key k r ;; Ok (x :: r')
              end
  end.
(** sorted(); insertion sort as the order is total on one type *)
Fixpoint sort_keys (l : list keyarg) : result (list keyarg) :=
  match l with
  | [] => Ok []
  | k :: r => s <- sort_keys r ;; insert_key k s
  end.

Definition keyarg_is (pub : bytes) (k : keyarg) : bool :=
  match k with KB b => list_eqb b pub | KS s => list_eqb s (bytes_to_hex pub) end.
Definition keyarg_bytes (k : keyarg) : result bytes :=
  match k with KB b => Ok b | KS s => hex_to_bytes s end.

(* repo: bit/wallet.py:943-992, 1266-1315: MultiSig and MultiSigTestnet *)
Record MultiSig := mkMulti {
  ms_key : PrivateKey; ms_version : net; ms_public_keys : list bytes; ms_m : Z; ms_redeemscript : bytes
}.
(* repo: bit/wallet.py:963-983, 1286-1306 __init__.  [is_set] tells a set (given by
   its elements in iteration order) from a list; M_multisig.v has other types. *)
Definition make_multisig (cls : net) (private_key : PrivateKey) (is_set : bool) (public_keys : list keyarg) (m : Z)
    : result MultiSig :=
  if negb (net_eqb (k_version private_key) cls) then Raise TypeError
  else if negb (existsb (keyarg_is (k_public_key private_key)) public_keys) then Raise ValueError
  else
    ks <- (if is_set then sort_keys public_keys else Ok public_keys) ;;
    pubs <- mapM keyarg_bytes ks ;;
    rs <- multisig_to_redeemscript pubs m ;;
    Ok (mkMulti private_key cls pubs m rs).

(* repo: bit/wallet.py:983, 1306 is_compressed *)
Definition ms_is_compressed (ms : MultiSig) : bool := forallb (fun p => zlen p =? 33) (ms_public_keys ms).
(* repo: bit/wallet.py:994-999, 1317-1322 address *)
Definition ms_address (ms : MultiSig) : result pystr := multisig_to_address (ms_public_keys ms) (ms_m ms) (ms_version ms).
(* repo: bit/wallet.py:1001-1008, 1324-1331 segwit_address *)
Definition ms_segwit_address (ms : MultiSig) : result (option pystr) :=
  if ms_is_compressed ms then rmap Some (multisig_to_segwit_address (ms_public_keys ms) (ms_m ms) (ms_version ms)) else Ok None.
(* repo: bit/wallet.py:1015-1018, 1338-1341 segwit_scriptcode *)
Definition ms_segwit_scriptcode (ms : MultiSig) : bytes := OP_0 ++ OP_PUSH_32 ++ sha256 (ms_redeemscript ms).

(** ** The private_key argument of sign_tx: either kind *)
Inductive signer := Single (k : PrivateKey) | Multi (ms : MultiSig).

Definition sg_key (s : signer) : PrivateKey := match s with Single k => k | Multi ms => ms_key ms end.
Definition sg_public_key (s : signer) : bytes := k_public_key (sg_key s).
(* repo: bit/wallet.py:187-190, 584-587, 1010-1013, 1333-1336 scriptcode *)
Definition sg_scriptcode (s : signer) : result bytes :=
  match s with Single k => key_scriptcode k | Multi ms => Ok (ms_redeemscript ms) end.
Definition sg_can_sign (s : signer) (u : Unspent) : result bool :=
  match s with
  | Single k => can_sign (key_address k) (key_segwit_address k) u
  | Multi ms => can_sign (ms_address ms) (ms_segwit_address ms) u
  end.
(* repo: bit/wallet.py:87-96, 1028-1037, 1351-1360 sign *)
Definition sg_sign (s : signer) (data : bytes) : bytes := ec_sign (k_secret (sg_key s)) data.

End WithCrypto.
