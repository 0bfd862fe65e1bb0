(** Model of bit/format.py and of the address functions of bit/transaction.py. *)
From Coq Require Import String.
From Verif Require Export M_base58 M_base32 M_curve.

(** The version argument / result main or test.  Simplification: the code
    compares strings and treats every string other than test as main. *)
Inductive net := Main | Test.
Definition net_eqb (a b : net) : bool :=
  match a, b with Main, Main | Test, Test => true | _, _ => false end.

(* repo: bit/constants.py:36-39 *)
Definition MAIN_PUBKEY_HASH : bytes := [0x00].
Definition MAIN_SCRIPT_HASH : bytes := [0x05].
Definition TEST_PUBKEY_HASH : bytes := [0x6f].
Definition TEST_SCRIPT_HASH : bytes := [0xc4].
(* repo: bit/constants.py:42-51 *)
Definition MAIN_PRIVATE_KEY : bytes := [0x80].
Definition TEST_PRIVATE_KEY : bytes := [0xef].
Definition PUBLIC_KEY_UNCOMPRESSED : bytes := [0x04].
Definition PUBLIC_KEY_COMPRESSED_EVEN_Y : bytes := [0x02].
Definition PUBLIC_KEY_COMPRESSED_ODD_Y : bytes := [0x03].
Definition PRIVATE_KEY_COMPRESSED_PUBKEY : bytes := [0x01].
(* repo: bit/constants.py:11-21 *)
Definition OP_0 : bytes := [0x00].
Definition OP_CHECKSIG : bytes := [0xac].
Definition OP_CHECKMULTISIG : bytes := [0xae].
Definition OP_DUP : bytes := [0x76].
Definition OP_EQUALVERIFY : bytes := [0x88].
Definition OP_HASH160 : bytes := [0xa9].
Definition OP_PUSH_20 : bytes := [0x14].
Definition OP_PUSH_32 : bytes := [0x20].
Definition OP_RETURN : bytes := [0x6a].
Definition OP_EQUAL : bytes := [0x87].

(* repo: bit/format.py:184-186 segwit_scriptpubkey; the argument None stands for
   the pair (None, None), where len(None) raises TypeError; bytes([..]) raises
   ValueError for an element outside 0..255. *)
Definition segwit_scriptpubkey (w : option (Z * list Z)) : result bytes :=
  match w with
  | None => Raise TypeError
  | Some (witver, witprog) =>
    let l := [(if witver =? 0 then 0 else witver + 0x50); zlen witprog] ++ witprog in
    if bytes_ok l then Ok l else Raise ValueError
  end.

(* repo: bit/format.py:189-201 *)
Definition public_key_to_coords (public_key : bytes) : result (Z * Z) :=
  let length := zlen public_key in
  if length =? 33 then
    let flag := from_be (firstn 1 public_key) in
    let x := from_be (skipn 1 public_key) in
    Ok (x, x_to_y x (Z.land flag 1))
  else if length =? 65 then
    Ok (from_be (firstn 32 (skipn 1 public_key)), from_be (skipn 33 public_key))
  else Raise ValueError.

(* repo: bit/format.py:204-210 *)
Definition coords_to_public_key (x y : Z) (compressed : bool) : result bytes :=
  if compressed then
    let pre := if Z.land y 1 =? 0 then PUBLIC_KEY_COMPRESSED_EVEN_Y else PUBLIC_KEY_COMPRESSED_ODD_Y in
    xb <- to_bytes_be x 32 ;; Ok (pre ++ xb)
  else
    xb <- to_bytes_be x 32 ;; yb <- to_bytes_be y 32 ;;
    Ok (PUBLIC_KEY_UNCOMPRESSED ++ xb ++ yb).

(* repo: bit/format.py:147-155: the loop over the keys *)
Fixpoint redeem_keys (public_keys : list bytes) (redeemscript : bytes) : result bytes :=
  match public_keys with
  | [] => Ok redeemscript
  | key :: r =>
    let length := zlen key in
    if negb ((length =? 33) || (length =? 65)) then Raise ValueError
    else push <- script_push length ;; redeem_keys r (redeemscript ++ (push ++ key))
  end.

(* repo: bit/format.py:141-163 *)
Definition multisig_to_redeemscript (public_keys : list bytes) (m : Z) : result bytes :=
  if zlen public_keys <? m then Raise ValueError
  else
    s0 <- int_to_unknown_bytes (m + 80) ;;
    s1 <- redeem_keys public_keys s0 ;;
    nb <- int_to_unknown_bytes (zlen public_keys + 80) ;;
    let redeemscript := s1 ++ (nb ++ [0xae]) in
    if 520 <? zlen redeemscript then Raise ValueError else Ok redeemscript.

Section WithCrypto.
Context {CR : Crypto}.

(* repo: bit/format.py:45-54.  The version is the hrp (a str) if Bech32 decoding
   succeeds, otherwise the first byte (bytes) of the Base58Check payload. *)
Definition get_version (address : pystr) : result net :=
  match bech32_decode address with
  | Some (hrp, _) =>
    if in_listb hrp BECH32_MAIN_VERSION_SET then Ok Main
    else if in_listb hrp BECH32_TEST_VERSION_SET then Ok Test
    else Raise ValueError
  | None =>
    payload <- b58decode_check address ;;
    let version := firstn 1 payload in
    if in_listb version [MAIN_PUBKEY_HASH; MAIN_SCRIPT_HASH] then Ok Main
    else if in_listb version [TEST_PUBKEY_HASH; TEST_SCRIPT_HASH] then Ok Test
    else Raise ValueError
  end.

(* repo: bit/format.py:39-42 *)
Definition address_to_public_key_hash (address : pystr) : result bytes :=
  _ <- get_version address ;;
  payload <- b58decode_check address ;;
  Ok (skipn 1 payload).

(* repo: bit/format.py:57-71 *)
Definition bytes_to_wif (private_key : bytes) (version : net) (compressed : bool) : pystr :=
  let prefix := match version with Test => TEST_PRIVATE_KEY | Main => MAIN_PRIVATE_KEY end in
  let suffix := if compressed then PRIVATE_KEY_COMPRESSED_PUBKEY else [] in
  b58encode_check (prefix ++ private_key ++ suffix).

(* repo: bit/format.py:74-93 *)
Definition wif_to_bytes (wif : pystr) : result (bytes * bool * net) :=
  private_key <- b58decode_check wif ;;
  let version := firstn 1 private_key in
  v <- (if list_eqb version MAIN_PRIVATE_KEY then Ok Main
        else if list_eqb version TEST_PRIVATE_KEY then Ok Test
        else Raise ValueError) ;;
  if (zlen wif =? 52) && (last private_key 0 =? 1)
  then Ok (drop_last 1 (skipn 1 private_key), true, v)
  else Ok (skipn 1 private_key, false, v).

(* repo: bit/format.py:96-106; only ValueError is caught *)
Definition wif_checksum_check (wif : pystr) : result bool :=
  match b58decode_check wif with
  | Raise ValueError => Ok false
  | Raise e => Raise e
  | Ok decoded => Ok (in_listb (firstn 1 decoded) [MAIN_PRIVATE_KEY; TEST_PRIVATE_KEY])
  end.

(* repo: bit/format.py:109-121 *)
Definition public_key_to_address (public_key : bytes) (version : net) : result pystr :=
  let v := match version with Test => TEST_PUBKEY_HASH | Main => MAIN_PUBKEY_HASH end in
  let length := zlen public_key in
  if negb ((length =? 33) || (length =? 65)) then Raise ValueError
  else Ok (b58encode_check (v ++ ripemd160_sha256 public_key)).

(* repo: bit/format.py:124-138 *)
Definition public_key_to_segwit_address (public_key : bytes) (version : net) : result pystr :=
  let v := match version with Test => TEST_SCRIPT_HASH | Main => MAIN_SCRIPT_HASH end in
  if negb (zlen public_key =? 33) then Raise ValueError
  else Ok (b58encode_check (v ++ ripemd160_sha256 ([0x00; 0x14] ++ ripemd160_sha256 public_key))).

(* repo: bit/format.py:166-172 *)
Definition multisig_to_address (public_keys : list bytes) (m : Z) (version : net) : result pystr :=
  let v := match version with Test => TEST_SCRIPT_HASH | Main => MAIN_SCRIPT_HASH end in
  rs <- multisig_to_redeemscript public_keys m ;;
  Ok (b58encode_check (v ++ ripemd160_sha256 rs)).

(* repo: bit/format.py:175-181 *)
Definition multisig_to_segwit_address (public_keys : list bytes) (m : Z) (version : net) : result pystr :=
  let v := match version with Test => TEST_SCRIPT_HASH | Main => MAIN_SCRIPT_HASH end in
  rs <- multisig_to_redeemscript public_keys m ;;
  Ok (b58encode_check (v ++ ripemd160_sha256 ([0x00; 0x20] ++ sha256 rs))).

(* repo: bit/transaction.py:456-468.  Only ValueError is caught around
   b58decode_check.  Falling through both branches returns None ([Ok None]). *)
Definition address_to_scriptpubkey (address : pystr) : result (option bytes) :=
  _ <- get_version address ;;
  match b58decode_check address with
  | Raise ValueError => rmap Some (segwit_scriptpubkey (segwit_decode address))
  | Raise e => Raise e
  | Ok payload =>
    let version := firstn 1 payload in
    if list_eqb version MAIN_PUBKEY_HASH || list_eqb version TEST_PUBKEY_HASH then
      h <- address_to_public_key_hash address ;;
      Ok (Some (OP_DUP ++ OP_HASH160 ++ OP_PUSH_20 ++ h ++ OP_EQUALVERIFY ++ OP_CHECKSIG))
    else if list_eqb version MAIN_SCRIPT_HASH || list_eqb version TEST_SCRIPT_HASH then
      h <- address_to_public_key_hash address ;;
      Ok (Some (OP_HASH160 ++ OP_PUSH_20 ++ h ++ OP_EQUAL))
    else Ok None
  end.

End WithCrypto.
