(** Model of the wallet methods of bit/wallet.py and of sanitize_tx_data in
    bit/transaction.py: building, preparing, signing and sending transactions. *)
From Coq Require Import String.
From Verif Require Export M_io M_select M_sign.

(* repo: bit/constants.py:24 *)
Definition MESSAGE_LIMIT : nat := 80.

(** The results of randint(0, 1) and random.shuffle during one selection. *)
Record Random := mkRandom { r_bits : nat -> bool; r_shuffle : list Unspent -> list Unspent }.

(** What the wallet reaches outside: W is the state of the outside world
    (network, clock, caches, random numbers), Amt the type of amounts accepted
    by decimal.Decimal.  Modelled further in M_rates.v, M_fees.v and M_network.v. *)
Class World (W Amt : Type) := {
  (* repo: bit/network/rates.py currency_to_satoshi_cached *)
  w_convert : Amt -> pystr -> IO W Z;
  (* repo: bit/network/fees.py get_fee_cached *)
  w_fee : IO W Z;
  (* repo: bit/network/services.py NetworkAPI.get_unspent(_testnet) *)
  w_unspent : net -> pystr -> IO W (list Unspent);
  (* repo: bit/network/services.py NetworkAPI.get_transactions(_testnet) *)
  w_history : net -> pystr -> IO W (list pystr);
  (* repo: bit/network/services.py NetworkAPI.broadcast_tx(_testnet) *)
  w_broadcast : net -> pystr -> IO W unit;
  (* the module random *)
  w_random : IO W Random
}.

(** A message: text or bytes. *)
Inductive msg := MText (s : pystr) | MBytes (b : bytes).
Definition msg_empty (m : msg) : bool := match m with MText [] | MBytes [] => true | _ => false end.

(** str.encode('utf-8') of one code point; surrogates cannot be encoded *)
Definition utf8_char (c : Z) : result bytes :=
  if c <? 0x80 then Ok [c]
  else if c <? 0x800 then Ok [0xc0 + c / 64; 0x80 + c mod 64]
  else if (0xd800 <=? c) && (c <? 0xe000) then Raise UnicodeEncodeError
  else if c <? 0x10000 then Ok [0xe0 + c / 4096; 0x80 + (c / 64) mod 64; 0x80 + c mod 64]
  else Ok [0xf0 + c / 262144; 0x80 + (c / 4096) mod 64; 0x80 + (c / 64) mod 64; 0x80 + c mod 64].
Definition utf8 (s : pystr) : result bytes := rmap (@concat Z) (mapM utf8_char s).

(* repo: bit/transaction.py:408-418: the list messages.  Chunks of a str stay
   str if the caller claims that the message is hex. *)
Definition message_outputs (message : option msg) (message_is_hex : bool) : result (list (dest * Z)) :=
  match message with
  | None => Ok []
  | Some m =>
      if msg_empty m then Ok []
      else
        chunks <- (if message_is_hex then
                     match m with
                     | MText s => Ok (map Addr (chunk_data s MESSAGE_LIMIT))
                     | MBytes b => Ok (map Data (chunk_data b MESSAGE_LIMIT))
                     end
                   else
                     match m with
                     | MText s => b <- utf8 s ;; Ok (map Data (chunk_data b MESSAGE_LIMIT))
                     | MBytes _ => Raise AttributeError
                     end) ;;
        Ok (map (fun c => (c, 0)) chunks)
  end.

Section WithCrypto.
Context {CR : Crypto} {W Amt : Type} {WD : World W Amt}.

(** len(address_to_scriptpubkey(a)) + 9; no address at all (None) is a TypeError *)
Definition output_size_of (a : option pystr) : result Z :=
  match a with
  | None => Raise TypeError
  | Some a => s <- some_script (address_to_scriptpubkey a) ;; Ok (zlen s + 9)
  end.

(* repo: bit/transaction.py:445-449: the check of the networks *)
Fixpoint check_version (version : net) (outputs : list (pystr * Z)) : result unit :=
  match outputs with
  | [] => Ok tt
  | (a, _) :: r => vs <- get_version a ;; if net_eqb vs version then check_version version r else Raise ValueError
  end.

(** The options of create_transaction and of sanitize_tx_data. *)
Record Options := mkOptions {
  o_combine : bool; o_message : option msg; o_absolute_fee : bool; o_message_is_hex : bool; o_replace_by_fee : bool
}.

(* repo: bit/transaction.py:378-453 sanitize_tx_data.  The first component of the
   state is the list object unspents, owned by the caller; the list outputs is
   copied by the code and its elements are immutable tuples.  The parameter
   compressed is not used by the code.  opt_in_for_RBF changes the Unspent
   objects themselves; other references to them are not modelled. *)
Definition sanitize_tx_data (outputs : list (pystr * Amt * pystr)) (fee : Z) (leftover : option pystr)
    (min_change : Z) (version : net) (o : Options) : IO (list Unspent * W) (list Unspent * list (dest * Z)) :=
  outputs <~ imapM (fun '(a, amount, currency) =>
                      sat <~ zoom snd (fun w s => (fst s, w)) (w_convert amount currency) ;; iret (a, sat)) outputs ;;
  s <~ iget ;;
  let unspents := fst s in
  match unspents with
  | [] => ilift (Raise ValueError)
  | _ =>
      messages <~ ilift (message_outputs (o_message o) (o_message_is_hex o)) ;;
      sizes <~ ilift (mapM (fun '(a, _) => output_size_of (Some a)) outputs) ;;
      change_size <~ ilift (output_size_of leftover) ;;
      let output_size := sizes ++ [zlen messages * (Z.of_nat MESSAGE_LIMIT + 9)] ++ [change_size] in
      let sum_outputs := zsum (map snd outputs) in
      rnd <~ zoom snd (fun w s => (fst s, w)) w_random ;;
      ' (selected, remaining) <~ ilift (select_coins (r_bits rnd) (r_shuffle rnd) sum_outputs fee output_size
                                    min_change (o_absolute_fee o) (o_combine o) unspents) ;;
      let selected := if o_replace_by_fee o then map opt_in_for_RBF selected else selected in
      s <~ iget ;;
      _ <~ iput (selected, snd s) ;;
      outputs <~ (if remaining >? 0
                  then match leftover with Some l => iret (outputs ++ [(l, remaining)]) | None => ilift (Raise TypeError) end
                  else iret outputs) ;;
      _ <~ ilift (check_version version outputs) ;;
      iret (selected, map (fun '(a, n) => (Addr a, n)) outputs ++ messages)
  end.

(** ** Wallet objects *)

(* repo: bit/wallet.py:167-169, 564-566, 990-992, 1313-1315: the mutable attributes, the
   outside world, and the list that the caller passed as unspents *)
Record Wallet := mkWallet {
  wl_world : W; wl_balance : Z; wl_unspents : list Unspent; wl_transactions : list pystr; wl_caller : list Unspent
}.
Definition set_world (w : W) (s : Wallet) := mkWallet w (wl_balance s) (wl_unspents s) (wl_transactions s) (wl_caller s).
Definition set_balance (b : Z) (s : Wallet) := mkWallet (wl_world s) b (wl_unspents s) (wl_transactions s) (wl_caller s).
Definition set_unspents (u : list Unspent) (s : Wallet) :=
  mkWallet (wl_world s) (wl_balance s) u (wl_transactions s) (wl_caller s).
Definition set_transactions (t : list pystr) (s : Wallet) :=
  mkWallet (wl_world s) (wl_balance s) (wl_unspents s) t (wl_caller s).
Definition set_caller (u : list Unspent) (s : Wallet) :=
  mkWallet (wl_world s) (wl_balance s) (wl_unspents s) (wl_transactions s) u.
Definition modify (f : Wallet -> Wallet) : IO Wallet unit := s <~ iget ;; iput (f s).
Definition world {A} (m : IO W A) : IO Wallet A := zoom wl_world set_world m.

Definition sg_version (s : signer) : net := match s with Single k => k_version k | Multi ms => ms_version ms end.
Definition sg_address (s : signer) : result pystr := match s with Single k => key_address k | Multi ms => ms_address ms end.
Definition sg_segwit_address (s : signer) : result (option pystr) :=
  match s with Single k => key_segwit_address k | Multi ms => ms_segwit_address ms end.

(* repo: bit/wallet.py:1065-1071, 1388-1394: type and size (in quarters of a
   byte) given to the coins of the legacy and of the segwit address; and
   bit/wallet.py:234-241, 631-640 for single keys (0: take the default size) *)
Definition coin_types (s : signer) : result (pystr * Z * (pystr * Z)) :=
  match s with
  | Single k => Ok (if key_is_compressed k then str "p2pkh" else str "p2pkh-uncompressed", 0, (str "np2wkh", 0))
  | Multi ms =>
      l <- int_to_varint (zlen (ms_redeemscript ms)) ;;
      let p2sh_size := 1 + ms_m ms * 74 + zlen l + zlen (ms_redeemscript ms) in
      n <- int_to_varint p2sh_size ;;
      let add_p2sh_vsize := 36 + zlen n + p2sh_size + 4 in
      let add_np2wsh_vsize4 := 4 * (36 + 40) + (1 + p2sh_size) in
      Ok (str "p2sh", 4 * add_p2sh_vsize, (str "np2wsh", add_np2wsh_vsize4))
  end.

(* repo: bit/wallet.py:229-243, 626-642, 1060-1078, 1383-1406 get_unspents; the
   list returned is the attribute itself *)
Definition get_unspents (sg : signer) : IO Wallet (list Unspent) :=
  ' (t1, v1, (t2, v2)) <~ ilift (coin_types sg) ;;
  a <~ ilift (sg_address sg) ;;
  l1 <~ world (w_unspent (sg_version sg) a) ;;
  _ <~ modify (set_unspents (map (fun u => set_type u t1 v1) l1)) ;;
  sa <~ ilift (sg_segwit_address sg) ;;
  _ <~ (match sa with
        | Some sa =>
            l2 <~ world (w_unspent (sg_version sg) sa) ;;
            modify (fun s => set_unspents (wl_unspents s ++ map (fun u => set_type u t2 v2) l2) s)
        | None => iret tt
        end) ;;
  _ <~ modify (fun s => set_balance (zsum (map u_amount (wl_unspents s))) s) ;;
  s <~ iget ;;
  iret (wl_unspents s).

(* repo: bit/wallet.py:245-253, 644-652, 1080-1088, 1408-1416 get_transactions *)
Definition get_transactions (sg : signer) : IO Wallet (list pystr) :=
  a <~ ilift (sg_address sg) ;;
  l1 <~ world (w_history (sg_version sg) a) ;;
  _ <~ modify (set_transactions l1) ;;
  sa <~ ilift (sg_segwit_address sg) ;;
  _ <~ (match sa with
        | Some sa =>
            l2 <~ world (w_history (sg_version sg) sa) ;;
            modify (fun s => set_transactions (wl_transactions s ++ l2) s)
        | None => iret tt
        end) ;;
  s <~ iget ;;
  iret (wl_transactions s).

(** [x or default]: None and the empty value are false *)
Definition nonempty {A} (l : option (list A)) : option (list A) := match l with Some (x :: r) => Some (x :: r) | _ => None end.

(** sanitize_tx_data on the caller's list or on self.unspents *)
Definition run_sanitize (own : bool) (m : IO (list Unspent * W) (list Unspent * list (dest * Z)))
    : IO Wallet (list Unspent * list (dest * Z)) :=
  if own then zoom (fun s => (wl_unspents s, wl_world s)) (fun '(u, w) s => set_world w (set_unspents u s)) m
  else zoom (fun s => (wl_caller s, wl_world s)) (fun '(u, w) s => set_world w (set_caller u s)) m.

(** fee or get_fee_cached() *)
Definition fee_or_cached (fee : option Z) : IO W Z :=
  match fee with Some f => if f =? 0 then w_fee else iret f | None => w_fee end.

(* repo: bit/wallet.py:255-322, 654-721, 1090-1157, 1418-1485 create_transaction *)
Definition create_transaction (sg : signer) (outputs : list (pystr * Amt * pystr)) (fee : option Z)
    (leftover : option pystr) (unspents : option (list Unspent)) (o : Options) : IO Wallet pystr :=
  ' (own, us) <~ (match nonempty unspents with
                  | Some us => _ <~ modify (set_caller us) ;; iret (false, us)
                  | None => us <~ get_unspents sg ;; iret (true, us)
                  end) ;;
  return_address <~ ilift (if existsb u_is_segwit us then sg_segwit_address sg else rmap Some (sg_address sg)) ;;
  f <~ world (fee_or_cached fee) ;;
  ' (unspents, outputs) <~ run_sanitize own
      (sanitize_tx_data outputs f (match nonempty leftover with Some l => Some l | None => return_address end)
         0 (sg_version sg) o) ;;
  ilift (create_new_transaction sg unspents outputs).

(* repo: bit/wallet.py:324-387, 723-786 send *)
Definition send (sg : signer) (outputs : list (pystr * Amt * pystr)) (fee : option Z)
    (leftover : option pystr) (unspents : option (list Unspent)) (o : Options) : IO Wallet pystr :=
  tx_hex <~ create_transaction sg outputs fee leftover unspents o ;;
  _ <~ world (w_broadcast (sg_version sg) tx_hex) ;;
  ilift (calc_txid tx_hex).

(** The text that json.dumps makes of prepared data, by its content: json.loads
    gives the content back (strings, integers, floats, booleans and None survive).
    Any other text is given as such. *)
Inductive txdata := Json (unspents : list udict) (outputs : list (pystr * Z)) | Text (s : pystr).

(** json.dumps fails on bytes *)
Definition json_dest (o : dest * Z) : result (pystr * Z) :=
  match o with (Addr a, n) => Ok (a, n) | (Data _, _) => Raise TypeError end.

(* repo: bit/wallet.py:389-458, 788-857, 1159-1228, 1487-1556 prepare_transaction;
   the first component of the state is the caller's list of unspents (a fresh
   list if the caller gave none) *)
Definition prepare_transaction (cls : net) (address : pystr) (outputs : list (pystr * Amt * pystr)) (fee : option Z)
    (leftover : option pystr) (unspents : option (list Unspent)) (o : Options) : IO (list Unspent * W) txdata :=
  let world {A} (m : IO W A) := zoom snd (fun w (s : list Unspent * W) => (fst s, w)) m in
  us <~ (match nonempty unspents with Some us => iret us | None => world (w_unspent cls address) end) ;;
  s <~ iget ;;
  _ <~ iput (us, snd s) ;;
  f <~ world (fee_or_cached fee) ;;
  ' (unspents, outputs) <~ sanitize_tx_data outputs f
      (Some (match nonempty leftover with Some l => l | None => address end)) 0 cls o ;;
  outs <~ ilift (mapM json_dest outputs) ;;
  iret (Json (map to_dict unspents) outs).

(* repo: bit/wallet.py:460-490, 859-889, 1230-1260, 1558-1588 sign_transaction.
   json.loads may succeed on a Text too (digits, null ...) but then the lookups
   raise, as every exception in the try block leads to the second part.  There,
   deserialize raises ValueError on the text of a Json: it begins with a brace. *)
Definition sign_transaction (sg : signer) (tx_data : txdata) (unspents : option (list Unspent)) : IO Wallet pystr :=
  let second (unspents : option (list Unspent)) : IO Wallet pystr :=
    us <~ (match nonempty unspents with Some us => iret us | None => get_unspents sg end) ;;
    tx <~ ilift (match tx_data with Text s => deserialize_hex s | Json _ _ => Raise ValueError end) ;;
    ilift (sign_tx sg tx us) in
  match tx_data, unspents with
  | Json us outs, None =>
      let us := map from_dict us in
      itry (ilift (create_new_transaction sg us (map (fun '(a, n) => (Addr a, n)) outs))) (fun _ => second (Some us))
  | _, _ => second unspents
  end.

End WithCrypto.
