(** Model of bit/transaction.py: transaction objects and (de)serialisation. *)
From Verif Require Export M_format.

(* repo: bit/constants.py:2-8 *)
Definition VERSION_1 : bytes := [1; 0; 0; 0].
Definition MARKER : bytes := [0].
Definition FLAG : bytes := [1].
Definition SEQUENCE : bytes := [255; 255; 255; 255].
Definition LOCK_TIME : bytes := [0; 0; 0; 0].
Definition HASH_TYPE : bytes := [1; 0; 0; 0].

(* repo: bit/transaction.py:53-54 class TxIn, its slots *)
Record TxIn := mkIn {
  script_sig : bytes;
  script_sig_len : bytes;
  txid : bytes;
  txindex : bytes;
  witness : bytes;
  amount : option bytes;
  sequence : bytes;
  segwit_input : bool
}.

(* repo: bit/transaction.py:56-65 TxIn.__init__ *)
Definition new_in (script_sig txid txindex witness : bytes) (amount : option bytes) (sequence : bytes)
    (segwit_input : bool) : result TxIn :=
  l <- int_to_varint (zlen script_sig) ;;
  Ok (mkIn script_sig l txid txindex witness amount sequence segwit_input).

(* repo: bit/transaction.py:94-95 TxIn.__bytes__ *)
Definition in_bytes (i : TxIn) : bytes :=
  txid i ++ txindex i ++ script_sig_len i ++ script_sig i ++ sequence i.

(* repo: bit/transaction.py:97-98 TxIn.is_segwit; the value is used as a truth value *)
Definition in_is_segwit (i : TxIn) : bool :=
  segwit_input i || negb (list_eqb (witness i) []).

(* repo: bit/transaction.py:104-110 class TxOut *)
Record TxOut := mkOut {
  out_amount : bytes;
  script_pubkey_len : bytes;
  script_pubkey : bytes
}.
Definition new_out (amount script_pubkey : bytes) : result TxOut :=
  l <- int_to_varint (zlen script_pubkey) ;; Ok (mkOut amount l script_pubkey).

(* repo: bit/transaction.py:122-123 TxOut.__bytes__ *)
Definition out_bytes (o : TxOut) : bytes := out_amount o ++ script_pubkey_len o ++ script_pubkey o.

(* repo: bit/transaction.py:126-127 class TxObj, its slots *)
Record TxObj := mkTx {
  version : bytes;
  TxIns : list TxIn;
  TxOuts : list TxOut;
  locktime : bytes
}.

Definition set_witness (i : TxIn) (w : bytes) : TxIn :=
  mkIn (script_sig i) (script_sig_len i) (txid i) (txindex i) w (amount i) (sequence i) (segwit_input i).

(* repo: bit/transaction.py:129-137 TxObj.__init__ *)
Definition new_tx (version : bytes) (ins : list TxIn) (outs : list TxOut) (locktime : bytes) : TxObj :=
  let segwit_tx := existsb in_is_segwit ins in
  let ins' := if segwit_tx
              then map (fun i => set_witness i (match witness i with [] => [0] | w => w end)) ins
              else ins in
  mkTx version ins' outs locktime.

(* repo: bit/transaction.py:152-156 TxObj.__bytes__ *)
Definition tx_bytes (t : TxObj) : result bytes :=
  n_in <- int_to_varint (zlen (TxIns t)) ;;
  let inp := n_in ++ concat (map in_bytes (TxIns t)) in
  n_out <- int_to_varint (zlen (TxOuts t)) ;;
  let out := n_out ++ concat (map out_bytes (TxOuts t)) in
  let wit := concat (map witness (TxIns t)) in
  Ok (version t ++ (match wit with [] => [] | _ => MARKER end) ++ (match wit with [] => [] | _ => FLAG end)
      ++ inp ++ out ++ wit ++ locktime t).

(* repo: bit/transaction.py:158-161 TxObj.legacy_repr *)
Definition legacy_repr (t : TxObj) : result bytes :=
  n_in <- int_to_varint (zlen (TxIns t)) ;;
  let inp := n_in ++ concat (map in_bytes (TxIns t)) in
  n_out <- int_to_varint (zlen (TxOuts t)) ;;
  let out := n_out ++ concat (map out_bytes (TxOuts t)) in
  Ok (version t ++ inp ++ out ++ locktime t).

(* repo: bit/transaction.py:163-164 TxObj.to_hex *)
Definition to_hex (t : TxObj) : result pystr := rmap bytes_to_hex (tx_bytes t).

(* repo: bit/transaction.py:166-172 TxObj.is_segwit for bytes and for a TxObj *)
Definition is_segwit_bytes (tx : bytes) : bool := list_eqb (firstn 2 (skipn 4 tx)) (MARKER ++ FLAG).
Definition tx_is_segwit (t : TxObj) : result bool := rmap is_segwit_bytes (tx_bytes t).

(** A loop [for _ in range(n)] that reads one element from the stream. *)
Fixpoint read_n {A} (f : bytes -> result (A * bytes)) (n : nat) (stream : bytes) : result (list A * bytes) :=
  match n with
  | O => Ok ([], stream)
  | S k => '(a, s) <- f stream ;; '(l, s') <- read_n f k s ;; Ok (a :: l, s')
  end.

(* repo: bit/transaction.py:346-351: body of the loop over the inputs *)
Definition read_in (tx : bytes) : result (TxIn * bytes) :=
  let '(txid, tx) := read_bytes tx 32 in
  let '(txindex, tx) := read_bytes tx 4 in
  '(script_sig, tx) <- read_var_string tx ;;
  let '(sequence, tx) := read_bytes tx 4 in
  i <- new_in script_sig txid txindex [] None sequence false ;;
  Ok (i, tx).

(* repo: bit/transaction.py:355-358: body of the loop over the outputs *)
Definition read_out (tx : bytes) : result (TxOut * bytes) :=
  let '(amount, tx) := read_bytes tx 8 in
  '(script_pubkey, tx) <- read_var_string tx ;;
  o <- new_out amount script_pubkey ;;
  Ok (o, tx).

(* repo: bit/transaction.py:361-367: body of the loop over the witnesses *)
Definition read_witness (tx : bytes) : result (bytes * bytes) :=
  '(wnum, tx) <- read_var_int tx ;;
  n <- int_to_varint wnum ;;
  '(ws, tx) <- read_n read_segwit_string (Z.to_nat wnum) tx ;;
  Ok (n ++ concat ws, tx).

(* repo: bit/transaction.py:334-375 deserialize, for bytes *)
Definition deserialize (tx : bytes) : result TxObj :=
  let segwit_tx := is_segwit_bytes tx in
  let '(version, tx) := read_bytes tx 4 in
  let tx := if segwit_tx then snd (read_bytes (snd (read_bytes tx 1)) 1) else tx in
  '(ins, tx) <- read_var_int tx ;;
  '(inputs, tx) <- read_n read_in (Z.to_nat ins) tx ;;
  '(outs, tx) <- read_var_int tx ;;
  '(outputs, tx) <- read_n read_out (Z.to_nat outs) tx ;;
  '(inputs, tx) <- (if segwit_tx
                    then '(ws, tx) <- read_n read_witness (Z.to_nat ins) tx ;;
                         Ok (map (fun p => set_witness (fst p) (snd p)) (combine inputs ws), tx)
                    else Ok (inputs, tx)) ;;
  let '(locktime, _) := read_bytes tx 4 in
  Ok (new_tx version inputs outputs locktime).

(* repo: bit/transaction.py:334-336 deserialize, for a string.  A string that is
   not hexadecimal is not converted: hex_to_bytes in is_segwit raises ValueError
   on it or, when it only contains additional white space, the first read_var_int
   fails because str has no method hex. *)
Definition deserialize_hex (tx : pystr) : result TxObj :=
  if forallb (fun c => match hex_val c with Some _ => true | None => false end) tx
  then b <- hex_to_bytes tx ;; deserialize b
  else _ <- hex_to_bytes tx ;; Raise AttributeError.

Section WithCrypto.
Context {CR : Crypto}.

(* repo: bit/transaction.py:175-177 calc_txid *)
Definition calc_txid (tx_hex : pystr) : result pystr :=
  t <- deserialize_hex tx_hex ;;
  b <- legacy_repr t ;;
  Ok (bytes_to_hex (rev (double_sha256 b))).

End WithCrypto.
