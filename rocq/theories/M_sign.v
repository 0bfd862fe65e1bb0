(** Model of bit/transaction.py: signature hashes and signing. *)
From Verif Require Export M_key.

Section WithCrypto.
Context {CR : Crypto}.

(** tx_obj.TxIn[i]; a negative index is not modelled *)
Definition nth_in (l : list TxIn) (i : nat) : result TxIn :=
  match nth_error l i with Some x => Ok x | None => Raise IndexError end.

Definition blank_in (i : TxIn) : bytes := txid i ++ txindex i ++ OP_0 ++ sequence i.

(* repo: bit/transaction.py:522-558: body of the loop of calculate_preimages *)
Definition preimage_of (tx : TxObj) (p : nat * bytes * bool) : result bytes :=
  let '(input_index, hash_type, segwit_input) := p in
  input_count <- int_to_varint (zlen (TxIns tx)) ;;
  output_count <- int_to_varint (zlen (TxOuts tx)) ;;
  let output_block := concat (map out_bytes (TxOuts tx)) in
  let hashPrevouts := double_sha256 (concat (map (fun i => txid i ++ txindex i) (TxIns tx))) in
  let hashSequence := double_sha256 (concat (map sequence (TxIns tx))) in
  let hashOutputs := double_sha256 output_block in
  if negb (list_eqb hash_type HASH_TYPE) then Raise ValueError
  else
    i <- nth_in (TxIns tx) input_index ;;
    if segwit_input then
      Ok (sha256 (version tx ++ hashPrevouts ++ hashSequence ++ txid i ++ txindex i ++ script_sig_len i
                  ++ script_sig i ++ sequence i ++ hashOutputs ++ locktime tx ++ hash_type))
    else
      Ok (sha256 (version tx ++ input_count
                  ++ concat (map blank_in (firstn input_index (TxIns tx)))
                  ++ txid i ++ txindex i ++ script_sig_len i ++ script_sig i ++ sequence i
                  ++ concat (map blank_in (skipn (S input_index) (TxIns tx)))
                  ++ output_count ++ output_block ++ locktime tx ++ hash_type)).

(* repo: bit/transaction.py:494-559 calculate_preimages; the counts (computed once,
   before the loop) may raise even if there are no parameters *)
Definition calculate_preimages (tx : TxObj) (inputs_parameters : list (nat * bytes * bool)) : result (list bytes) :=
  _ <- int_to_varint (zlen (TxIns tx)) ;;
  _ <- int_to_varint (zlen (TxOuts tx)) ;;
  mapM (preimage_of tx) inputs_parameters.

(** input_dict: newest entry first *)
Definition indict := list (bytes * udict).
Fixpoint dict_get {A} (k : bytes) (d : list (bytes * A)) : option A :=
  match d with [] => None | (k', v) :: r => if list_eqb k' k then Some v else dict_get k r end.

(* repo: bit/transaction.py:579-585 *)
Fixpoint build_dict (pk : signer) (unspents : list Unspent) (d : indict) : result indict :=
  match unspents with
  | [] => Ok d
  | u :: r =>
      c <- sg_can_sign pk u ;;
      if negb c then build_dict pk r d
      else
        t <- hex_to_bytes (u_txid u) ;;
        x <- to_bytes_le (u_txindex u) 4 ;;
        build_dict pk r ((rev t ++ x, to_dict u) :: d)
  end.

Definition outpoint (i : TxIn) : bytes := txid i ++ txindex i.

(* repo: bit/transaction.py:592: [j for j, i in enumerate(tx.TxIn) if ...] *)
Fixpoint sign_inputs (d : indict) (ins : list TxIn) (j : nat) : list nat :=
  match ins with
  | [] => []
  | i :: r => match dict_get (outpoint i) d with
              | Some _ => j :: sign_inputs d r (S j)
              | None => sign_inputs d r (S j)
              end
  end.

(** assignment to an element of a list *)
Fixpoint upd {A} (l : list A) (i : nat) (x : A) : list A :=
  match l, i with
  | [], _ => []
  | _ :: r, O => x :: r
  | y :: r, S k => y :: upd r k x
  end.

Definition d_is_segwit (u : udict) : bool := match d_segwit u with Some true => true | _ => false end.

(* repo: bit/transaction.py:610-640: the loop that fills in the script codes.
   The amount of an Unspent is an int here; None (AttributeError, reported as
   ValueError) is not modelled. *)
Fixpoint prepare_loop (pk : signer) (d : indict) (idx : list nat) (ins : list TxIn) (field : list bytes)
    (params : list (nat * bytes * bool)) : result (list TxIn * list bytes * list (nat * bytes * bool)) :=
  match idx with
  | [] => Ok (ins, field, params)
  | i :: rest =>
      x <- nth_in ins i ;;
      match dict_get (outpoint x) d with
      | None => Raise KeyError
      | Some u =>
          let segwit_input := d_is_segwit u in
          script_code <- sg_scriptcode pk ;;
          script_code_len <- int_to_varint (zlen script_code) ;;
          if segwit_input then
            a <- to_bytes_le (d_amount u) 8 ;;
            let x' := mkIn (script_code ++ a) script_code_len (txid x) (txindex x) (witness x) (amount x) (sequence x) segwit_input in
            prepare_loop pk d rest (upd ins i x') (upd field i (witness x)) (params ++ [(i, HASH_TYPE, segwit_input)])
          else
            let x' := mkIn script_code script_code_len (txid x) (txindex x) (witness x) (amount x) (sequence x) segwit_input in
            prepare_loop pk d rest (upd ins i x') field (params ++ [(i, HASH_TYPE, segwit_input)])
      end
  end.

(** the dictionary sigs: at most one entry per key *)
Fixpoint dict_set {A} (k : bytes) (v : A) (d : list (bytes * A)) : list (bytes * A) :=
  match d with
  | [] => [(k, v)]
  | (k', v') :: r => if list_eqb k' k then (k, v) :: r else (k', v') :: dict_set k v r
  end.

(* repo: bit/transaction.py:665-670: find the owners of the present signatures *)
Fixpoint match_keys (sig hash : bytes) (pubs : list bytes) (sigs : list (bytes * bytes)) : result (list (bytes * bytes)) :=
  match pubs with
  | [] => Ok sigs
  | pub :: r =>
      v <- ec_verify (drop_last 1 sig) hash pub ;;
      match_keys sig hash r (if v then dict_set pub sig sigs else sigs)
  end.
Fixpoint match_sigs (sig_list : list bytes) (hash : bytes) (pubs : list bytes) (sigs : list (bytes * bytes))
    : result (list (bytes * bytes)) :=
  match sig_list with
  | [] => Ok sigs
  | sig :: r => sigs' <- match_keys sig hash pubs sigs ;; match_sigs r hash pubs sigs'
  end.

(* repo: bit/transaction.py:678-682: signatures in key order *)
Fixpoint write_sigs (segwit_input : bool) (pubs : list bytes) (sigs : list (bytes * bytes)) : result bytes :=
  match pubs with
  | [] => Ok []
  | pub :: r =>
      match dict_get pub sigs with
      | Some sig =>
          l <- (if segwit_input then int_to_varint (zlen sig) else script_push (zlen sig)) ;;
          w <- write_sigs segwit_input r sigs ;;
          Ok (l ++ sig ++ w)
      | None => write_sigs segwit_input r sigs
      end
  end.

(* repo: bit/transaction.py:645-695: one multisig input; result is (script_sig, witness) *)
Definition sign_multi (ms : MultiSig) (hash field : bytes) (segwit_input segwit_tx : bool) : result (bytes * bytes) :=
  let signature := ec_sign (k_secret (ms_key ms)) hash ++ [0x01] in
  ' p <- (match field with
          | [] => Ok ([], [], 3)
          | _ =>
            sig_list <- get_signatures_from_script field ;;
            let script_blob := repeat 0 (Z.to_nat (ms_m ms - zlen sig_list - 1)) in
            sigs <- match_sigs sig_list hash (ms_public_keys ms) [] ;;
            if zlen sigs >=? ms_m ms then Raise ValueError
            else Ok (script_blob, sigs, ms_m ms + 2)
          end) ;;
  let '(script_blob, sigs, witness_count) := p in
  let sigs := dict_set (k_public_key (ms_key ms)) signature sigs in
  w <- write_sigs segwit_input (ms_public_keys ms) sigs ;;
  let script_sig := [0x22] ++ ms_segwit_scriptcode ms in
  c <- (if segwit_input then int_to_varint witness_count else Ok []) ;;
  l <- (if segwit_input then int_to_varint (zlen (ms_redeemscript ms)) else script_push (zlen (ms_redeemscript ms))) ;;
  let wit := c ++ [0x00] ++ w ++ script_blob ++ l ++ ms_redeemscript ms in
  Ok (if segwit_input then script_sig else wit,
      if segwit_input then wit else if segwit_tx then [0x00] else []).

(* repo: bit/transaction.py:698-712: one single-key input *)
Definition sign_single (k : PrivateKey) (public_key_push hash : bytes) (segwit_input segwit_tx : bool) : result (bytes * bytes) :=
  let signature := ec_sign (k_secret k) hash ++ [0x01] in
  let script_sig := [0x16] ++ key_segwit_scriptcode k in
  l <- to_bytes_le (zlen signature) 1 ;;
  let wit := (if segwit_input then [0x02] else []) ++ l ++ signature ++ public_key_push ++ k_public_key k in
  Ok (if segwit_input then script_sig else wit,
      if segwit_input then wit else if segwit_tx then [0x00] else []).

(* repo: bit/transaction.py:643-712: the loop over zip(preimages, inputs_parameters) *)
Fixpoint sign_loop (pk : signer) (public_key_push : bytes) (segwit_tx : bool) (field : list bytes)
    (todo : list (bytes * (nat * bytes * bool))) (ins : list TxIn) : result (list TxIn) :=
  match todo with
  | [] => Ok ins
  | (hash, (i, _, segwit_input)) :: rest =>
      x <- nth_in ins i ;;
      ' p <- (match pk with
              | Multi ms =>
                  match nth_error field i with
                  | None => Raise IndexError
                  | Some f => sign_multi ms hash f segwit_input segwit_tx
                  end
              | Single k => sign_single k public_key_push hash segwit_input segwit_tx
              end) ;;
      let '(script_sig, witness) := p in
      l <- int_to_varint (zlen script_sig) ;;
      let x' := mkIn script_sig l (txid x) (txindex x) witness (amount x) (sequence x) (segwit_input) in
      sign_loop pk public_key_push segwit_tx field rest (upd ins i x')
  end.

(* repo: bit/transaction.py:562-714 sign_tx: the signed transaction object whose
   to_hex() is returned.  The argument tx is modified in place by the code; the
   callers (create_new_transaction, sign_transaction) own it, so only the
   result is modelled. *)
Definition sign_tx_obj (pk : signer) (tx : TxObj) (unspents : list Unspent) : result TxObj :=
  input_dict <- build_dict pk unspents [] ;;
  let idx := sign_inputs input_dict (TxIns tx) 0 in
  segwit_tx <- tx_is_segwit tx ;;
  public_key_push <- script_push (zlen (sg_public_key pk)) ;;
  ' p <- prepare_loop pk input_dict idx (TxIns tx) (map script_sig (TxIns tx)) [] ;;
  let '(ins, field, params) := p in
  preimages <- calculate_preimages (mkTx (version tx) ins (TxOuts tx) (locktime tx)) params ;;
  ins' <- sign_loop pk public_key_push segwit_tx field (combine preimages params) ins ;;
  Ok (mkTx (version tx) ins' (TxOuts tx) (locktime tx)).
Definition sign_tx (pk : signer) (tx : TxObj) (unspents : list Unspent) : result pystr :=
  t <- sign_tx_obj pk tx unspents ;; to_hex t.

(** Destinations of construct_outputs: an address (str) or message bytes. *)
Inductive dest := Addr (a : pystr) | Data (b : bytes).

(* repo: bit/transaction.py:471-491 construct_outputs.  b'..' has no get_version:
   for bytes as an address the Base58/Bech32 functions are reached with bytes;
   this is reported as TypeError here (simplification, it always raises);
   OP_RETURN + ... + dest with a str raises TypeError. *)
Definition construct_output (o : dest * Z) : result TxOut :=
  let '(dest, amount) := o in
  if negb (amount =? 0) then
    match dest with
    | Data _ => Raise TypeError
    | Addr a =>
        s <- address_to_scriptpubkey a ;;
        am <- to_bytes_le amount 8 ;;
        match s with
        | Some script_pubkey => new_out am script_pubkey
        | None => Raise TypeError
        end
    end
  else
    match dest with
    | Data b => l <- to_bytes_le (zlen b) 1 ;; new_out [0; 0; 0; 0; 0; 0; 0; 0] (OP_RETURN ++ l ++ b)
    | Addr a => _ <- to_bytes_le (zlen a) 1 ;; Raise TypeError
    end.
Definition construct_outputs (outputs : list (dest * Z)) : result (list TxOut) := mapM construct_output outputs.

(* repo: bit/transaction.py:725-732: an input of a new transaction *)
Definition new_input (u : Unspent) : result TxIn :=
  t <- hex_to_bytes (u_txid u) ;;
  x <- to_bytes_le (u_txindex u) 4 ;;
  a <- to_bytes_le (u_amount u) 8 ;;
  s <- to_bytes_le (u_sequence u) 4 ;;
  new_in [] (rev t) x [] (Some a) s (u_is_segwit u).

(* repo: bit/transaction.py:717-737 create_new_transaction *)
Definition create_new_transaction (pk : signer) (unspents : list Unspent) (outputs : list (dest * Z)) : result pystr :=
  outs <- construct_outputs outputs ;;
  ins <- mapM new_input unspents ;;
  sign_tx pk (new_tx VERSION_1 ins outs LOCK_TIME) unspents.

End WithCrypto.
