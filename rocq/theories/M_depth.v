(** Coin selection with Python's recursion limit (sys.getrecursionlimit(), 1000
    unless changed), which M_select.v and M_wallet.v leave out. *)
From Verif Require Export M_select M_wallet.

(* repo: bit/transaction.py:237-295 branch_and_bound when [room] more nested calls
   of it fit on Python's stack; None stands for RecursionError, which nothing in
   bit catches.  The frames of randint at each level are not counted. *)
Fixpoint branch_and_bound_in (room : nat) (bits : nat -> bool) (overhead : Z) (target fee : Z)
    (rest : list Unspent) (selected : list Unspent) (effective_value : Z) (s : bnb_state)
    : option (list Unspent * bnb_state) :=
  match room with
  | O => None
  | S room =>
  let s := mkB (tries s - 1) (drawn s) in
  let cost_per_input := 148 * fee in
  let cost_per_output := 34 * fee in
  let target_to_match := target + overhead in
  let match_range := cost_per_input + cost_per_output in
  if effective_value >? 4 * (target_to_match + match_range) then Some ([], s)
  else if effective_value >=? 4 * target_to_match then Some (selected, s)
  else if tries s <=? 0 then Some ([], s)
  else
    match rest with
    | [] => Some ([], s)
    | u :: rest' =>
        let binary_random := bits (drawn s) in
        let s := mkB (tries s) (S (drawn s)) in
        let effective_value_new := effective_value + 4 * u_amount u - fee * u_vsize u in
        if binary_random then
          match branch_and_bound_in room bits overhead target fee rest' (selected ++ [u]) effective_value_new s with
          | None => None
          | Some ((_ :: _) as with_this, s) => Some (with_this, s)
          | Some ([], s) => branch_and_bound_in room bits overhead target fee rest' selected effective_value s
          end
        else
          match branch_and_bound_in room bits overhead target fee rest' selected effective_value s with
          | None => None
          | Some ((_ :: _) as without_this, s) => Some (without_this, s)
          | Some ([], s) => branch_and_bound_in room bits overhead target fee rest' (selected ++ [u]) effective_value_new s
          end
    end
  end.

(* repo: bit/transaction.py:202-331 select_coins, likewise *)
Definition select_coins_in (room : nat) (bits : nat -> bool) (shuffle : list Unspent -> list Unspent)
    (target fee : Z) (output_size : list Z) (min_change : Z) (absolute_fee consolidate : bool)
    (unspents : list Unspent) : option (result (list Unspent * Z)) :=
  let overhead := (8 + zsum (removelast output_size) + 1) * fee in
  let sorted_unspents := sort_coins unspents in
  let selected_coins :=
    if negb consolidate && negb absolute_fee
    then option_map fst (branch_and_bound_in room bits overhead target fee sorted_unspents [] 0 (mkB BNB_TRIES 0))
    else Some [] in
  match selected_coins with
  | None => None
  | Some ((_ :: _) as selected_coins) => Some (Ok (selected_coins, 0))
  | Some [] =>
      let unspents := if consolidate then unspents else shuffle unspents in
      Some (draw target fee output_size min_change absolute_fee consolidate unspents [] None)
  end.

(** The number that stands for the exception class RecursionError *)
Definition RecursionError : exc := OtherError 2997.

Section WithCrypto.
Context {CR : Crypto} {W Amt : Type} {WD : World W Amt}.

(* repo: bit/transaction.py:378-453 sanitize_tx_data (M_wallet.v) with
   select_coins_in in the place of select_coins *)
Definition sanitize_tx_data_in (room : nat) (outputs : list (pystr * Amt * pystr)) (fee : Z) (leftover : option pystr)
    (min_change : Z) (version : net) (o : Options) : IO (list Unspent * W) (list Unspent * list (dest * Z)) :=
  outputs <~ imapM (fun '(a, amount, currency) =>
                      sat <~ zoom snd (fun w s => (fst s, w)) (w_convert amount currency) ;; iret (a, sat)) outputs ;;
  s <~ iget ;;
  let unspents := fst s in
  match unspents with
  | [] => ilift (Raise ValueError)
  | _ =>
      messages <~ ilift (message_outputs (o_message o) (o_message_is_hex o)) ;;
      sizes <~ ilift (mapM (fun '(a, _) => output_size_of (Some a)) outputs) ;;
      change_size <~ ilift (output_size_of leftover) ;;
      let output_size := sizes ++ [zlen messages * (Z.of_nat MESSAGE_LIMIT + 9)] ++ [change_size] in
      let sum_outputs := zsum (map snd outputs) in
      rnd <~ zoom snd (fun w s => (fst s, w)) w_random ;;
      ' (selected, remaining) <~ ilift (match select_coins_in room (r_bits rnd) (r_shuffle rnd) sum_outputs fee output_size
                                    min_change (o_absolute_fee o) (o_combine o) unspents with
                                        | Some r => r
                                        | None => Raise RecursionError
                                        end) ;;
      let selected := if o_replace_by_fee o then map opt_in_for_RBF selected else selected in
      s <~ iget ;;
      _ <~ iput (selected, snd s) ;;
      outputs <~ (if remaining >? 0
                  then match leftover with Some l => iret (outputs ++ [(l, remaining)]) | None => ilift (Raise TypeError) end
                  else iret outputs) ;;
      _ <~ ilift (check_version version outputs) ;;
      iret (selected, map (fun '(a, n) => (Addr a, n)) outputs ++ messages)
  end.

(* repo: bit/wallet.py:255-322, 654-721, 1090-1157, 1418-1485 create_transaction, likewise *)
Definition create_transaction_in (room : nat) (sg : signer) (outputs : list (pystr * Amt * pystr)) (fee : option Z)
    (leftover : option pystr) (unspents : option (list Unspent)) (o : Options) : IO Wallet pystr :=
  ' (own, us) <~ (match nonempty unspents with
                  | Some us => _ <~ modify (set_caller us) ;; iret (false, us)
                  | None => us <~ get_unspents sg ;; iret (true, us)
                  end) ;;
  return_address <~ ilift (if existsb u_is_segwit us then sg_segwit_address sg else rmap Some (sg_address sg)) ;;
  f <~ world (fee_or_cached fee) ;;
  ' (unspents, outputs) <~ run_sanitize own
      (sanitize_tx_data_in room outputs f (match nonempty leftover with Some l => Some l | None => return_address end)
         0 (sg_version sg) o) ;;
  ilift (create_new_transaction sg unspents outputs).

(* repo: bit/wallet.py:324-387, 723-786 send, likewise *)
Definition send_in (room : nat) (sg : signer) (outputs : list (pystr * Amt * pystr)) (fee : option Z)
    (leftover : option pystr) (unspents : option (list Unspent)) (o : Options) : IO Wallet pystr :=
  tx_hex <~ create_transaction_in room sg outputs fee leftover unspents o ;;
  _ <~ world (w_broadcast (sg_version sg) tx_hex) ;;
  ilift (calc_txid tx_hex).

(* repo: bit/wallet.py:389-458, 788-857, 1159-1228, 1487-1556 prepare_transaction, likewise *)
Definition prepare_transaction_in (room : nat) (cls : net) (address : pystr) (outputs : list (pystr * Amt * pystr)) (fee : option Z)
    (leftover : option pystr) (unspents : option (list Unspent)) (o : Options) : IO (list Unspent * W) txdata :=
  let world {A} (m : IO W A) := zoom snd (fun w (s : list Unspent * W) => (fst s, w)) m in
  us <~ (match nonempty unspents with Some us => iret us | None => world (w_unspent cls address) end) ;;
  s <~ iget ;;
  _ <~ iput (us, snd s) ;;
  f <~ world (fee_or_cached fee) ;;
  ' (unspents, outputs) <~ sanitize_tx_data_in room outputs f
      (Some (match nonempty leftover with Some l => l | None => address end)) 0 cls o ;;
  outs <~ ilift (mapM json_dest outputs) ;;
  iret (Json (map to_dict unspents) outs).
End WithCrypto.
