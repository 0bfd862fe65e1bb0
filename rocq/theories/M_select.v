(** Model of bit/transaction.py: fee estimation and coin selection.
    Sizes of inputs are in quarters of a byte (see M_unspent.v); Python computes
    with floats for fractional sizes, which is exact far beyond the supply of
    bitcoin, so exact integers are used here.  Python's recursion limit (about
    1000 coins in the branch-and-bound search) is modelled in M_depth. *)
From Verif Require Export M_unspent.

Definition ceil4 (x : Z) : Z := - ((- x) / 4).

(* repo: bit/transaction.py:180-199 estimate_tx_fee; in_size in quarters of a byte *)
Definition estimate_tx_fee (in_size n_in out_size n_out satoshis : Z) (segwit : bool) : result Z :=
  if satoshis =? 0 then Ok 0
  else
    bi <- int_to_unknown_bytes_le n_in ;;
    bo <- int_to_unknown_bytes_le n_out ;;
    Ok (ceil4 (in_size + 4 * zlen bi + 4 * out_size + 4 * zlen bo + 4 * 8 + (if segwit then 2 else 0)) * satoshis).

Definition zsum (l : list Z) : Z := fold_left Z.add l 0.

(* repo: bit/transaction.py:297 sorted(unspents, key=amount, reverse=True); stable *)
Fixpoint insert_coin (u : Unspent) (l : list Unspent) : list Unspent :=
  match l with
  | [] => [u]
  | v :: r => if u_amount v <=? u_amount u then u :: l else v :: insert_coin u r
  end.
Definition sort_coins (l : list Unspent) : list Unspent := fold_right insert_coin [] l.

(** The mutable state of the search: BNB_TRIES and the random bits consumed. *)
Record bnb_state := mkB { tries : Z; drawn : nat }.

(* repo: bit/transaction.py:237-295 branch_and_bound.  [rest] is
   sorted_unspents[d:]; effective values are in quarters of a satoshi;
   [bits n] is the n-th result of randint(0, 1). *)
Fixpoint branch_and_bound (bits : nat -> bool) (overhead : Z) (target fee : Z)
    (rest : list Unspent) (selected : list Unspent) (effective_value : Z) (s : bnb_state)
    : list Unspent * bnb_state :=
  let s := mkB (tries s - 1) (drawn s) in
  let cost_per_input := 148 * fee in
  let cost_per_output := 34 * fee in
  let target_to_match := target + overhead in
  let match_range := cost_per_input + cost_per_output in
  if effective_value >? 4 * (target_to_match + match_range) then ([], s)
  else if effective_value >=? 4 * target_to_match then (selected, s)
  else if tries s <=? 0 then ([], s)
  else
    match rest with
    | [] => ([], s)
    | u :: rest' =>
        let binary_random := bits (drawn s) in
        let s := mkB (tries s) (S (drawn s)) in
        let effective_value_new := effective_value + 4 * u_amount u - fee * u_vsize u in
        if binary_random then
          let '(with_this, s) := branch_and_bound bits overhead target fee rest' (selected ++ [u]) effective_value_new s in
          match with_this with
          | _ :: _ => (with_this, s)
          | [] => branch_and_bound bits overhead target fee rest' selected effective_value s
          end
        else
          let '(without_this, s) := branch_and_bound bits overhead target fee rest' selected effective_value s in
          match without_this with
          | _ :: _ => (without_this, s)
          | [] => branch_and_bound bits overhead target fee rest' (selected ++ [u]) effective_value_new s
          end
    end.

Definition BNB_TRIES : Z := 1000000.

(* repo: bit/transaction.py:317-329: the loop that draws coins; [last_fee] is the
   local variable estimated_fee, None while unbound *)
Fixpoint draw (target fee : Z) (output_size : list Z) (min_change : Z) (absolute_fee consolidate : bool)
    (unspents selected : list Unspent) (estimated_fee : option Z) : result (list Unspent * Z) :=
  match unspents with
  | [] => match estimated_fee with
          | Some _ => Raise InsufficientFunds
          | None => Raise UnboundLocalError
          end
  | u :: rest =>
      let selected := selected ++ [u] in
      est <- estimate_tx_fee (zsum (map u_vsize selected)) (zlen selected) (zsum output_size) (zlen output_size) fee
               (existsb u_is_segwit selected) ;;
      let est := if absolute_fee then fee else est in
      let remaining := zsum (map u_amount selected) - target - est in
      if (remaining >=? min_change) && (negb consolidate || (zlen rest =? 0))
      then Ok (selected, remaining)
      else draw target fee output_size min_change absolute_fee consolidate rest selected (Some est)
  end.

(* repo: bit/transaction.py:202-331 select_coins; [bits] are the results of
   randint(0, 1), [shuffle] is random.shuffle *)
Definition select_coins (bits : nat -> bool) (shuffle : list Unspent -> list Unspent)
    (target fee : Z) (output_size : list Z) (min_change : Z) (absolute_fee consolidate : bool)
    (unspents : list Unspent) : result (list Unspent * Z) :=
  let overhead := (8 + zsum (removelast output_size) + 1) * fee in
  let sorted_unspents := sort_coins unspents in
  let selected_coins :=
    if negb consolidate && negb absolute_fee
    then fst (branch_and_bound bits overhead target fee sorted_unspents [] 0 (mkB BNB_TRIES 0))
    else [] in
  match selected_coins with
  | _ :: _ => Ok (selected_coins, 0)
  | [] =>
      let unspents := if consolidate then unspents else shuffle unspents in
      draw target fee output_size min_change absolute_fee consolidate unspents [] None
  end.
