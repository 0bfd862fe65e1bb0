(** Model of the wallet methods with references: lists and Unspent objects are
    shared between the wallets and the caller. *)
From Verif Require Export M_wallet.

(** ** Coin selection on anything that stands for a coin: [get] reads its attributes *)
Section Select.
Context {C : Type} (get : C -> Unspent).
(* repo: bit/transaction.py:297 sorted() (insert_coin, M_select.v) *)
Fixpoint insert_coin_at (u : C) (l : list C) : list C :=
  match l with
  | [] => [u]
  | v :: r => if u_amount (get v) <=? u_amount (get u) then u :: l else v :: insert_coin_at u r
  end.
Definition sort_coins_at (l : list C) : list C := fold_right insert_coin_at [] l.
(* repo: bit/transaction.py:237-295 branch_and_bound (M_select.v) *)
Fixpoint branch_and_bound_at (bits : nat -> bool) (overhead : Z) (target fee : Z)
    (rest : list C) (selected : list C) (effective_value : Z) (s : bnb_state) : list C * bnb_state :=
  let s := mkB (tries s - 1) (drawn s) in
  let cost_per_input := 148 * fee in
  let cost_per_output := 34 * fee in
  let target_to_match := target + overhead in
  let match_range := cost_per_input + cost_per_output in
  if effective_value >? 4 * (target_to_match + match_range) then ([], s)
  else if effective_value >=? 4 * target_to_match then (selected, s)
  else if tries s <=? 0 then ([], s)
  else
    match rest with
    | [] => ([], s)
    | u :: rest' =>
        let binary_random := bits (drawn s) in
        let s := mkB (tries s) (S (drawn s)) in
        let effective_value_new := effective_value + 4 * u_amount (get u) - fee * u_vsize (get u) in
        if binary_random then
          let '(with_this, s) := branch_and_bound_at bits overhead target fee rest' (selected ++ [u]) effective_value_new s in
          match with_this with
          | _ :: _ => (with_this, s)
          | [] => branch_and_bound_at bits overhead target fee rest' selected effective_value s
          end
        else
          let '(without_this, s) := branch_and_bound_at bits overhead target fee rest' selected effective_value s in
          match without_this with
          | _ :: _ => (without_this, s)
          | [] => branch_and_bound_at bits overhead target fee rest' (selected ++ [u]) effective_value_new s
          end
    end.
(* repo: bit/transaction.py:317-329 (draw, M_select.v) *)
Fixpoint draw_at (target fee : Z) (output_size : list Z) (min_change : Z) (absolute_fee consolidate : bool)
    (unspents selected : list C) (estimated_fee : option Z) : result (list C * Z) :=
  match unspents with
  | [] => match estimated_fee with
          | Some _ => Raise InsufficientFunds
          | None => Raise UnboundLocalError
          end
  | u :: rest =>
      let selected := selected ++ [u] in
      est <- estimate_tx_fee (zsum (map (fun u => u_vsize (get u)) selected)) (zlen selected) (zsum output_size) (zlen output_size) fee
               (existsb (fun u => u_is_segwit (get u)) selected) ;;
      let est := if absolute_fee then fee else est in
      let remaining := zsum (map (fun u => u_amount (get u)) selected) - target - est in
      if (remaining >=? min_change) && (negb consolidate || (zlen rest =? 0))
      then Ok (selected, remaining)
      else draw_at target fee output_size min_change absolute_fee consolidate rest selected (Some est)
  end.
(* repo: bit/transaction.py:202-331 select_coins (M_select.v); unspents.copy() copies
   the list, not the coins *)
Definition select_coins_at (bits : nat -> bool) (shuffle : list C -> list C)
    (target fee : Z) (output_size : list Z) (min_change : Z) (absolute_fee consolidate : bool)
    (unspents : list C) : result (list C * Z) :=
  let overhead := (8 + zsum (removelast output_size) + 1) * fee in
  let sorted_unspents := sort_coins_at unspents in
  let selected_coins :=
    if negb consolidate && negb absolute_fee
    then fst (branch_and_bound_at bits overhead target fee sorted_unspents [] 0 (mkB BNB_TRIES 0))
    else [] in
  match selected_coins with
  | _ :: _ => Ok (selected_coins, 0)
  | [] =>
      let unspents := if consolidate then unspents else shuffle unspents in
      draw_at target fee output_size min_change absolute_fee consolidate unspents [] None
  end.
End Select.

(** ** Memory *)
(** References to Unspent objects, to lists of them and to wallets are numbers.
    [m_next] is the first number that stands for no coin yet.  Every wallet
    object has its own list, the attribute unspents, for all its life (it is only
    ever assigned through [:] and +=), so that the number of the list is used for
    the wallet as well. *)
Definition upd {A} (i : nat) (a : A) (f : nat -> A) : nat -> A := fun j => if Nat.eqb j i then a else f j.

Section Heap.
Context {CR : Crypto} {W Amt : Type} {WD : World W Amt}.

Record Mem := mkMem {
  m_world : W; m_coins : nat -> Unspent; m_next : nat; m_lists : nat -> list nat; m_balance : nat -> Z
}.
Definition with_world (w : W) (m : Mem) := mkMem w (m_coins m) (m_next m) (m_lists m) (m_balance m).
Definition with_coins (c : nat -> Unspent) (m : Mem) := mkMem (m_world m) c (m_next m) (m_lists m) (m_balance m).
Definition with_list (i : nat) (l : list nat) (m : Mem) := mkMem (m_world m) (m_coins m) (m_next m) (upd i l (m_lists m)) (m_balance m).
Definition with_balance (i : nat) (b : Z) (m : Mem) := mkMem (m_world m) (m_coins m) (m_next m) (m_lists m) (upd i b (m_balance m)).
Definition change (f : Mem -> Mem) : IO Mem unit := m <~ iget ;; iput (f m).
Definition outside {A} (m : IO W A) : IO Mem A := zoom m_world with_world m.

(** New Unspent objects *)
Definition new_coins (us : list Unspent) : IO Mem (list nat) :=
  m <~ iget ;;
  let n := m_next m in
  _ <~ iput (mkMem (m_world m) (fun j => if (n <=? j)%nat && (j <? n + length us)%nat then nth (j - n) us (m_coins m j) else m_coins m j)
               (n + length us) (m_lists m) (m_balance m)) ;;
  iret (seq n (length us)).
(** What a list holds now *)
Definition contents (m : Mem) (i : nat) : list Unspent := map (m_coins m) (m_lists m i).

(** random.shuffle does not look at what it shuffles: it is tried on coins that
    are told apart by their index. *)
Definition shuffle_refs (shuffle : list Unspent -> list Unspent) (l : list nat) : list nat :=
  map (fun u => Z.to_nat (u_txindex u)) (shuffle (map (fun i => mkU 0 0 [] [] (Z.of_nat i) Unknown 0 None 0) l)).

(* repo: bit/transaction.py:378-453 sanitize_tx_data; [lst] is the list object
   unspents *)
Definition sanitize_in (lst : nat) (outputs : list (pystr * Amt * pystr)) (fee : Z) (leftover : option pystr)
    (min_change : Z) (version : net) (o : Options) : IO Mem (list (dest * Z)) :=
  outputs <~ imapM (fun '(a, amount, currency) => sat <~ outside (w_convert amount currency) ;; iret (a, sat)) outputs ;;
  m <~ iget ;;
  match m_lists m lst with
  | [] => ilift (Raise ValueError)
  | _ =>
      messages <~ ilift (message_outputs (o_message o) (o_message_is_hex o)) ;;
      sizes <~ ilift (mapM (fun '(a, _) => output_size_of (Some a)) outputs) ;;
      change_size <~ ilift (output_size_of leftover) ;;
      let output_size := sizes ++ [zlen messages * (Z.of_nat MESSAGE_LIMIT + 9)] ++ [change_size] in
      let sum_outputs := zsum (map snd outputs) in
      rnd <~ outside w_random ;;
      ' (selected, remaining) <~ ilift (select_coins_at (m_coins m) (r_bits rnd) (shuffle_refs (r_shuffle rnd)) sum_outputs fee output_size
                                    min_change (o_absolute_fee o) (o_combine o) (m_lists m lst)) ;;
      _ <~ change (with_list lst selected) ;;
      _ <~ (if o_replace_by_fee o
            then change (fun m => with_coins (fold_left (fun c i => upd i (opt_in_for_RBF (c i)) c) selected (m_coins m)) m)
            else iret tt) ;;
      outputs <~ (if remaining >? 0
                  then match leftover with Some l => iret (outputs ++ [(l, remaining)]) | None => ilift (Raise TypeError) end
                  else iret outputs) ;;
      _ <~ ilift (check_version version outputs) ;;
      iret (map (fun '(a, n) => (Addr a, n)) outputs ++ messages)
  end.

(* repo: bit/wallet.py:229-243, 626-642, 1060-1078, 1383-1406 get_unspents of the
   wallet [self]; returns the list object self.unspents.  NetworkAPI makes new
   Unspent objects, which set_type changes before anyone else has them. *)
Definition get_unspents_in (sg : signer) (self : nat) : IO Mem nat :=
  ' (t1, v1, (t2, v2)) <~ ilift (coin_types sg) ;;
  a <~ ilift (sg_address sg) ;;
  l1 <~ outside (w_unspent (sg_version sg) a) ;;
  l1 <~ new_coins (map (fun u => set_type u t1 v1) l1) ;;
  _ <~ change (with_list self l1) ;;
  sa <~ ilift (sg_segwit_address sg) ;;
  _ <~ (match sa with
        | Some sa =>
            l2 <~ outside (w_unspent (sg_version sg) sa) ;;
            l2 <~ new_coins (map (fun u => set_type u t2 v2) l2) ;;
            change (fun m => with_list self (m_lists m self ++ l2) m)
        | None => iret tt
        end) ;;
  _ <~ change (fun m => with_balance self (zsum (map u_amount (contents m self))) m) ;;
  iret self.

(* repo: bit/wallet.py:255-322, 654-721, 1090-1157, 1418-1485 create_transaction of
   the wallet [self]; [unspents] is None or a list object *)
Definition create_transaction_in (sg : signer) (self : nat) (outputs : list (pystr * Amt * pystr)) (fee : option Z)
    (leftover : option pystr) (unspents : option nat) (o : Options) : IO Mem pystr :=
  m <~ iget ;;
  lst <~ (match unspents with
          | Some l => match m_lists m l with _ :: _ => iret l | [] => get_unspents_in sg self end
          | None => get_unspents_in sg self
          end) ;;
  m <~ iget ;;
  return_address <~ ilift (if existsb u_is_segwit (contents m lst) then sg_segwit_address sg else rmap Some (sg_address sg)) ;;
  f <~ outside (fee_or_cached fee) ;;
  outputs <~ sanitize_in lst outputs f (match nonempty leftover with Some l => Some l | None => return_address end)
         0 (sg_version sg) o ;;
  m <~ iget ;;
  ilift (create_new_transaction sg (contents m lst) outputs).

(* repo: bit/wallet.py:324-387, 723-786 send *)
Definition send_in (sg : signer) (self : nat) (outputs : list (pystr * Amt * pystr)) (fee : option Z)
    (leftover : option pystr) (unspents : option nat) (o : Options) : IO Mem pystr :=
  tx_hex <~ create_transaction_in sg self outputs fee leftover unspents o ;;
  _ <~ outside (w_broadcast (sg_version sg) tx_hex) ;;
  ilift (calc_txid tx_hex).
End Heap.
