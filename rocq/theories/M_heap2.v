(** Model of prepare_transaction and sign_transaction with references (M_heap). *)
From Verif Require Export M_heap.

Section Heap.
Context {CR : Crypto} {W Amt : Type} {WD : World W Amt}.

(* repo: bit/wallet.py:389-458, 788-857, 1159-1228, 1487-1556 prepare_transaction;
   [unspents] is None or a list object, [new] the list object that
   NetworkAPI.get_unspent makes if it is asked.  What is returned is given by its
   content (txdata, M_wallet.v). *)
Definition prepare_in (new : nat) (cls : net) (address : pystr) (outputs : list (pystr * Amt * pystr)) (fee : option Z)
    (leftover : option pystr) (unspents : option nat) (o : Options) : IO Mem txdata :=
  let fetch := us <~ outside (w_unspent cls address) ;; us <~ new_coins us ;; _ <~ change (with_list new us) ;; iret new in
  m <~ iget ;;
  lst <~ (match unspents with Some l => match m_lists m l with _ :: _ => iret l | [] => fetch end | None => fetch end) ;;
  f <~ outside (fee_or_cached fee) ;;
  outputs <~ sanitize_in lst outputs f (Some (match nonempty leftover with Some l => l | None => address end)) 0 cls o ;;
  m <~ iget ;;
  outs <~ ilift (mapM json_dest outputs) ;;
  iret (Json (map to_dict (contents m lst)) outs).

(* repo: bit/wallet.py:460-490, 859-889, 1230-1260, 1558-1588 sign_transaction of the
   wallet [self]; [unspents] is None or a list object.  The Unspent objects that
   from_dict makes are new; nobody else gets them or the list of them, so that
   the list is given by its elements. *)
Definition sign_in (sg : signer) (self : nat) (tx_data : txdata) (unspents : option nat) : IO Mem pystr :=
  let second (given : list nat) : IO Mem pystr :=
    us <~ (match given with
           | _ :: _ => m <~ iget ;; iret (map (m_coins m) given)
           | [] => l <~ get_unspents_in sg self ;; m <~ iget ;; iret (contents m l)
           end) ;;
    tx <~ ilift (match tx_data with Text s => deserialize_hex s | Json _ _ => Raise ValueError end) ;;
    ilift (sign_tx sg tx us) in
  m <~ iget ;;
  match tx_data, unspents with
  | Json us outs, None =>
      refs <~ new_coins (map from_dict us) ;;
      m <~ iget ;;
      itry (ilift (create_new_transaction sg (map (m_coins m) refs) (map (fun '(a, n) => (Addr a, n)) outs))) (fun _ => second refs)
  | _, Some l => second (m_lists m l)
  | _, None => second []
  end.
End Heap.
