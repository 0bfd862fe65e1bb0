(** C67: what a create_transaction that raises leaves in the wallet. *)
From Coq Require Import String Permutation.
From Verif Require Import F_wallet X_world F_spend F_build P_outputs P_select P_wallet P_create P_state.

Section WithWorld.
Context {CR : Crypto} {W Amt : Type} {WD : World W Amt}.

(** The list holds all the coins, or what coin selection took of them. *)
Definition AllOrTaken (rbf : bool) (us l : list Unspent) : Prop :=
  l = us \/ exists taken unused, Permutation (taken ++ unused) us /\ taken <> [] /\ l = if rbf then map opt_in_for_RBF taken else taken.

Lemma sanitize_leaves (RO : RandomOk WD) us w outs fee leftover mc v o r us' w' :
  sanitize_tx_data outs fee leftover mc v o (us, w) = (r, (us', w')) -> AllOrTaken (o_replace_by_fee o) us us'.
Proof.
  intros E. destruct (sanitize_state _ _ _ _ _ _ _ _ _ _ _ E) as [(-> & _)|(sats & w1 & sizes & rnd & sel0 & rem & _ & Er & Es & ->)]; [left; auto|].
  right. destruct (C36_submultiset _ _ _ _ _ _ _ _ _ _ _ (RO _ _ _ Er) Es) as (N & u & P). eauto.
Qed.

(** From the point where the coins are known. *)
Lemma create_leaves (RO : RandomOk WD) (own : bool) sg outputs fee leftover us o (s1 : @Wallet W) r s' :
  (if own then wl_unspents s1 else wl_caller s1) = us ->
  (return_address <~ ilift (if existsb u_is_segwit us then sg_segwit_address sg else rmap Some (sg_address sg)) ;;
   f <~ world (fee_or_cached fee) ;;
   ' (unspents, outputs) <~ run_sanitize own
      (sanitize_tx_data outputs f (match nonempty leftover with Some l => Some l | None => return_address end)
         0 (sg_version sg) o) ;;
   ilift (create_new_transaction sg unspents outputs)) s1 = (r, s') ->
  wl_balance s' = wl_balance s1 /\ wl_transactions s' = wl_transactions s1 /\
  (if own then wl_caller s' = wl_caller s1 /\ AllOrTaken (o_replace_by_fee o) us (wl_unspents s')
   else wl_unspents s' = wl_unspents s1 /\ AllOrTaken (o_replace_by_fee o) us (wl_caller s')).
Proof.
  intros L E. assert (R : AllOrTaken (o_replace_by_fee o) us us) by (left; auto).
  unfold ibind at 1, ilift at 1 in E.
  destruct (if existsb u_is_segwit us then _ else _) as [ra|x]. 2:{ injection E as <- <-. destruct own; subst us; auto. }
  unfold ibind at 1, world at 1, zoom at 1 in E. destruct (fee_or_cached fee (wl_world s1)) as [[f|x] w1].
  2:{ injection E as <- <-. destruct own; subst us; cbn; auto. }
  unfold ibind at 1, run_sanitize, zoom in E.
  destruct own; cbn [wl_unspents wl_caller wl_world set_world] in E; rewrite L in E;
    destruct (sanitize_tx_data outputs f _ 0 (sg_version sg) o (us, w1)) as [r2 [us' w']] eqn:Es;
    pose proof (sanitize_leaves RO _ _ _ _ _ _ _ _ _ _ _ Es) as Q;
    destruct r2 as [[sel outs]|x]; unfold ilift in E; injection E as <- <-; cbn; auto.
Qed.

Theorem C67_failed (RO : RandomOk WD) sg outputs fee leftover unspents o s e s' us s1 :
  create_transaction sg outputs fee leftover unspents o s = (Raise e, s') -> given unspents = false -> Available sg unspents s us s1 ->
  wl_balance s' = total (map u_amount us) /\ wl_transactions s' = wl_transactions s /\ wl_caller s' = wl_caller s /\
  (wl_unspents s' = us \/ exists taken unused, Permutation (taken ++ unused) us /\ taken <> [] /\
     wl_unspents s' = if o_replace_by_fee o then map opt_in_for_RBF taken else taken).
Proof.
  intros E G A. assert (N : nonempty unspents = None /\ get_unspents sg s = (Ok us, s1)) by (destruct unspents as [[|u r]|]; [auto|discriminate|auto]).
  destruct N as (N & A'). destruct (C53_fetched _ _ _ _ A') as (l1 & l2 & us1 & us2 & _ & _ & _ & _ & U & B & _ & T & C).
  unfold create_transaction in E. rewrite N in E. unfold ibind at 1 2 in E. rewrite A' in E. unfold iret at 1 in E.
  destruct (create_leaves RO true _ _ _ _ _ _ _ _ _ U E) as (B' & T' & C' & Q). rewrite B', T', C'. auto.
Qed.

Theorem C67_failed_given (RO : RandomOk WD) sg outputs fee leftover us o s e s' : us <> [] ->
  create_transaction sg outputs fee leftover (Some us) o s = (Raise e, s') ->
  wl_unspents s' = wl_unspents s /\ wl_balance s' = wl_balance s /\ wl_transactions s' = wl_transactions s /\
  (wl_caller s' = us \/ exists taken unused, Permutation (taken ++ unused) us /\ taken <> [] /\
     wl_caller s' = if o_replace_by_fee o then map opt_in_for_RBF taken else taken).
Proof.
  intros NE E. unfold create_transaction in E. destruct us as [|u r]; [contradiction|]. cbn [nonempty] in E.
  unfold ibind at 1 2, modify, ibind at 1, iget, iput in E. unfold iret at 1 in E.
  destruct (create_leaves RO false sg outputs fee leftover (u :: r) o (set_caller (u :: r) s) _ _ eq_refl E) as (B' & T' & C' & Q). rewrite B', T', C'. auto.
Qed.
End WithWorld.
Print Assumptions C67_failed.
Print Assumptions C67_failed_given.

(** Payments to the other network: refused, and the wallet's list has lost the coins not selected. *)
Definition create_toy_refused := @create_transaction toy _ _ toy_world (Single wkey) (wouts test_key) None None None (wopts false false) wallet0.
Definition create_toy_refused_given := @create_transaction toy _ _ toy_world (Single wkey) (wouts test_key) (Some 2) None (Some wcoins) (wopts false false) wallet0.
Example C67_failed_hypotheses : @RandomOk _ _ toy_world /\
  (exists s', create_toy_refused = (Raise ValueError, s') /\ wl_balance s' = 90000 /\ total (map u_amount (wl_unspents s')) = 40000) /\
  (exists s', create_toy_refused_given = (Raise ValueError, s') /\ length wcoins = 3%nat /\ length (wl_caller s') = 1%nat).
Proof.
  split; [apply toy_random_ok|].
  assert (G : (let r := create_toy_refused in match fst r with Raise ValueError => (wl_balance (snd r) =? 90000) && (total (map u_amount (wl_unspents (snd r))) =? 40000) | _ => false end) = true) by (vm_compute; reflexivity).
  assert (H : (let r := create_toy_refused_given in match fst r with Raise ValueError => (length (wl_caller (snd r)) =? 1)%nat | _ => false end) = true) by (vm_compute; reflexivity).
  revert G H. generalize create_toy_refused create_toy_refused_given. intros ([h|x] & s) ([h'|x'] & s') G H; try discriminate. cbn [fst snd] in *.
  destruct x; try discriminate. destruct x'; try discriminate. apply andb_true_iff in G as [G1 G2]. apply Z.eqb_eq in G1, G2. apply Nat.eqb_eq in H.
  split; [exists s; auto|]. exists s'. auto.
Qed.
