(** What calls leave alone. *)
From Verif Require Import M_services M_fees S_History.

Section WithOutside.
Context {CR : Crypto} {E : Type} {OU : Outside E}.

(** m does not touch the state of the process. *)
Definition Frame {A} (m : IO (Net E) A) : Prop := forall s, n_globals (snd (m s)) = n_globals s.

Lemma Frame_ret {A} (a : A) : Frame (iret a).
Proof. intros s. reflexivity. Qed.
Lemma Frame_lift {A} (r : result A) : Frame (ilift r).
Proof. intros s. reflexivity. Qed.
Lemma Frame_globals : Frame globals.
Proof. intros s. reflexivity. Qed.
Lemma Frame_outside {A} (m : IO E A) : Frame (outside m).
Proof. intros s. unfold outside, zoom. destruct (m (n_outside s)). reflexivity. Qed.
Lemma Frame_get url ps : Frame (http_get url ps).
Proof. intros s. apply Frame_outside. Qed.
Lemma Frame_post url ps : Frame (http_post url ps).
Proof. intros s. apply Frame_outside. Qed.
Lemma Frame_bind {A B} (m : IO (Net E) A) (f : A -> IO (Net E) B) : Frame m -> (forall a, Frame (f a)) -> Frame (ibind m f).
Proof.
  intros Hm Hf s. unfold ibind. specialize (Hm s). destruct (m s) as [[a|e] s']; cbn [snd] in *; [|auto]. rewrite Hf. auto.
Qed.
Lemma Frame_try {A} (m : IO (Net E) A) h : Frame m -> (forall e, Frame (h e)) -> Frame (itry m h).
Proof.
  intros Hm Hf s. unfold itry. specialize (Hm s). destruct (m s) as [[a|e] s']; cbn [snd] in *; [auto|]. rewrite Hf. auto.
Qed.
End WithOutside.

Ltac frame :=
  repeat lazymatch goal with
  | |- Frame (ibind _ _) => apply Frame_bind; [|intros ?]
  | |- Frame (itry _ _) => apply Frame_try; [|intros ?]
  | |- Frame (ilift _) => apply Frame_lift
  | |- Frame (iret _) => apply Frame_ret
  | |- Frame globals => apply Frame_globals
  | |- Frame (outside _) => apply Frame_outside
  | |- Frame (http_get _ _) => apply Frame_get
  | |- Frame (http_post _ _) => apply Frame_post
  | |- Frame (get_untimed _) => apply Frame_outside
  | |- Frame (match ?x with _ => _ end) => destruct x
  | |- Frame (let _ := _ in _) => cbv zeta
  end.

Section WithOutside.
Context {CR : Crypto} {E : Type} {OU : Outside E} (rounds : nat).

Lemma Frame_first {A} ign (calls : list (IO (Net E) A)) : Forall Frame calls -> Frame (first_working ign calls).
Proof. induction 1 as [|c r Hc _ IH]; cbn [first_working]; frame; auto. Qed.
Lemma Frame_rpc url m args : Frame (rpc (E:=E) url m args).
Proof. unfold rpc. frame. Qed.
Lemma Frame_push url p : Frame (push (E:=E) url p).
Proof. unfold push. frame. Qed.
Lemma Frame_rate cur : Frame (exchange_rate (E:=E) cur).
Proof.
  unfold exchange_rate. frame. apply Frame_first. repeat constructor; [unfold bitpay_rate|unfold blockchain_rate]; frame.
Qed.
Lemma Frame_to_satoshi a c : Frame (currency_to_satoshi (E:=E) a c).
Proof. unfold currency_to_satoshi. frame. apply Frame_rate. Qed.
Lemma Frame_from_satoshi a c : Frame (satoshi_to_currency (E:=E) a c).
Proof. unfold satoshi_to_currency. frame. apply Frame_rate. Qed.
Lemma Frame_fee f : Frame (get_fee (E:=E) f).
Proof. unfold get_fee. frame. Qed.

Lemma Frame_blockchair_pages {A} k items url a : forall o r acc, Frame (@blockchair_pages E OU A k items url a o r acc).
Proof. induction k; intros; cbn [blockchair_pages]; frame. auto. Qed.
Lemma Frame_blockstream_pages k n a : forall r acc, Frame (blockstream_pages (E:=E) k n a r acc).
Proof. induction k; intros; cbn [blockstream_pages]; frame. auto. Qed.
Lemma Frame_bitcore_pages k url : forall r acc, Frame (bitcore_pages (E:=E) k url r acc).
Proof. induction k; intros; cbn [bitcore_pages]; frame. auto. Qed.
Lemma Frame_smartbit_pages {A} k page ps : forall l acc, Frame (@smartbit_pages E OU A k page ps l acc).
Proof. induction k; intros; cbn [smartbit_pages]; frame. auto. Qed.
Lemma Frame_blockchain_pages k url : forall o r acc, Frame (blockchain_pages (E:=E) k url o r acc).
Proof. induction k; intros; cbn [blockchain_pages]; frame. auto. Qed.

Lemma Frame_call_transactions n a s : Frame (call_transactions (E:=E) rounds n a s).
Proof.
  destruct s, n; cbn [call_transactions]; try apply Frame_lift; unfold node_transactions, blockchair_transactions, blockstream_transactions, smartbit_transactions, blockchain_transactions;
    frame; auto using Frame_rpc, Frame_blockchair_pages, Frame_blockstream_pages, Frame_smartbit_pages, Frame_blockchain_pages.
Qed.
Lemma Frame_call_by_id n a s : Frame (call_by_id (E:=E) n a s).
Proof.
  destruct s, n; cbn [call_by_id]; try apply Frame_lift; unfold node_by_id, blockchair_by_id, blockstream_by_id, smartbit_by_id, blockchain_by_id;
    frame; auto using Frame_rpc.
Qed.
Lemma Frame_call_unspent n a s : Frame (call_unspent (E:=E) rounds n a s).
Proof.
  destruct s, n; cbn [call_unspent]; try apply Frame_lift; unfold node_unspent, blockchair_unspent, blockstream_unspent, bitcore_unspent, smartbit_unspent, blockchain_unspent;
    frame; auto using Frame_rpc, Frame_blockchair_pages, Frame_bitcore_pages, Frame_smartbit_pages.
Qed.
Lemma Frame_call_broadcast n a s : Frame (call_broadcast (E:=E) n a s).
Proof.
  destruct s, n; cbn [call_broadcast]; try apply Frame_lift; unfold node_broadcast, blockchair_broadcast, blockstream_broadcast, bitcore_broadcast, smartbit_broadcast, blockchain_broadcast;
    frame; auto using Frame_rpc, Frame_push.
Qed.
Lemma Frame_broadcast_loop (calls : list (IO (Net E) bool)) : Forall Frame calls -> Frame (broadcast_loop calls).
Proof. induction 1 as [|c r Hc _ IH]; cbn [broadcast_loop]; frame; auto. Qed.
Lemma Forall_map_all {A B} (P : B -> Prop) (f : A -> B) l : (forall a, P (f a)) -> Forall P (map f l).
Proof. intros H. induction l; cbn; auto. Qed.

Lemma Frame_get_transactions n a : Frame (get_transactions (E:=E) rounds n a).
Proof. unfold get_transactions. frame. apply Frame_first, Forall_map_all. intros s. apply Frame_call_transactions. Qed.
Lemma Frame_get_by_id n a : Frame (get_transaction_by_id (E:=E) n a).
Proof. unfold get_transaction_by_id. frame. apply Frame_first, Forall_map_all. intros s. apply Frame_call_by_id. Qed.
Lemma Frame_get_unspent n a : Frame (get_unspent (E:=E) rounds n a).
Proof. unfold get_unspent. frame. apply Frame_first, Forall_map_all. intros s. apply Frame_call_unspent. Qed.
Lemma Frame_broadcast n a : Frame (broadcast_tx (E:=E) n a).
Proof. unfold broadcast_tx. frame. apply Frame_broadcast_loop, Forall_map_all. intros s. apply Frame_call_broadcast. Qed.

(** Asking for a balance may change the precision, and nothing else. *)
Lemma Frame_call_balance n a s : (forall url, s <> Node url) -> Frame (call_balance (E:=E) n a s).
Proof.
  intros H. destruct s, n; cbn [call_balance]; try apply Frame_lift; unfold blockchair_balance, blockstream_balance, bitcore_balance, smartbit_balance, blockchain_balance;
    frame; exfalso; eapply H; reflexivity.
Qed.
Lemma node_balance_prec url a (s : Net E) : n_globals (snd (node_balance url a s)) = set_prec 9 (n_globals s).
Proof.
  unfold node_balance. unfold ibind at 1. unfold modify_globals, ibind at 1, iget, iput. change (ndigits BTC) with 9.
  match goal with |- n_globals (snd (?m ?s)) = _ => assert (F : Frame m) by (frame; apply Frame_rpc); rewrite (F s) end. reflexivity.
Qed.
Lemma balance_prec n a : forall l (s : Net E), let g := n_globals (snd (first_working net_ignored (map (call_balance n a) l) s)) in
  g = n_globals s \/ (g = set_prec 9 (n_globals s) /\ exists url, In (Node url) l).
Proof.
  induction l as [|sv l IH]; intros s g; subst g; cbn [map first_working]; [left; reflexivity|]. unfold itry.
  destruct (call_balance n a sv s) as [r s1] eqn:EC. assert (G1 : n_globals s1 = n_globals s \/ (n_globals s1 = set_prec 9 (n_globals s) /\ exists url, sv = Node url)).
  { destruct (match sv with Node _ => true | _ => false end) eqn:N.
    - destruct sv as [| | | | |url]; try discriminate. right. split; eauto. cbn [call_balance] in EC. pose proof (node_balance_prec url a s) as P. destruct n; rewrite EC in P; exact P.
    - left. pose proof (Frame_call_balance n a sv) as F. specialize (F ltac:(intros url ->; discriminate) s). rewrite EC in F. exact F. }
  destruct r as [b|e].
  - cbn [snd]. destruct G1 as [G1|(G1 & url & ->)]; [left; auto|right; split; auto; exists url; left; auto].
  - destruct (net_ignored e).
    + specialize (IH s1). cbv zeta in IH. destruct IH as [IH|(IH & url & IN)]; rewrite IH.
      * destruct G1 as [G1|(G1 & url & ->)]; [left; auto|right; split; auto; exists url; left; auto].
      * right. split; [|exists url; right; auto]. destruct G1 as [->|(-> & _)]; reflexivity.
    + cbn [ilift snd]. destruct G1 as [G1|(G1 & url & ->)]; [left; auto|right; split; auto; exists url; left; auto].
Qed.
Lemma get_balance_prec n a (s : Net E) : let g := n_globals (snd (get_balance n a s)) in
  g = n_globals s \/ (g = set_prec 9 (n_globals s) /\ exists url, In (Node url) (a_balance (apis n (n_globals s)))).
Proof. apply (balance_prec n a (a_balance (apis n (n_globals s))) s). Qed.
End WithOutside.
