(** What the methods of keys and wallets call (for C76, C78). *)
From Coq Require Import String.
From Verif Require Import F_base M_app.

Section App.
Context {CR : Crypto} {E : Type} {OU : Outside E} {CH : Chance E} (rounds : nat).
Notation NW := (network (CR:=CR) (E:=E) rounds).
Notation Wal := (@Wallet (Net E)).

(** The methods of keys and multisig wallets that reach the
    network, by the network of the key or wallet. *)
Inductive MethodOf : net -> forall A, IO Wal A -> Prop :=
| M_unspents sg : MethodOf (sg_version sg) _ (@get_unspents CR _ _ NW sg)
| M_transactions sg : MethodOf (sg_version sg) _ (@M_wallet.get_transactions CR _ _ NW sg)
| M_create sg outputs fee leftover unspents o : MethodOf (sg_version sg) _ (@create_transaction CR _ _ NW sg outputs fee leftover unspents o)
| M_send sg outputs fee leftover unspents o : MethodOf (sg_version sg) _ (@send CR _ _ NW sg outputs fee leftover unspents o)
| M_sign sg data unspents : MethodOf (sg_version sg) _ (@sign_transaction CR _ _ NW sg data unspents)
| M_prepare cls address outputs fee leftover unspents o :
    MethodOf cls _ (zoom (fun s => (wl_caller s, wl_world s)) (fun '(u, w) s => set_world w (set_caller u s))
                (@prepare_transaction CR _ _ NW cls address outputs fee leftover unspents o))
| M_balance_as n currency : MethodOf n _ (balance_as currency)
| M_balance sg currency : MethodOf (sg_version sg) _ (key_get_balance rounds sg currency).
Definition Method A (m : IO Wal A) : Prop := exists n, MethodOf n A m.

(** A relation between the states before and after: it holds for a method if it
    holds for the calls that methods of keys of the network make. *)
Record Walk (n : net) (D : Net E -> Net E -> Prop) : Prop := {
  wk_refl : forall w, D w w;
  wk_trans : forall a b c, D a b -> D b c -> D a c;
  wk_convert : forall a c w, D w (snd (@w_convert _ _ NW a c w));
  wk_show : forall x c w, D w (snd (satoshi_to_currency_cached x c w));
  wk_fee : forall w, D w (snd (@w_fee _ _ NW w));
  wk_unspent : forall a w, D w (snd (@w_unspent _ _ NW n a w));
  wk_history : forall a w, D w (snd (@w_history _ _ NW n a w));
  wk_broadcast : forall t w, D w (snd (@w_broadcast _ _ NW n t w));
  wk_random : forall w, D w (snd (@w_random _ _ NW w))
}.
(** The same, where only amounts in some currencies are converted, and fees are
    asked for only if F. *)
Record WalkFor (n : net) (K : pystr -> Prop) (F : Prop) (D : Net E -> Net E -> Prop) : Prop := {
  wf_refl : forall w, D w w;
  wf_trans : forall a b c, D a b -> D b c -> D a c;
  wf_convert : forall a c, K c -> forall w, D w (snd (@w_convert _ _ NW a c w));
  wf_fee : F -> forall w, D w (snd (@w_fee _ _ NW w));
  wf_unspent : forall a w, D w (snd (@w_unspent _ _ NW n a w));
  wf_history : forall a w, D w (snd (@w_history _ _ NW n a w));
  wf_broadcast : forall t w, D w (snd (@w_broadcast _ _ NW n t w));
  wf_random : forall w, D w (snd (@w_random _ _ NW w))
}.
Lemma walk_for n D : Walk n D -> WalkFor n (fun _ => True) True D.
Proof. intros []. constructor; auto. Qed.

Section Walk.
Context (n : net) (K : pystr -> Prop) (F : Prop) (Does : Net E -> Net E -> Prop) (WK : WalkFor n K F Does).
Let does_refl := wf_refl _ _ _ _ WK.
Let does_trans := wf_trans _ _ _ _ WK.
(** What is asked for: the currencies of the outputs, and whether a fee is given. *)
Definition InK (outputs : list (pystr * pystr * pystr)) : Prop := Forall (fun o => K (snd o)) outputs.
Definition GivenOr (fee : option Z) : Prop := fee = None \/ fee = Some 0 -> F.

Definition Calls {A} (m : IO Wal A) : Prop := forall s, Does (wl_world s) (wl_world (snd (m s))).
Definition CallsW {A} (m : IO (Net E) A) : Prop := forall w, Does w (snd (m w)).
Definition CallsU {A} (m : IO (list Unspent * Net E) A) : Prop := forall s, Does (snd s) (snd (snd (m s))).

Lemma calls_bind {A B} (m : IO Wal A) (f : A -> IO Wal B) : Calls m -> (forall a, Calls (f a)) -> Calls (ibind m f).
Proof.
  intros H1 H2 s. unfold ibind. pose proof (H1 s) as D. destruct (m s) as [[a|x] s1]; [|exact D]. eapply does_trans; [exact D|apply H2].
Qed.
Lemma callsU_bind {A B} (m : IO (list Unspent * Net E) A) (f : A -> IO (list Unspent * Net E) B) : CallsU m -> (forall a, CallsU (f a)) -> CallsU (ibind m f).
Proof.
  intros H1 H2 s. unfold ibind. pose proof (H1 s) as D. destruct (m s) as [[a|x] s1]; [|exact D]. eapply does_trans; [exact D|apply H2].
Qed.
Lemma callsW_bind {A B} (m : IO (Net E) A) (f : A -> IO (Net E) B) : CallsW m -> (forall a, CallsW (f a)) -> CallsW (ibind m f).
Proof.
  intros H1 H2 s. unfold ibind. pose proof (H1 s) as D. destruct (m s) as [[a|x] s1]; [|exact D]. eapply does_trans; [exact D|apply H2].
Qed.
Lemma calls_lift {A} (r : result A) : Calls (ilift r). Proof. intros s. apply does_refl. Qed.
Lemma calls_ret {A} (a : A) : Calls (iret a). Proof. intros s. apply does_refl. Qed.
Lemma callsU_lift {A} (r : result A) : CallsU (ilift r). Proof. intros s. apply does_refl. Qed.
Lemma callsU_ret {A} (a : A) : CallsU (iret a). Proof. intros s. apply does_refl. Qed.
Lemma callsW_lift {A} (r : result A) : CallsW (ilift r). Proof. intros s. apply does_refl. Qed.
Lemma callsW_ret {A} (a : A) : CallsW (iret a). Proof. intros s. apply does_refl. Qed.
Lemma calls_world {A} (m : IO (Net E) A) : CallsW m -> Calls (world m).
Proof. intros H s. unfold world, zoom. specialize (H (wl_world s)). destruct (m (wl_world s)) as [r w]. exact H. Qed.
Lemma callsU_world {A} (m : IO (Net E) A) : CallsW m -> CallsU (zoom snd (fun w s => (fst s, w)) m).
Proof. intros H s. unfold zoom. specialize (H (snd s)). destruct (m (snd s)) as [r w]. exact H. Qed.
Lemma calls_modify f : (forall s, wl_world (f s) = wl_world s) -> Calls (modify f).
Proof. intros H s. cbn. rewrite H. apply does_refl. Qed.
Lemma calls_get : Calls iget. Proof. intros s. apply does_refl. Qed.
Lemma calls_try {A} (m : IO Wal A) h : Calls m -> (forall e, Calls (h e)) -> Calls (itry m h).
Proof.
  intros H1 H2 s. unfold itry. pose proof (H1 s) as D. destruct (m s) as [[a|x] s1]; [exact D|]. eapply does_trans; [exact D|apply H2].
Qed.

Lemma callsW_convert a c : K c -> CallsW (@w_convert _ _ NW a c). Proof. exact (wf_convert _ _ _ _ WK a c). Qed.
Lemma callsW_fee : F -> CallsW (@w_fee _ _ NW). Proof. exact (wf_fee _ _ _ _ WK). Qed.
Lemma callsW_unspent a : CallsW (@w_unspent _ _ NW n a). Proof. exact (wf_unspent _ _ _ _ WK a). Qed.
Lemma callsW_history a : CallsW (@w_history _ _ NW n a). Proof. exact (wf_history _ _ _ _ WK a). Qed.
Lemma callsW_broadcast a : CallsW (@w_broadcast _ _ NW n a). Proof. exact (wf_broadcast _ _ _ _ WK a). Qed.
Lemma callsW_random : CallsW (@w_random _ _ NW). Proof. exact (wf_random _ _ _ _ WK). Qed.
Lemma callsW_fee_or fee : GivenOr fee -> CallsW (@fee_or_cached _ _ NW fee).
Proof.
  unfold fee_or_cached, GivenOr. intros H. destruct fee as [f|]; [destruct (Z.eqb_spec f 0) as [->|]|]; auto using callsW_fee, callsW_ret.
Qed.

Lemma calls_unspents sg : sg_version sg = n -> Calls (@get_unspents CR _ _ NW sg).
Proof.
  intros EN. unfold get_unspents. rewrite EN. apply calls_bind; [apply calls_lift|]. intros ((t1 & v1) & (t2 & v2)).
  apply calls_bind; [apply calls_lift|]. intros a. apply calls_bind; [apply calls_world, callsW_unspent|]. intros l1.
  apply calls_bind; [apply calls_modify; auto|]. intros _. apply calls_bind; [apply calls_lift|]. intros seg.
  apply calls_bind.
  - destruct seg; [|apply calls_ret]. apply calls_bind; [apply calls_world, callsW_unspent|]. intros l2. apply calls_modify. auto.
  - intros _. apply calls_bind; [apply calls_modify; auto|]. intros _. apply calls_bind; [apply calls_get|]. intros. apply calls_ret.
Qed.
Lemma calls_transactions sg : sg_version sg = n -> Calls (@M_wallet.get_transactions CR _ _ NW sg).
Proof.
  intros EN. unfold M_wallet.get_transactions. rewrite EN.
  apply calls_bind; [apply calls_lift|]. intros a. apply calls_bind; [apply calls_world, callsW_history|]. intros l1.
  apply calls_bind; [apply calls_modify; auto|]. intros _. apply calls_bind; [apply calls_lift|]. intros seg.
  apply calls_bind.
  - destruct seg; [|apply calls_ret]. apply calls_bind; [apply calls_world, callsW_history|]. intros l2. apply calls_modify. auto.
  - intros _. apply calls_bind; [apply calls_get|]. intros. apply calls_ret.
Qed.
Lemma callsU_mapM {A B} (f : A -> IO (list Unspent * Net E) B) l : Forall (fun a => CallsU (f a)) l -> CallsU (imapM f l).
Proof.
  intros H. induction H; cbn [imapM]; [apply callsU_ret|]. apply callsU_bind; auto. intros b. apply callsU_bind; auto. intros. apply callsU_ret.
Qed.
Lemma callsU_get : CallsU iget. Proof. intros s. apply does_refl. Qed.
Lemma callsU_sanitize outputs fee leftover mc v o : InK outputs -> CallsU (@sanitize_tx_data CR _ _ NW outputs fee leftover mc v o).
Proof.
  intros HK. unfold sanitize_tx_data. apply callsU_bind.
  { apply callsU_mapM. eapply Forall_impl; [|exact HK]. intros ((a & amount) & currency) HC. cbn in HC. apply callsU_bind; [apply callsU_world, callsW_convert; exact HC|]. intros. apply callsU_ret. }
  intros outs. apply callsU_bind; [apply callsU_get|]. intros s. destruct (fst s); [apply callsU_lift|].
  do 3 (apply callsU_bind; [apply callsU_lift|]; intro). apply callsU_bind; [apply callsU_world, callsW_random|]. intros rnd.
  apply callsU_bind; [apply callsU_lift|]. intros (sel & rem).
  intros s1. unfold ibind at 1, iget. unfold ibind at 1, iput.
  assert (R : forall u, snd (u : list Unspent, snd s1) = snd s1) by reflexivity.
  match goal with |- Does _ (snd (snd (?m (?u, snd s1)))) => change (snd s1) with (snd (u, snd s1)) at 1; generalize (u, snd s1); enough (C : CallsU m) by exact C end.
  apply callsU_bind.
  { destruct (rem >? 0); [destruct leftover; [apply callsU_ret|apply callsU_lift]|apply callsU_ret]. }
  intros outs2. apply callsU_bind; [apply callsU_lift|]. intros. apply callsU_ret.
Qed.
Lemma calls_run_sanitize own m : CallsU m -> Calls (run_sanitize own m).
Proof.
  intros H s. unfold run_sanitize, zoom. destruct own.
  - specialize (H (wl_unspents s, wl_world s)). destruct (m (wl_unspents s, wl_world s)) as [r [u w]]. exact H.
  - specialize (H (wl_caller s, wl_world s)). destruct (m (wl_caller s, wl_world s)) as [r [u w]]. exact H.
Qed.
Lemma calls_create sg outputs fee leftover unspents o : sg_version sg = n -> InK outputs -> GivenOr fee -> Calls (@create_transaction CR _ _ NW sg outputs fee leftover unspents o).
Proof.
  intros EN HK HF. unfold create_transaction. apply calls_bind.
  { destruct (nonempty unspents); (apply calls_bind; [|intros; apply calls_ret]); [apply calls_modify; auto|apply calls_unspents; auto]. }
  intros (own & us). apply calls_bind; [apply calls_lift|]. intros back. apply calls_bind; [apply calls_world, callsW_fee_or; exact HF|]. intros f.
  apply calls_bind; [apply calls_run_sanitize, callsU_sanitize; exact HK|]. intros (us2 & outs). apply calls_lift.
Qed.
Lemma calls_send sg outputs fee leftover unspents o : sg_version sg = n -> InK outputs -> GivenOr fee -> Calls (@send CR _ _ NW sg outputs fee leftover unspents o).
Proof.
  intros EN HK HF. unfold send. rewrite EN. apply calls_bind; [apply calls_create; auto|]. intros h. apply calls_bind; [apply calls_world, callsW_broadcast|]. intros. apply calls_lift.
Qed.
Lemma calls_sign sg data unspents : sg_version sg = n -> Calls (@sign_transaction CR _ _ NW sg data unspents).
Proof.
  intros EN. assert (SE : forall us, Calls (us <~ (match nonempty us with Some us => iret us | None => @get_unspents CR _ _ NW sg end) ;;
    tx <~ ilift (match data with Text s => deserialize_hex s | Json _ _ => Raise ValueError end) ;; ilift (sign_tx sg tx us))).
  { intros us. apply calls_bind; [destruct (nonempty us); [apply calls_ret|apply calls_unspents; auto]|]. intros us2.
    apply calls_bind; [apply calls_lift|]. intros. apply calls_lift. }
  unfold sign_transaction. cbv zeta.
  destruct data; [|apply SE]. destruct unspents; [apply SE|]. apply calls_try; [apply calls_lift|]. intros. apply SE.
Qed.
Lemma callsU_prepare address outputs fee leftover unspents o : InK outputs -> GivenOr fee -> CallsU (@prepare_transaction CR _ _ NW n address outputs fee leftover unspents o).
Proof.
  intros HK HF. unfold prepare_transaction. apply callsU_bind.
  { destruct (nonempty unspents); [apply callsU_ret|apply callsU_world, callsW_unspent]. }
  intros us s1. unfold ibind at 1, iget. unfold ibind at 1, iput.
  match goal with |- Does _ (snd (snd (?m (?u, snd s1)))) => change (snd s1) with (snd (u, snd s1)) at 1; generalize (u, snd s1); enough (C : CallsU m) by exact C end.
  apply callsU_bind; [apply callsU_world, callsW_fee_or; exact HF|]. intros f. apply callsU_bind; [apply callsU_sanitize; exact HK|]. intros (us2 & outs).
  apply callsU_bind; [apply callsU_lift|]. intros. apply callsU_ret.
Qed.
End Walk.
Lemma calls_balance_as n D currency : Walk n D -> Calls D (balance_as (E:=E) currency).
Proof.
  intros WK. unfold balance_as. eapply calls_bind; [apply walk_for; exact WK|eapply calls_get; apply walk_for; exact WK|]. intros s. apply calls_world. intros w.
  apply (wk_show _ _ WK).
Qed.
Lemma method_walk n A m D : MethodOf n A m -> Walk n D -> forall s, D (wl_world s) (wl_world (snd (m s))).
Proof.
  intros M WK. pose proof (walk_for n D WK) as WF.
  assert (ALL : forall outputs, InK (fun _ => True) outputs) by (intros l; apply Forall_forall; auto).
  assert (FEE : forall fee, GivenOr True fee) by (intros fee _; exact I).
  change (Calls D m). destruct M; eauto using calls_unspents, calls_transactions, calls_create, calls_send, calls_sign, calls_balance_as.
  - intros s. unfold zoom. pose proof (callsU_prepare cls _ _ D WF address outputs fee leftover unspents o (ALL outputs) (FEE fee) (wl_caller s, wl_world s)) as H.
    destruct (prepare_transaction cls address outputs fee leftover unspents o (wl_caller s, wl_world s)) as [r [u w]]. exact H.
  - unfold key_get_balance. eapply calls_bind; [exact WF|eapply calls_unspents; eauto|]. intros. eapply calls_balance_as; exact WK.
Qed.
End App.
