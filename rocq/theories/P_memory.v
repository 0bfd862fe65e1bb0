(** C109: wallet objects have no memory of their own. *)
From Coq Require Import String.
From Verif Require Import F_base M_app F_app X_toy X_world X_net P_wallet P_app.

(** ** Programs that call methods of many objects *)
Section App.
Context {CR : Crypto} {E : Type} {OU : Outside E} {CH : Chance E} (rounds : nat).
Notation NW := (network (CR:=CR) (E:=E) rounds).
Notation Wal := (@Wallet (Net E)).

(** Calls of the methods of a key or wallet, but for those that only show an
    attribute *)
Inductive CallOf (sg : signer) : forall A, IO Wal A -> Prop :=
| A_unspents : CallOf sg _ (@get_unspents CR _ _ NW sg)
| A_transactions : CallOf sg _ (@M_wallet.get_transactions CR _ _ NW sg)
| A_balance currency : CallOf sg _ (key_get_balance rounds sg currency)
| A_create outputs fee leftover unspents o : CallOf sg _ (@create_transaction CR _ _ NW sg outputs fee leftover unspents o)
| A_send outputs fee leftover unspents o : CallOf sg _ (@send CR _ _ NW sg outputs fee leftover unspents o)
| A_sign data unspents : CallOf sg _ (@sign_transaction CR _ _ NW sg data unspents).

(** A program: what it does next may depend on all results and exceptions so
    far.  A call is made on the object with some number. *)
Inductive program (R : Type) : Type :=
| Done (r : R)
| Call (object : nat) {A : Type} (m : signer -> IO Wal A) (next : result A -> program R).
Arguments Done {R}. Arguments Call {R} object {A}.
Fixpoint Calls {R} (p : program R) : Prop :=
  match p with
  | Done _ => True
  | Call _ m next => (forall sg, CallOf sg _ (m sg)) /\ forall r, Calls (next r)
  end.

(** Attributes of an object: all but the world *)
Definition attributes : Type := Z * list Unspent * list pystr * list Unspent.
Definition object_in (w : Net E) (a : attributes) : Wal := let '(b, u, t, c) := a in mkWallet w b u t c.
Definition attributes_of (s : Wal) : attributes := (wl_balance s, wl_unspents s, wl_transactions s, wl_caller s).
(** A new object *)
Definition new_object : attributes := (0, [], [], []).

(** The program run on objects that keep their attributes; object [i] belongs
    to the key or wallet [keys i]. *)
Fixpoint run_kept {R} (keys : nat -> signer) (p : program R) (objects : nat -> attributes) (w : Net E) : R * Net E :=
  match p with
  | Done r => (r, w)
  | Call i m next =>
      let '(r, s) := m (keys i) (object_in w (objects i)) in
      run_kept keys (next r) (fun j => if Nat.eqb j i then attributes_of s else objects j) (wl_world s)
  end.
(** The program run with a new object for every call *)
Fixpoint run_new {R} (keys : nat -> signer) (p : program R) (w : Net E) : R * Net E :=
  match p with
  | Done r => (r, w)
  | Call i m next => let '(r, s) := m (keys i) (object_in w new_object) in run_new keys (next r) (wl_world s)
  end.

(** The program with other objects *)
Fixpoint rename {R} (name : nat -> nat) (p : program R) : program R :=
  match p with Done r => Done r | Call i m next => Call (name i) m (fun r => rename name (next r)) end.

(** ** Proofs *)
Definition Alike {A} (x y : result A * Wal) : Prop := fst x = fst y /\ wl_world (snd x) = wl_world (snd y).

Lemma get_alike sg s t : wl_world s = wl_world t ->
  Alike (@get_unspents CR _ _ NW sg s) (@get_unspents CR _ _ NW sg t) /\
  forall us, fst (@get_unspents CR _ _ NW sg s) = Ok us ->
    wl_unspents (snd (@get_unspents CR _ _ NW sg s)) = us /\ wl_unspents (snd (@get_unspents CR _ _ NW sg t)) = us /\
    wl_balance (snd (@get_unspents CR _ _ NW sg s)) = wl_balance (snd (@get_unspents CR _ _ NW sg t)).
Proof.
  intros W. unfold get_unspents, Alike, ibind, ilift, world, zoom, modify, iget, iput, iret.
  destruct (coin_types sg) as [[[t1 v1] [t2 v2]]|]; [|cbn; split; [auto|discriminate]].
  destruct (sg_address sg); [|cbn; split; [auto|discriminate]]. rewrite W.
  destruct (w_unspent _ _ _) as [[l1|] w1]; [|cbn; split; [auto|discriminate]].
  destruct (sg_segwit_address sg) as [[sa|]|]; cbn -[w_unspent]; [|split; [auto|intros us [= <-]; auto]|split; [auto|discriminate]].
  destruct (w_unspent _ _ _) as [[l2|] w2]; cbn; (split; [auto|]); [intros us [= <-]; auto|discriminate].
Qed.
Lemma history_alike sg s t : wl_world s = wl_world t -> Alike (@M_wallet.get_transactions CR _ _ NW sg s) (@M_wallet.get_transactions CR _ _ NW sg t).
Proof.
  intros W. unfold M_wallet.get_transactions, Alike, ibind, ilift, world, zoom, modify, iget, iput, iret.
  destruct (sg_address sg); [|cbn; auto]. rewrite W.
  destruct (w_history _ _ _) as [[l1|] w1]; [|cbn; auto].
  destruct (sg_segwit_address sg) as [[sa|]|]; cbn -[w_history]; auto.
  destruct (w_history _ _ _) as [[l2|] w2]; cbn; auto.
Qed.
Lemma bind_alike {A B} (m : IO Wal A) (f : A -> IO Wal B) s t :
  Alike (m s) (m t) -> (forall a, m s = (Ok a, snd (m s)) -> Alike (f a (snd (m s))) (f a (snd (m t)))) -> Alike (ibind m f s) (ibind m f t).
Proof. unfold Alike, ibind. destruct (m s) as [[a|] s'], (m t) as [[b|] t']; cbn; intros [H1 H2] H; try discriminate; injection H1 as <-; auto. Qed.
Lemma world_alike {A} (m : IO (Net E) A) s t : wl_world s = wl_world t -> Alike (world m s) (world m t).
Proof. intros W. unfold world, zoom, Alike. rewrite W. destruct (m (wl_world t)). cbn. auto. Qed.
Lemma lift_alike {A} (r : result A) (s t : Wal) : wl_world s = wl_world t -> Alike (ilift r s) (ilift r t).
Proof. intros W. split; auto. Qed.
Lemma create_alike sg outputs fee leftover unspents o s t : wl_world s = wl_world t ->
  Alike (@create_transaction CR _ _ NW sg outputs fee leftover unspents o s) (@create_transaction CR _ _ NW sg outputs fee leftover unspents o t).
Proof.
  intros W. unfold create_transaction.
  assert (Tail : forall own us s t, wl_world s = wl_world t -> (if own : bool then wl_unspents s = wl_unspents t else wl_caller s = wl_caller t) ->
     forall g : IO Wal pystr, g = (return_address <~ ilift (if existsb u_is_segwit us then sg_segwit_address sg else rmap Some (sg_address sg)) ;;
        f <~ world (@fee_or_cached _ _ NW fee) ;;
        ' (unspents, outputs) <~ run_sanitize own
          (@sanitize_tx_data CR _ _ NW outputs f (match nonempty leftover with Some l => Some l | None => return_address end) 0 (sg_version sg) o) ;;
        ilift (create_new_transaction sg unspents outputs)) -> Alike (g s) (g t)).
  { clear. intros own us s t W U g ->. unfold ibind, ilift, world, run_sanitize, zoom. destruct (if existsb u_is_segwit us then _ else _) as [ra|]; [|split; cbn; auto].
    rewrite W. destruct (fee_or_cached fee (wl_world t)) as [[f|] w]; [|split; reflexivity].
    destruct own; cbn [wl_unspents wl_world wl_caller set_world]; rewrite U;
    destruct (sanitize_tx_data _ _ _ _ _ _ _) as [[[u' o']|] [u'' w']]; split; reflexivity. }
  destruct (nonempty unspents) as [us|].
  - apply (Tail false us (set_caller us s) (set_caller us t)); [exact W|reflexivity|reflexivity].
  - destruct (get_alike sg s t W) as [[H1 H2] H3].
    match goal with |- Alike (ibind _ ?k s) _ => change (Alike (ibind (ibind (@get_unspents CR _ _ NW sg) (fun us => iret (true, us))) k s) (ibind (ibind (@get_unspents CR _ _ NW sg) (fun us => iret (true, us))) k t)); set (cont := k) end.
    unfold ibind. destruct (get_unspents sg s) as [[us|e] s1], (get_unspents sg t) as [[us'|e'] t1]; cbn [fst snd] in *; try discriminate.
    + injection H1 as <-. destruct (H3 us eq_refl) as (U1 & U2 & _). apply (Tail true us s1 t1); [exact H2|congruence|reflexivity].
    + injection H1 as <-. split; auto.
Qed.
Lemma call_alike sg A (m : IO Wal A) : CallOf sg A m -> forall s t, wl_world s = wl_world t -> Alike (m s) (m t).
Proof.
  intros [| |currency|outputs fee leftover unspents o|outputs fee leftover unspents o|data unspents] s t W.
  - apply get_alike; auto.
  - apply history_alike; auto.
  - destruct (get_alike sg s t W) as [H1 H3]. unfold key_get_balance. apply bind_alike; auto. intros us EU. destruct H1 as [_ H2].
    destruct (H3 us ltac:(rewrite EU; reflexivity)) as (_ & _ & B). unfold balance_as, ibind, iget. rewrite B. apply world_alike; auto.
  - apply create_alike; auto.
  - unfold send. pose proof (create_alike sg outputs fee leftover unspents o s t W) as H. apply bind_alike; auto. intros h _.
    destruct H as [_ H]. pose proof (@world_alike _ (@w_broadcast _ _ NW (sg_version sg) h) _ _ H) as H'. apply bind_alike; auto. intros x _. apply lift_alike, H'.
  - assert (Second : forall us, Alike (ibind (match nonempty us with Some us => iret us | None => @get_unspents CR _ _ NW sg end)
        (fun us => tx <~ ilift (match data with Text s => deserialize_hex s | Json _ _ => Raise ValueError end) ;; ilift (sign_tx sg tx us)) s)
       (ibind (match nonempty us with Some us => iret us | None => @get_unspents CR _ _ NW sg end)
        (fun us => tx <~ ilift (match data with Text s => deserialize_hex s | Json _ _ => Raise ValueError end) ;; ilift (sign_tx sg tx us)) t)).
    { intros us. assert (H : Alike ((match nonempty us with Some us => iret us | None => @get_unspents CR _ _ NW sg end) s) ((match nonempty us with Some us => iret us | None => @get_unspents CR _ _ NW sg end) t)).
      { destruct (nonempty us); [split; auto|apply get_alike; auto]. }
      apply bind_alike; auto. intros us' _. destruct H as [_ H]. apply bind_alike; [apply lift_alike; auto|]. intros tx _. apply lift_alike; auto. }
    unfold sign_transaction. destruct data as [us outs|d]; [|apply Second]. destruct unspents; [apply Second|]. unfold itry, ilift at 1 4.
    destruct (create_new_transaction _ _ _); [split; auto|apply (Second (Some _))].
Qed.

(** ** C109 *)
(** What a method returns or raises, and what it does in the world, depends on
    the key, the arguments and the world only. *)
Theorem C109_method sg A m : CallOf sg A m -> forall w a b,
  fst (m (object_in w a)) = fst (m (object_in w b)) /\ wl_world (snd (m (object_in w a))) = wl_world (snd (m (object_in w b))).
Proof. intros C w [[[? ?] ?] ?] [[[? ?] ?] ?]. apply (call_alike sg A m C). reflexivity. Qed.

(** So it makes no difference whether a program works with one object for each
    key, with many, or with a new one for each call; objects may have been used
    before in any way, and calls may have failed. *)
Theorem C109_program R (p : program R) keys objects w : Calls p -> run_kept keys p objects w = run_new keys p w.
Proof.
  revert objects w. induction p as [r|i A m next IH]; intros objects w H; [reflexivity|]. cbn [run_kept run_new Calls] in *. destruct H as [C N].
  destruct (C109_method (keys i) A (m (keys i)) (C _) w (objects i) new_object) as [H1 H2].
  destruct (m (keys i) (object_in w (objects i))) as [r1 s1], (m (keys i) (object_in w new_object)) as [r2 s2]. cbn [fst snd] in *. subst r2. rewrite <- H2. apply IH. auto.
Qed.
(** Objects may be replaced by others of the same keys. *)
Theorem C109_objects R (p : program R) keys keys' name objects objects' w : Calls p -> (forall i, keys' (name i) = keys i) ->
  run_kept keys p objects w = run_kept keys' (rename name p) objects' w.
Proof.
  intros C K. rewrite !C109_program; auto.
  - revert w C. induction p as [r|i A m next IH]; intros w C; [reflexivity|]. cbn [run_new Calls rename] in *. rewrite K. destruct (m (keys i) (object_in w new_object)) as [r s]. apply IH, C.
  - clear - C. induction p as [r|i A m next IH]; [exact I|]. cbn in *. destruct C. split; auto.
Qed.
End App.
Print Assumptions C109_method.
Print Assumptions C109_program.
Print Assumptions C109_objects.


(** ** A program: a payment that is too high fails, then the wallet of several
    keys is asked for its coins, then the balance is read *)
Notation tnet := (@network toy Town town town_chance 5).
Definition too_much : list (pystr * pystr * pystr) := [(addr_of other_key, str "1", str "btc")].
Definition some_program : @program Town (result pystr * result (list Unspent) * result pystr) :=
  Call _ 0 (fun sg => @send toy _ _ tnet sg too_much (Some 2) None None (wopts true true)) (fun r1 =>
  Call _ 1 (fun sg => @get_unspents toy _ _ tnet sg) (fun r2 =>
  Call _ 0 (fun sg => @key_get_balance toy Town town town_chance 5 sg (str "btc")) (fun r3 => Done _ (r1, r2, r3)))).
Definition two_keys (i : nat) : @signer := match i with O => Single wkey | _ => Multi town_ms end.
Example C109_case objects : @Calls toy Town town town_chance 5 _ some_program /\
  exists us, fst (@run_kept Town _ two_keys some_program objects town_state) = (Raise InsufficientFunds, Ok us, Ok (str "0.0009")) /\ us <> [].
Proof.
  assert (C : @Calls toy Town town town_chance 5 _ some_program).
  { cbn [Calls some_program]. repeat (split || intros); try exact I; constructor. }
  split; [exact C|]. rewrite (@C109_program toy Town town town_chance 5 _ some_program two_keys objects town_state C).
  assert (G : (match fst (@run_new Town _ two_keys some_program town_state) with (Raise InsufficientFunds, Ok (_ :: _), Ok t) => list_eqb t (str "0.0009") | _ => false end) = true)
    by (vm_compute; reflexivity).
  revert G. generalize (fst (@run_new Town _ two_keys some_program town_state)). intros [[r1 r2] r3] G.
  destruct r1 as [|[]]; try discriminate. destruct r2 as [[|u us]|]; try discriminate. destruct r3; try discriminate. apply list_eqb_eq in G. subst.
  exists (u :: us). split; [reflexivity|discriminate].
Qed.

(** ** balance_as shows what this object last saw: objects of one key differ. *)
Theorem C109_balance_as_refuted : exists (s : @Wallet (Net Town)),
  (exists us, @get_unspents toy _ _ tnet (Single wkey) town_wallet = (Ok us, s)) /\
  fst (@balance_as Town town (str "satoshi") s) = Ok (str "90000") /\
  fst (@balance_as Town town (str "satoshi") (object_in (wl_world s) new_object)) = Ok (str "0").
Proof.
  assert (G : (match @get_unspents toy _ _ tnet (Single wkey) town_wallet with
               | (Ok _, s) => match fst (@balance_as Town town (str "satoshi") s), fst (@balance_as Town town (str "satoshi") (object_in (wl_world s) new_object)) with
                              | Ok a, Ok b => list_eqb a (str "90000") && list_eqb b (str "0") | _, _ => false end
               | _ => false end)%bool = true) by (vm_compute; reflexivity).
  revert G. generalize (@get_unspents toy _ _ tnet (Single wkey) town_wallet). intros [[us|] s] G; [|discriminate]. exists s. split; [eauto|].
  destruct (fst (balance_as _ s)); [|discriminate]. destruct (fst (balance_as _ _)); [|discriminate]. apply andb_true_iff in G as [G1 G2].
  apply list_eqb_eq in G1, G2. subst. auto.
Qed.
Print Assumptions C109_balance_as_refuted.
