(** C89, continued: wallets and Python's recursion limit. *)
From Coq Require Import String Permutation.
From Verif Require Import F_select F_wallet P_select P_outputs P_wallet M_depth P_depth X_toy X_world.

Lemma bnb_either bits overhead target fee rest : forall room selected ev s,
  branch_and_bound_in room bits overhead target fee rest selected ev s = None \/
  branch_and_bound_in room bits overhead target fee rest selected ev s = Some (branch_and_bound bits overhead target fee rest selected ev s).
Proof.
  induction rest as [|u rest IH]; intros [|room] selected ev s; try (left; reflexivity); cbn [branch_and_bound_in branch_and_bound]; cbv zeta;
    (destruct (_ >? _); [right; reflexivity|]; destruct (_ >=? _); [right; reflexivity|]; destruct (_ <=? _); [right; reflexivity|]); [right; reflexivity|].
  destruct (bits _).
  - match goal with |- context [branch_and_bound_in room bits overhead target fee rest (selected ++ [u]) ?e ?t] => destruct (IH room (selected ++ [u]) e t) as [-> | ->] end; [left; reflexivity|].
    destruct (branch_and_bound _ _ _ _ rest (selected ++ [u]) _ _) as [[|v w] s']; [apply IH|right; reflexivity].
  - match goal with |- context [branch_and_bound_in room bits overhead target fee rest selected ?e ?t] => destruct (IH room selected e t) as [-> | ->] end; [left; reflexivity|].
    destruct (branch_and_bound _ _ _ _ rest selected _ _) as [[|v w] s']; [apply IH|right; reflexivity].
Qed.

(** However little room there is, the coins selected are those that would be
    selected without a limit, or there is an exception. *)
Theorem C89_either room bits shuffle target fee outs min_change absolute consolidate unspents :
  select_coins_in room bits shuffle target fee outs min_change absolute consolidate unspents = None \/
  select_coins_in room bits shuffle target fee outs min_change absolute consolidate unspents =
  Some (select_coins bits shuffle target fee outs min_change absolute consolidate unspents).
Proof.
  unfold select_coins_in, select_coins. cbv zeta. destruct (negb consolidate && negb absolute); [|right; reflexivity].
  match goal with |- context [branch_and_bound_in room bits ?h target fee ?r [] 0 ?s] => destruct (bnb_either bits h target fee r room [] 0 s) as [-> | ->] end; cbn [option_map].
  - left. reflexivity.
  - right. destruct (fst _); reflexivity.
Qed.

(** The same outside world, except for what broadcasting does. *)
Definition broadcasting {W Amt} (WD : World W Amt) (b : net -> pystr -> IO W unit) : World W Amt :=
  Build_World W Amt (@w_convert _ _ WD) (@w_fee _ _ WD) (@w_unspent _ _ WD) (@w_history _ _ WD) b (@w_random _ _ WD).

Section WithCrypto.
Context {CR : Crypto} {W Amt : Type} {WD : World W Amt}.

(** A call with and without a limit: the same, or RecursionError and a state of
    which P holds; the same if Q. *)
Definition Limited {S A} (P : S -> Prop) (Q : Prop) (x y : result A * S) : Prop :=
  (x = y \/ exists s', x = (Raise RecursionError, s') /\ P s') /\ (Q -> x = y).
Lemma limited_same {S A} P Q (x : result A * S) : Limited P Q x x.
Proof. split; auto. Qed.
Lemma limited_bind {S A B} P Q (m : IO S A) (k1 k2 : A -> IO S B) s :
  (forall a s', m s = (Ok a, s') -> Limited P Q (k1 a s') (k2 a s')) -> Limited P Q (ibind m k1 s) (ibind m k2 s).
Proof. intros H. unfold ibind. destruct (m s) as [[a|e] s'] eqn:E; [apply H; reflexivity|apply limited_same]. Qed.
Lemma limited_first {S A B} P Q (m1 m2 : IO S A) (k : A -> IO S B) s : Limited P Q (m1 s) (m2 s) -> Limited P Q (ibind m1 k s) (ibind m2 k s).
Proof.
  intros ([E | (s' & E & H)] & R); unfold ibind; split.
  - left. rewrite E. reflexivity.
  - intros HQ. rewrite (R HQ). reflexivity.
  - right. exists s'. rewrite E. auto.
  - intros HQ. rewrite (R HQ). reflexivity.
Qed.

Lemma sanitize_limited room outs fee leftover mc v o us w :
  Limited (fun s => fst s = us) ((length us < room)%nat \/ o_absolute_fee o = true \/ o_combine o = true)
    (sanitize_tx_data_in room outs fee leftover mc v o (us, w)) (sanitize_tx_data outs fee leftover mc v o (us, w)).
Proof.
  unfold sanitize_tx_data_in, sanitize_tx_data. apply limited_bind. intros l (us1 & w1) E1.
  destruct (F_wallet.convert_loop _ _ _ _ _ _ E1) as (sats & C & -> & L & ->). clear E1.
  apply limited_bind. intros s s' E. injection E as <- <-. cbn [fst].
  destruct us as [|u0 us0] eqn:Eu; [apply limited_same|]. rewrite <- Eu in *. clear Eu u0 us0.
  apply limited_bind. intros msgs s' E. apply ilift_ok in E as (_ & ->).
  apply limited_bind. intros sizes s' E. apply ilift_ok in E as (_ & ->).
  apply limited_bind. intros cs s' E. apply ilift_ok in E as (_ & ->). cbv zeta.
  apply limited_bind. intros rnd s' E. unfold zoom in E. cbn [fst snd] in E. destruct (w_random w1) as (r & w2). injection E as -> <-.
  apply limited_first. unfold ilift. split.
  - match goal with |- context [select_coins_in room ?a ?b ?c ?d ?e ?f ?g ?h ?i] => destruct (C89_either room a b c d e f g h i) as [E | E]; rewrite E end; [right|left; reflexivity].
    eexists. split; reflexivity.
  - intros HQ. rewrite C89_room by exact HQ. reflexivity.
Qed.

(** The state of a wallet when create_transaction breaks off with RecursionError:
    the coins are those given or reported; no coin is marked as selected. *)
Definition Untouched (sg : signer) (given : option (list Unspent)) (s s' : @Wallet W) : Prop :=
  wl_transactions s' = wl_transactions s /\
  match given with
  | Some ((_ :: _) as us) => wl_caller s' = us /\ wl_unspents s' = wl_unspents s /\ wl_balance s' = wl_balance s
  | _ => wl_caller s' = wl_caller s /\
         exists s1, get_unspents sg s = (Ok (wl_unspents s'), s1) /\ wl_unspents s' = wl_unspents s1 /\ wl_balance s' = wl_balance s1
  end.
(** The coins among which create_transaction chooses *)
Definition Coins (sg : signer) (given : option (list Unspent)) (s : @Wallet W) (us : list Unspent) : Prop :=
  match given with
  | Some ((_ :: _) as l) => us = l
  | _ => exists s1, get_unspents sg s = (Ok us, s1)
  end.

Lemma get_unspents_frame sg s us s1 : get_unspents sg s = (Ok us, s1) ->
  us = wl_unspents s1 /\ wl_caller s1 = wl_caller s /\ wl_transactions s1 = wl_transactions s.
Proof.
  unfold get_unspents. intros E.
  apply ibind_ok in E as (((t1 & v1) & (t2 & v2)) & s2 & E1 & E). apply ilift_ok in E1 as (_ & ->).
  apply ibind_ok in E as (a & s2 & E1 & E). apply ilift_ok in E1 as (_ & ->).
  apply ibind_ok in E as (l1 & s2 & E1 & E). unfold world, zoom in E1. destruct (w_unspent _ a _) as (r & w). injection E1 as -> <-.
  apply ibind_ok in E as ([] & s2 & E1 & E). unfold modify, ibind, iget, iput in E1. injection E1 as <-.
  apply ibind_ok in E as (sa & s2 & E1 & E). apply ilift_ok in E1 as (_ & ->).
  apply ibind_ok in E as ([] & s3 & E2 & E).
  assert (F : wl_caller s3 = wl_caller s /\ wl_transactions s3 = wl_transactions s).
  { destruct sa as [sa|].
    - apply ibind_ok in E2 as (l2 & s2 & E1 & E2). unfold world, zoom in E1. destruct (w_unspent _ sa _) as (r & w'). injection E1 as -> <-.
      unfold modify, ibind, iget, iput in E2. injection E2 as <-. split; reflexivity.
    - apply iret_ok in E2 as (_ & ->). split; reflexivity. }
  apply ibind_ok in E as ([] & s4 & E1 & E). unfold modify, ibind, iget, iput in E1. injection E1 as <-.
  unfold ibind, iget, iret in E. injection E as <- <-. cbn. tauto.
Qed.

Lemma create_limited room sg outs fee leftover given o s :
  Limited (Untouched sg given s)
    ((forall us, Coins sg given s us -> (length us < room)%nat) \/ o_absolute_fee o = true \/ o_combine o = true)
    (create_transaction_in room sg outs fee leftover given o s) (create_transaction sg outs fee leftover given o s).
Proof.
  unfold create_transaction_in, create_transaction. apply limited_bind. intros (own & us) s1 E1.
  assert (F : Coins sg given s us /\ (if own then wl_unspents s1 else wl_caller s1) = us /\
     (forall s' w, s' = (if own then set_world w (set_unspents us s1) else set_world w (set_caller us s1)) -> Untouched sg given s s')).
  { destruct given as [[|u us0]|]; cbn [nonempty] in E1.
    - apply ibind_ok in E1 as (us' & s2 & E2 & E1). apply iret_ok in E1 as (E1 & ->). injection E1 as <- <-. destruct (get_unspents_frame _ _ _ _ E2) as (-> & F1 & F2).
      split; [exists s2; exact E2|]. split; [reflexivity|]. intros s' w ->. cbn. repeat split; auto. exists s2. cbn. auto.
    - apply ibind_ok in E1 as ([] & s2 & E2 & E1). unfold modify, ibind, iget, iput in E2. injection E2 as <-. apply iret_ok in E1 as (E1 & ->). injection E1 as <- <-.
      split; [reflexivity|]. split; [reflexivity|]. intros s' w ->. cbn. repeat split; auto.
    - apply ibind_ok in E1 as (us' & s2 & E2 & E1). apply iret_ok in E1 as (E1 & ->). injection E1 as <- <-. destruct (get_unspents_frame _ _ _ _ E2) as (-> & F1 & F2).
      split; [exists s2; exact E2|]. split; [reflexivity|]. intros s' w ->. cbn. repeat split; auto. exists s2. cbn. auto. }
  destruct F as (FC & FU & FS). clear E1.
  apply limited_bind. intros ra s2 E. apply ilift_ok in E as (_ & ->).
  apply limited_bind. intros f s2 E. unfold world, zoom in E. destruct (fee_or_cached fee _) as (r & w). injection E as -> <-.
  apply limited_first. unfold run_sanitize. destruct own; unfold zoom; cbn [wl_unspents wl_world wl_caller set_world] in FU |- *; rewrite FU;
    match goal with |- context [sanitize_tx_data_in room outs f ?b 0 ?v o (us, w)] => destruct (sanitize_limited room outs f b 0 v o us w) as ([E | ((us' & w') & E & P)] & R) end.
  - rewrite E. split; [left; reflexivity|reflexivity].
  - rewrite E. split; [right|].
    + eexists. split; [reflexivity|]. cbn [fst] in P. subst us'. eapply (FS _ w'). reflexivity.
    + intros HQ. rewrite <- R, E; [reflexivity|]. destruct HQ as [HQ|HQ]; auto.
  - rewrite E. split; [left; reflexivity|reflexivity].
  - rewrite E. split; [right|].
    + eexists. split; [reflexivity|]. cbn [fst] in P. subst us'. eapply (FS _ w'). reflexivity.
    + intros HQ. rewrite <- R, E; [reflexivity|]. destruct HQ as [HQ|HQ]; auto.
Qed.

(** Whatever the limit, create_transaction does the same as without, or it raises
    RecursionError and leaves the coins of the wallet and of the caller as they are. *)
Theorem C89_create room sg outs fee leftover given o s :
  create_transaction_in room sg outs fee leftover given o s = create_transaction sg outs fee leftover given o s \/
  exists s', create_transaction_in room sg outs fee leftover given o s = (Raise RecursionError, s') /\ Untouched sg given s s'.
Proof. exact (proj1 (create_limited room sg outs fee leftover given o s)). Qed.

(** It does the same if there is room for one call more than there are coins, if
    the fee is absolute, and if all coins are combined. *)
Theorem C89_create_room room sg outs fee leftover given o s :
  (forall us, Coins sg given s us -> (length us < room)%nat) \/ o_absolute_fee o = true \/ o_combine o = true ->
  create_transaction_in room sg outs fee leftover given o s = create_transaction sg outs fee leftover given o s.
Proof. exact (proj2 (create_limited room sg outs fee leftover given o s)). Qed.

(** Likewise send; with RecursionError nothing is broadcast: it does not matter
    what broadcasting does. *)
Theorem C89_send room sg outs fee leftover given o s :
  send_in room sg outs fee leftover given o s = send sg outs fee leftover given o s \/
  exists s', Untouched sg given s s' /\
    forall b, @send_in CR W Amt (broadcasting WD b) room sg outs fee leftover given o s = (Raise RecursionError, s').
Proof.
  destruct (C89_create room sg outs fee leftover given o s) as [E | (s' & E & U)].
  - left. unfold send_in, send, ibind at 1 3. rewrite E. reflexivity.
  - right. exists s'. split; [exact U|]. intros b. unfold send_in, ibind at 1.
    change (@create_transaction_in CR W Amt (broadcasting WD b)) with (@create_transaction_in CR W Amt WD). rewrite E. reflexivity.
Qed.
Theorem C89_send_room room sg outs fee leftover given o s :
  (forall us, Coins sg given s us -> (length us < room)%nat) \/ o_absolute_fee o = true \/ o_combine o = true ->
  send_in room sg outs fee leftover given o s = send sg outs fee leftover given o s.
Proof. intros H. unfold send_in, send, ibind at 1 3. rewrite C89_create_room by exact H. reflexivity. Qed.

(** Likewise prepare_transaction *)
Theorem C89_prepare room cls address outs fee leftover given o s :
  prepare_transaction_in room cls address outs fee leftover given o s = prepare_transaction cls address outs fee leftover given o s \/
  exists us w, prepare_transaction_in room cls address outs fee leftover given o s = (Raise RecursionError, (us, w)) /\
    match given with Some ((_ :: _) as l) => us = l | _ => exists w1, w_unspent cls address (snd s) = (Ok us, w1) end.
Proof.
  unfold prepare_transaction_in, prepare_transaction. cbv zeta.
  match goal with |- ?x = ?y \/ exists us w, ?x = _ /\ @?P us => enough (H : Limited (fun s' => P (fst s')) False x y) end.
  { destruct H as ([H | ((us & w) & H & Q)] & _); [left; exact H|right; exists us, w; split; [exact H|exact Q]]. }
  apply limited_bind. intros us s1 E1. apply limited_bind. intros s2 s3 E. injection E as <- <-.
  apply limited_bind. intros [] s2 E. injection E as <-. apply limited_bind. intros f s2 E. unfold zoom in E. cbn [fst snd] in E.
  destruct (fee_or_cached fee _) as (r & w). injection E as -> <-. apply limited_first.
  match goal with |- context [sanitize_tx_data_in room outs f ?b 0 cls o (us, w)] => destruct (sanitize_limited room outs f b 0 cls o us w) as ([E | (s' & E & P)] & _) end;
    rewrite E; (split; [|tauto]); [left; reflexivity|right]. exists s'. split; [reflexivity|]. rewrite P.
  destruct given as [[|u us0]|]; cbn [nonempty] in E1.
  - unfold zoom in E1. destruct (w_unspent _ _ _) as (r & w1). injection E1 as -> _. eauto.
  - apply iret_ok in E1 as (<- & _). reflexivity.
  - unfold zoom in E1. destruct (w_unspent _ _ _) as (r & w1). injection E1 as -> _. eauto.
Qed.

Lemma bnb_zeros bits overhead target fee : (forall n, bits n = false) -> 0 < target + overhead -> 0 <= fee -> forall room rest s selected, (room <= length rest)%nat -> Z.of_nat room < tries s ->
  branch_and_bound_in room bits overhead target fee rest selected 0 s = None.
Proof.
  intros B T F. induction room as [|room IH]; intros rest s selected L TR; [reflexivity|]. destruct rest as [|u rest]; [cbn in L; lia|].
  cbn [branch_and_bound_in]. cbv zeta. cbn [tries drawn]. rewrite B.
  replace (0 >? 4 * (target + overhead + (148 * fee + 34 * fee))) with false by (symmetry; rewrite Z.gtb_ltb; apply Z.ltb_ge; lia).
  replace (0 >=? 4 * (target + overhead)) with false by (symmetry; rewrite Z.geb_leb; apply Z.leb_gt; lia).
  replace (tries s - 1 <=? 0) with false by lia. rewrite IH; auto; cbn [length tries] in *; lia.
Qed.
Lemma ibind_eq {S A B} (m : IO S A) (k : A -> IO S B) s a s' : m s = (Ok a, s') -> ibind m k s = k a s'.
Proof. intros E. unfold ibind. rewrite E. reflexivity. Qed.
Lemma sanitize_zeros room outs fee leftover mc v o us w sel pay us' w' :
  sanitize_tx_data outs fee leftover mc v o (us, w) = (Ok (sel, pay), (us', w')) -> Forall (fun p => 0 <= snd p) pay ->
  (forall w rnd w', w_random w = (Ok rnd, w') -> forall n, r_bits rnd n = false) ->
  0 < fee -> o_absolute_fee o = false -> o_combine o = false -> (room <= length us)%nat -> Z.of_nat room < 1000000 ->
  exists w', sanitize_tx_data_in room outs fee leftover mc v o (us, w) = (Raise RecursionError, (us, w')).
Proof.
  intros E POS RND FEE AB CO LE LT. pose proof (sanitize_ok _ _ _ _ _ _ _ _ _ _ _ _ E) as (sats & w1 & msgs & sizes & back & script & rnd & sel0 & rem & C & LS & NE & EM & SZ & -> & EB & ER & ES & _ & _ & VS & EP).
  unfold sanitize_tx_data in E. unfold sanitize_tx_data_in.
  apply ibind_ok in E as (l & [us1 w1'] & E1 & E). destruct (F_wallet.convert_loop _ _ _ _ _ _ E1) as (sats' & C' & -> & L' & ->).
  erewrite ibind_eq by exact E1. clear E1.
  apply ibind_ok in E as (s & s1 & E1 & E). unfold iget in E1. injection E1 as <- <-. cbn [fst] in E. erewrite ibind_eq by reflexivity. cbn [fst].
  destruct us as [|u0 us0] eqn:Eu; [discriminate|]. rewrite <- Eu in *. clear Eu u0 us0.
  apply ibind_ok in E as (msgs' & s1 & E1 & E). erewrite ibind_eq by exact E1. apply ilift_ok in E1 as (Em & ->).
  apply ibind_ok in E as (sizes' & s1 & E1 & E). erewrite ibind_eq by exact E1. apply ilift_ok in E1 as (Es & ->).
  apply ibind_ok in E as (cs & s1 & E1 & E). erewrite ibind_eq by exact E1. apply ilift_ok in E1 as (Ec & ->).
  apply ibind_ok in E as (rnd' & s1 & E1 & E). erewrite ibind_eq by exact E1. unfold zoom in E1. cbn [fst snd] in E1.
  destruct (w_random w1') as [r w2] eqn:Er. injection E1 as -> <-. cbv zeta.
  unfold ibind at 1, ilift. unfold select_coins_in. rewrite AB, CO. cbn [negb andb]. cbv zeta.
  rewrite bnb_zeros; [cbn [option_map]; eauto| | | | |].
  - eapply RND. exact Er.
  - assert (0 <= zsum (map snd (combine (dests outs) sats'))).
    { assert (EQ : sats' = sats). { clear -C C'. revert sats' w1' C'. induction C; intros sats' w1' C'; inversion C'; subst; auto. match goal with A : w_convert _ _ _ = (Ok ?x, _), B : w_convert _ _ _ = (Ok ?y, _) |- _ => rewrite A in B; injection B as <- <- end. f_equal. eapply IHC; eauto. }
      subst sats'. rewrite EP in POS. rewrite zsum_total.
      assert (Forall (fun p => 0 <= snd p) (combine (dests outs) sats)).
      { apply Forall_app in POS as (POS & _). rewrite map_app in POS. apply Forall_app in POS as (POS & _). clear -POS. induction (combine (dests outs) sats) as [|(a & n) l IH]; [constructor|]. cbn [map] in POS. apply Forall_cons_iff in POS as (P1 & P2). constructor; auto. }
      clear -H. induction H; cbn [map total]; lia. }
    apply sizes_ok in Es. assert (Forall (fun z => 0 <= z) (sizes' ++ [zlen msgs' * (Z.of_nat MESSAGE_LIMIT + 9)] ++ [cs])).
    { apply Forall_app. split.
      - clear -Es. induction Es as [|a z l l' (sc & _ & ->) _ IH]; constructor; auto. unfold zlen. lia.
      - destruct (size_of_some _ _ Ec) as (? & sc & _ & _ & ->). repeat constructor; unfold zlen; lia. }
    pose proof (overhead_pos _ H0). nia.
  - lia.
  - rewrite sort_length. exact LE.
  - cbn [tries]. unfold BNB_TRIES. lia.
Qed.

(** A transaction that would be made without a limit, at a fee rate: if the
    coins are as many as there is room for, and all random bits are zero, the
    call fails. *)
Theorem C89_create_many room sg outs f leftover u us o s h s' :
  create_transaction sg outs (Some f) leftover (Some (u :: us)) o s = (Ok h, s') ->
  (forall w rnd w', w_random w = (Ok rnd, w') -> forall n, r_bits rnd n = false) ->
  0 < f -> o_absolute_fee o = false -> o_combine o = false -> (room <= length (u :: us))%nat -> Z.of_nat room < 1000000 ->
  fst (create_transaction_in room sg outs (Some f) leftover (Some (u :: us)) o s) = Raise RecursionError.
Proof.
  intros E RND F AB CO LE LT. unfold create_transaction in E. unfold create_transaction_in. cbn [nonempty] in *.
  apply ibind_ok in E as ((own & us1) & s1 & E1 & E). erewrite ibind_eq by exact E1.
  apply ibind_ok in E1 as ([] & s2 & E2 & E1). unfold modify, ibind, iget, iput in E2. injection E2 as <-. apply iret_ok in E1 as (E1 & ->). injection E1 as <- <-.
  apply ibind_ok in E as (ra & s1 & E1 & E). erewrite ibind_eq by exact E1. apply ilift_ok in E1 as (_ & ->).
  apply ibind_ok in E as (f' & s1 & E1 & E). erewrite ibind_eq by exact E1.
  unfold world, zoom, fee_or_cached in E1. replace (f =? 0) with false in E1 by lia. injection E1 as <- <-.
  apply ibind_ok in E as ((sel & pay) & s1 & E1 & E). apply ilift_ok in E as (E & ->). unfold run_sanitize, zoom in E1. cbn [wl_caller wl_world set_world set_caller] in E1.
  match type of E1 with context [sanitize_tx_data ?a ?b ?c ?d ?e ?g ?h] => destruct (sanitize_tx_data a b c d e g h) as ([(sel' & pay')|] & (us' & w')) eqn:ES; [|discriminate] end. injection E1 as -> -> _.
  assert (POS : Forall (fun p => 0 <= snd p) pay).
  { unfold create_new_transaction in E. apply bind_ok in E as (txo & E & _). apply C47_exact in E. clear -E. induction E as [|x y l l' (H & _) _ IH]; constructor; auto. lia. }
  destruct (sanitize_zeros room _ _ _ _ _ _ _ _ _ _ _ _ ES POS RND F AB CO LE LT) as (w2 & EZ).
  unfold ibind, run_sanitize, zoom. cbn [wl_caller wl_world set_world set_caller]. rewrite EZ. reflexivity.
Qed.
End WithCrypto.
Print Assumptions C89_either.
Print Assumptions C89_create.
Print Assumptions C89_create_room.
Print Assumptions C89_create_many.
Print Assumptions C89_send.
Print Assumptions C89_send_room.
Print Assumptions C89_prepare.

(** ** Examples *)
Definition wallet0 : @Wallet (list pystr) := mkWallet [] 0 [] [] [].
Definition three := legacy_coins ++ segwit_coins.
Definition limited_toy (room : nat) (combine : bool) :=
  fst (@create_transaction_in toy _ _ toy_world room (Single wkey) (wouts other_key) (Some 2) None (Some three) (wopts combine false) wallet0).
(** Three coins, room for three calls: the call fails; with room for four, or with
    all coins combined, it succeeds. *)
Example C89_create_case : limited_toy 3 false = Raise RecursionError /\
  (exists h, limited_toy 4 false = Ok h) /\ (exists h, limited_toy 3 true = Ok h).
Proof. split; [vm_compute; reflexivity|]. split; eexists; vm_compute; reflexivity. Qed.
Example C89_create_many_hypotheses :
  (exists h s', @create_transaction toy _ _ toy_world (Single wkey) (wouts other_key) (Some 2) None (Some three) (wopts false false) wallet0 = (Ok h, s')) /\
  (forall w rnd w', @w_random _ _ toy_world w = (Ok rnd, w') -> forall n, r_bits rnd n = false).
Proof. split; [eexists _, _; vm_compute; reflexivity|]. intros w rnd w' E. injection E as <- _. reflexivity. Qed.
Example C89_send_case : exists s', @send_in toy _ _ toy_world 3 (Single wkey) (wouts other_key) (Some 2) None None (wopts false false) wallet0 = (Raise RecursionError, s') /\
  wl_world s' = [] /\ map u_amount (wl_unspents s') = [20000; 30000; 40000] /\ wl_balance s' = 90000.
Proof. eexists. split; [vm_compute; reflexivity|]. vm_compute. repeat split. Qed.
Example C89_prepare_case : exists us, @prepare_transaction_in toy _ _ toy_world 2 Main (addr_of wkey) (wouts other_key) (Some 2) None None (mkOptions false None false false false) ([], []) = (Raise RecursionError, (us, [])) /\ length us = 2%nat.
Proof. eexists. split; vm_compute; reflexivity. Qed.
