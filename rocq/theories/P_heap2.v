(** C110: coins and lists that are shared, in prepare_transaction and
    sign_transaction. *)
From Coq Require Import String Permutation.
From Verif Require Import F_cosign F_cosigntx F_signtx F_wallet F_utf8 F_spend F_wire F_build P_outputs P_select P_sign P_multi P_wallet P_create P_state P_send P_size X_world X_server.
From Verif Require Import M_app F_app S_Decimal S_History S_Servers S_Failover S_After S_Size S_Replace F_decimal F_network F_servers P_rates P_network P_services P_failover P_anyservice P_app P_after P_live S_Consensus P_consensus P_lies.
From Verif Require Import P_again M_heap2 P_heap.

Section Heap.
Context {CR : Crypto} {W Amt : Type} {WD : World W Amt}.
Notation Mem := (@Mem W).

(** What is worked on: the list given, if it is not empty, or the one that is new. *)
Definition worked (new : nat) (unspents : option nat) (m : Mem) : nat := match given_list unspents m with Some l => l | None => new end.

Lemma given_nonempty (unspents : option nat) (m : Mem) :
  nonempty (option_map (contents m) unspents) = option_map (contents m) (given_list unspents m).
Proof.
  destruct unspents as [l|]; [|reflexivity]. cbn [option_map given_list]. unfold contents.
  destruct (m_lists m l) as [|i l'] eqn:E; [reflexivity|]. cbn [option_map map nonempty]. rewrite E. reflexivity.
Qed.

(** Preparing with references gives the text, asks the network the questions and
    leaves in the list it works on the coins that it does without. *)
Definition Prepares (new : nat) (unspents : option nat) (rbf : bool) (m : Mem) (x : result txdata * Mem) (y : result txdata * (list Unspent * W)) : Prop :=
  let '(r, m') := x in let '(r0, s') := y in
  r0 = r /\ snd s' = m_world m' /\ (forall i, m_balance m' i = m_balance m i) /\
  match given_list unspents m with
  | Some l => fst s' = contents m' l /\ Within l rbf m m' /\ (forall d, r = Ok d -> rbf = true -> forall j, In j (m_lists m' l) -> m_coins m' j = opt_in_for_RBF (m_coins m j))
  | None => (forall d, r = Ok d -> fst s' = contents m' new) /\ (forall i, i <> new -> m_lists m' i = m_lists m i) /\ (forall j, (j < m_next m)%nat -> m_coins m' j = m_coins m j)
  end.
Lemma prepare_does (B : Blind WD) new cls address outputs fee leftover unspents o m c :
  Prepares new unspents (o_replace_by_fee o) m (prepare_in new cls address outputs fee leftover unspents o m)
    (prepare_transaction cls address outputs fee leftover (option_map (contents m) unspents) o (c, m_world m)).
Proof.
  unfold prepare_in, prepare_transaction. rewrite given_nonempty. unfold ibind at 1, iget at 1.
  set (fetch := us <~ outside (w_unspent cls address) ;; us <~ new_coins us ;; _ <~ change (with_list new us) ;; iret new).
  assert (CL : (match unspents with Some l => match m_lists m l with _ :: _ => iret l | [] => fetch end | None => fetch end) =
    match given_list unspents m with Some l => iret l | None => fetch end).
  { destruct unspents as [l|]; [|reflexivity]. cbn [given_list]. destruct (m_lists m l); reflexivity. }
  rewrite CL. clear CL. unfold Prepares. destruct (given_list unspents m) as [l|]; cbn [option_map].
  - unfold ibind, ilift, iret, iget, iput, outside, zoom. cbn [fst snd]. destruct (fee_or_cached fee (m_world m)) as [[f|e] w]; cbn [fst snd].
    2:{ split; [reflexivity|]. split; [reflexivity|]. split; [reflexivity|]. split; [reflexivity|]. split; [apply within_world, within_refl|discriminate]. }
    pose proof (sanitize_same B l outputs f (Some match nonempty leftover with Some l => l | None => address end) 0 cls o (with_world w m)) as SS.
    change (contents (with_world w m) l) with (contents m l) in SS. change (m_world (with_world w m)) with w in SS.
    destruct (sanitize_in l outputs f _ 0 cls o (with_world w m)) as [r m']. destruct SS as (-> & WI & RB).
    assert (BA : forall i, m_balance m' i = m_balance m i) by apply WI.
    destruct r as [outs|e]; cbn [rmap].
    + destruct (mapM json_dest outs) as [js|e]; (split; [reflexivity|]; split; [reflexivity|]; split; [exact BA|]; split; [reflexivity|]; split; [exact WI|]); [|discriminate].
      intros d _ R j J. apply (RB outs eq_refl R j J).
    + split; [reflexivity|]. split; [reflexivity|]. split; [exact BA|]. split; [reflexivity|]. split; [exact WI|discriminate].
  - unfold fetch, change. unfold ibind, ilift, iret, iget, iput, outside, zoom. cbn [fst snd]. destruct (w_unspent cls address (m_world m)) as [[us|e] w]; cbn [fst snd].
    2:{ split; [reflexivity|]. split; [reflexivity|]. split; [reflexivity|]. split; [discriminate|]. split; reflexivity. }
    destruct (new_coins_same us (with_world w m)) as (m1 & E1 & C1 & W1 & L1 & B1 & N1 & O1). rewrite E1. cbn [m_next with_world m_world m_lists m_balance m_coins] in C1, W1, L1, B1, N1, O1.
    set (m2 := with_list new (seq (m_next (with_world w m)) (length us)) m1).
    assert (C2 : contents m2 new = us) by (unfold contents, m2; cbn [m_lists with_list m_coins]; unfold M_heap.upd; rewrite Nat.eqb_refl; exact C1).
    assert (L2 : forall i, i <> new -> m_lists m2 i = m_lists m i) by (intros i N; apply Nat.eqb_neq in N; unfold m2; cbn [m_lists with_list]; unfold M_heap.upd; rewrite N, L1; reflexivity).
    assert (I2 : forall j, In j (m_lists m2 new) -> (m_next m <= j)%nat).
    { intros j J. unfold m2 in J. cbn [m_lists with_list] in J. unfold M_heap.upd in J. rewrite Nat.eqb_refl in J. cbn [m_next with_world] in J. apply in_seq in J. lia. }
    assert (O2 : forall j, (j < m_next m)%nat -> m_coins m2 j = m_coins m j) by (intros j J; unfold m2; cbn [m_coins with_list]; apply O1; exact J).
    assert (B2 : forall i, m_balance m2 i = m_balance m i) by (intros i; unfold m2; cbn [m_balance with_list]; rewrite B1; reflexivity).
    assert (W2 : m_world m2 = w) by exact W1.
    rewrite W2. destruct (fee_or_cached fee w) as [[f|e] w']; cbn [fst snd].
    2:{ split; [reflexivity|]. split; [reflexivity|]. split; [exact B2|]. split; [discriminate|]. split; [exact L2|exact O2]. }
    pose proof (sanitize_same B new outputs f (Some match nonempty leftover with Some l => l | None => address end) 0 cls o (with_world w' m2)) as SS.
    change (contents (with_world w' m2) new) with (contents m2 new) in SS. rewrite C2 in SS. change (m_world (with_world w' m2)) with w' in SS.
    destruct (sanitize_in new outputs f _ 0 cls o (with_world w' m2)) as [r m']. destruct SS as (-> & (X1 & X2 & X3 & X4 & X5) & RB).
    assert (BA : forall i, m_balance m' i = m_balance m i) by (intros i; rewrite X3; apply B2).
    assert (LA : forall i, i <> new -> m_lists m' i = m_lists m i) by (intros i N; rewrite (X1 i N); apply L2; exact N).
    assert (CA : forall j, (j < m_next m)%nat -> m_coins m' j = m_coins m j).
    { intros j J. destruct (X5 j) as [->|(_ & I & _)]; [apply O2; exact J|]. apply X2 in I. change (m_lists (with_world w' m2)) with (m_lists m2) in I. apply I2 in I. lia. }
    destruct r as [outs|e]; cbn [rmap].
    + destruct (mapM json_dest outs) as [js|e]; (split; [reflexivity|]; split; [reflexivity|]; split; [exact BA|]; split; [|split; [exact LA|exact CA]]); [reflexivity|discriminate].
    + split; [reflexivity|]. split; [reflexivity|]. split; [exact BA|]. split; [discriminate|]. split; [exact LA|exact CA].
Qed.

(** C110: what is said of prepare_transaction without references holds of it with
    them, whatever lists and coins are shared. *)
Theorem C110_prepare (B : Blind WD) new cls address outputs fee leftover unspents o m c r m' :
  prepare_in new cls address outputs fee leftover unspents o m = (r, m') ->
  exists c', prepare_transaction cls address outputs fee leftover (option_map (contents m) unspents) o (c, m_world m) = (r, (c', m_world m')) /\
    (forall l, given_list unspents m = Some l -> c' = contents m' l) /\
    (forall us outs, r = Ok (Json us outs) -> us = map to_dict (contents m' (worked new unspents m))).
Proof.
  intros E. pose proof (prepare_does B new cls address outputs fee leftover unspents o m c) as D. rewrite E in D.
  destruct (prepare_transaction cls address outputs fee leftover _ o (c, m_world m)) as [r0 [c' w']]. cbn [Prepares fst snd] in D. destruct D as (-> & -> & _ & D).
  exists c'. split; [reflexivity|]. split; [intros l G; rewrite G in D; apply D|].
  intros us outs ->. unfold prepare_in in E. unfold ibind at 1, iget at 1 in E.
  set (fetch := us <~ outside (w_unspent cls address) ;; us <~ new_coins us ;; _ <~ change (with_list new us) ;; iret new) in E.
  assert (CL : forall m0, (match unspents with Some l => match m_lists m l with _ :: _ => iret l | [] => fetch end | None => fetch end) m0 =
    match given_list unspents m with Some l => iret l | None => fetch end m0).
  { intros m0. destruct unspents as [l|]; [|reflexivity]. cbn [given_list]. destruct (m_lists m l); reflexivity. }
  unfold ibind at 1 in E. rewrite CL in E.
  assert (FL : forall l m1, (match given_list unspents m with Some l => iret l | None => fetch end) m = (Ok l, m1) -> l = worked new unspents m).
  { intros l m1. unfold worked. destruct (given_list unspents m); [intros [= -> _]; reflexivity|]. unfold fetch, change, ibind, iret, iget, iput, outside, zoom.
    destruct (w_unspent cls address (m_world m)) as [[us'|e] w]; [|discriminate]. destruct (new_coins_same us' (with_world w m)) as (m2 & E2 & _). rewrite E2. intros [= -> _]. reflexivity. }
  destruct ((match given_list unspents m with Some l => iret l | None => fetch end) m) as [[l|e] m1]; [|discriminate]. rewrite <- (FL l m1 eq_refl). clear FL CL D.
  unfold ibind, ilift, iret, iget, outside, zoom in E. destruct (fee_or_cached fee (m_world m1)) as [[f|e] w]; [|discriminate].
  destruct (sanitize_in l outputs f _ 0 cls o _) as [[os|e] m2]; [|discriminate]. destruct (mapM json_dest os) as [js|e]; [|discriminate].
  injection E as <- _ <-. reflexivity.
Qed.
(** No list but the one worked on, no balance and no coin that there was is
    changed, but those of the list given that are selected, if this is asked for. *)
Theorem C110_prepare_changes (B : Blind WD) new cls address outputs fee leftover unspents o m r m' :
  prepare_in new cls address outputs fee leftover unspents o m = (r, m') ->
  ChangesOnly new unspents (o_replace_by_fee o) m m' /\ (forall i, m_balance m' i = m_balance m i).
Proof.
  intros E. pose proof (prepare_does B new cls address outputs fee leftover unspents o m []) as D. rewrite E in D.
  destruct (prepare_transaction cls address outputs fee leftover _ o _) as [r0 s']. cbn [Prepares] in D. destruct D as (_ & _ & BA & D). split; [|exact BA].
  unfold ChangesOnly. destruct (given_list unspents m) as [l|].
  - destruct D as (_ & (W1 & W2 & W3 & W4 & W5) & _). split; [exact W1|]. split; [intros ? [= <-]; exact W2|]. split; [intros i _; apply W3|].
    intros j _. destruct (W5 j) as [H|(R & I & H)]; [left; exact H|right; split; auto]. exists l. rewrite H. auto using opt_in_marked.
  - destruct D as (_ & D1 & D2). split; [exact D1|]. split; [discriminate|]. split; [intros i _; apply BA|]. auto.
Qed.
(** Preparing with replace_by_fee marks the coins of the caller that are
    selected, although nothing is signed or sent. *)
Theorem C110_prepare_marked (B : Blind WD) new cls address outputs fee leftover unspents o m d m' l : given_list unspents m = Some l -> o_replace_by_fee o = true ->
  prepare_in new cls address outputs fee leftover unspents o m = (Ok d, m') -> forall j, In j (m_lists m' l) -> Marked (m_coins m j) (m_coins m' j).
Proof.
  intros GL R E j J. pose proof (prepare_does B new cls address outputs fee leftover unspents o m []) as D. rewrite E in D.
  destruct (prepare_transaction cls address outputs fee leftover _ o _) as [r0 s']. cbn [Prepares] in D. rewrite GL in D. destruct D as (_ & _ & _ & _ & _ & D).
  rewrite (D d eq_refl R j J). apply opt_in_marked.
Qed.

(** So a later payment from a list that has these coins signals that it can be
    replaced, although that was asked for a transaction that nobody signed. *)
Theorem C110_prepare_sticky (HO : HashOk CR) (RO : RandomOk WD) (B : Blind WD) new cls address outputs fee leftover a o m d m' k self' outputs' fee' leftover' b o' h' m'' :
  m_lists m a <> [] -> o_replace_by_fee o = true ->
  prepare_in new cls address outputs fee leftover (Some a) o m = (Ok d, m') ->
  b <> a -> m_lists m b <> [] -> incl (m_lists m b) (m_lists m' a) ->
  KeyOk k -> MsgOk o' -> Forall TxidOk (contents m b) -> Distinct (contents m b) -> Forall (SingleCoin k) (contents m b) ->
  create_transaction_in (Single k) self' outputs' fee' leftover' (Some b) o' m' = (Ok h', m'') ->
  exists x f w, Asked (Single k) outputs' f leftover' o' (contents m' b) (contents m'' b) w h' x /\ Signals x.
Proof.
  intros NA R E NB NE I K M T D SC E'.
  assert (GA : given_list (Some a) m = Some a) by (cbn; destruct (m_lists m a); [congruence|reflexivity]).
  destruct (C110_prepare_changes B _ _ _ _ _ _ _ _ _ _ _ E) as ((L & _ & _ & _) & _). rewrite GA in L. specialize (L b NB).
  pose proof (C110_prepare_marked B _ _ _ _ _ _ _ _ _ _ _ _ GA R E) as MK.
  assert (GB : given_list (Some b) m' = Some b) by (cbn; rewrite L; destruct (m_lists m b); [congruence|reflexivity]).
  destruct (C110_create B _ _ _ _ _ _ _ _ (mkWallet (m_world m') (m_balance m' self') (contents m' self') [] []) _ _ ltac:(split; [|split]; reflexivity) E') as (s'' & E2 & _ & S2).
  rewrite GB in S2. cbn [option_map] in E2.
  assert (CB : contents m' b = map opt_in_for_RBF (contents m b)).
  { unfold contents. rewrite L, map_map. apply map_ext_in. intros j J. specialize (MK j (I j J)). unfold Marked in MK. rewrite MK. symmetry. apply opt_in_marked. }
  assert (NC : contents m' b <> []) by (rewrite CB; unfold contents; destruct (m_lists m b); [congruence|discriminate]).
  destruct (create_caller HO RO _ _ _ _ _ _ _ _ _ NC K M E2) as (x & f & w & _ & A & _).
  - rewrite CB. apply Forall_map. eapply Forall_impl; [|exact T]. intros u H. unfold TxidOk in *. destruct (rbf_keep u) as (-> & _). exact H.
  - rewrite CB. unfold Distinct in *. rewrite map_map. erewrite map_ext; [exact D|]. intros u. cbn. destruct (rbf_keep u) as (-> & -> & _). reflexivity.
  - rewrite CB. apply Forall_map. eapply Forall_impl; [|exact SC]. intros u H. unfold SingleCoin in *. destruct (rbf_keep u) as (_ & _ & -> & -> & _). exact H.
  - rewrite S2 in A. exists x, f, w. split; auto. destruct A as (outs & sats & w1 & change & msgs & back & (_ & _ & _ & FI & _) & _ & _ & _ & _ & _ & _ & (taken & unused & Pm & NT & _ & Hs) & _).
    eapply in_signals; [exact FI|rewrite Hs; destruct (o_replace_by_fee o'); auto; destruct taken; [contradiction|discriminate]|].
    assert (FT : Forall (fun u => u_sequence u <= 0xfffffffd) taken).
    { apply Forall_forall. intros u U. assert (In u (contents m' b)) as U2 by (eapply Permutation_in; [exact Pm|apply in_or_app; auto]).
      rewrite CB in U2. apply in_map_iff in U2 as (v & <- & _). apply opt_in_seq. }
    rewrite Hs. destruct (o_replace_by_fee o'); [|exact FT]. apply Forall_map. apply Forall_forall. intros u _. apply opt_in_seq.
Qed.

(** ** sign_transaction *)
(** From where the coins come: given, or in the text. *)
Definition has_coins (tx : txdata) (unspents : option nat) (m : Mem) : bool :=
  match given_list unspents m with
  | Some _ => true
  | None => match tx, unspents with Json (_ :: _) _, None => true | _, _ => false end
  end.
(** All coins that lists have are objects that were made. *)
Definition Allocated (m : Mem) : Prop := forall i j, In j (m_lists m i) -> (j < m_next m)%nat.

Definition second_in sg self (des : result TxObj) (given : list nat) : IO Mem pystr :=
  us <~ (match given with
         | _ :: _ => m <~ iget ;; iret (map (m_coins m) given)
         | [] => l <~ get_unspents_in sg self ;; m <~ iget ;; iret (contents m l)
         end) ;;
  tx <~ ilift des ;; ilift (sign_tx sg tx us).
Definition second_0 sg (des : result TxObj) (unspents : option (list Unspent)) : IO (@Wallet W) pystr :=
  us <~ (match nonempty unspents with Some us => iret us | None => get_unspents sg end) ;; tx <~ ilift des ;; ilift (sign_tx sg tx us).
Lemma second_does sg self des given unspents m s r m' : View self m s ->
  nonempty unspents = match given with [] => None | _ :: _ => Some (map (m_coins m) given) end ->
  second_in sg self des given m = (r, m') ->
  exists s', second_0 sg des unspents s = (r, s') /\ View self m' s' /\ OldKept self m m' /\ (given <> [] -> s' = s /\ m' = m).
Proof.
  intros V N E. unfold second_in in E. unfold second_0. rewrite N. unfold ibind, iget, iret, ilift in E |- *. destruct given as [|i l].
  - pose proof (get_same sg self m s V) as G. destruct (get_unspents_in sg self m) as [r1 m1], (get_unspents sg s) as [r0 s1]. destruct G as (-> & _ & V1 & K1).
    exists s1. destruct r1 as [l|e]; cbn [rmap].
    + destruct des as [t|e]; injection E as <- <-; (split; [reflexivity|]; split; [exact V1|]; split; [exact K1|]); contradiction.
    + injection E as <- <-. split; [reflexivity|]. split; [exact V1|]. split; [exact K1|]. contradiction.
  - exists s. destruct des as [t|e]; injection E as <- <-; (split; [reflexivity|]; split; [exact V|]; split; [repeat split; auto|auto]).
Qed.

(** C110: with references sign_transaction gives the result and asks the network
    the questions that it does without.  It changes no coin, no list that it is
    given and no other wallet; the wallet's own coins are fetched only if there
    are none in the arguments. *)
Theorem C110_sign sg self tx unspents m s r m' : Allocated m -> View self m s -> sign_in sg self tx unspents m = (r, m') ->
  exists s', sign_transaction sg tx (option_map (contents m) unspents) s = (r, s') /\ View self m' s' /\ OldKept self m m' /\
    (has_coins tx unspents m = true -> s' = s /\ m_lists m' = m_lists m /\ m_balance m' = m_balance m /\ m_world m' = m_world m).
Proof.
  intros AL V E.
  assert (GIVEN : forall l, nonempty (Some (contents m l)) = match m_lists m l with [] => None | _ :: _ => Some (map (m_coins m) (m_lists m l)) end).
  { intros l. unfold contents. destruct (m_lists m l); reflexivity. }
  assert (HC : forall l, has_coins tx (Some l) m = true -> m_lists m l <> []).
  { intros l H Q. unfold has_coins in H. cbn [given_list] in H. rewrite Q in H. destruct tx as [[|? ?] ?|?]; discriminate. }
  unfold sign_in in E. set (des := match tx with Text s => deserialize_hex s | Json _ _ => Raise ValueError end) in E. fold (second_in sg self des) in E.
  unfold sign_transaction. fold des. fold (second_0 sg des). unfold ibind at 1, iget at 1 in E.
  destruct unspents as [l|]; cbn [option_map].
  - assert (E1 : second_in sg self des (m_lists m l) m = (r, m')) by (destruct tx; exact E). clear E.
    destruct (second_does sg self des _ (Some (contents m l)) m s r m' V (GIVEN l) E1) as (s' & S1 & V1 & K1 & N1).
    exists s'. split; [destruct tx; exact S1|]. split; [exact V1|]. split; [exact K1|]. intros H. destruct (N1 (HC l H)) as [-> ->]. auto.
  - destruct tx as [us outs|t].
    + unfold ibind at 1 in E. destruct (new_coins_same (map from_dict us) m) as (m1 & E1 & C1 & W1 & L1 & B1 & N1 & O1). rewrite E1 in E. unfold ibind at 1, iget at 1 in E. rewrite C1 in E.
      assert (V1 : View self m1 s).
      { destruct V as (VW & VB & VU). split; [congruence|]. split; [congruence|]. rewrite VU. unfold contents. rewrite L1. apply map_ext_in. intros j J. symmetry. apply O1. exact (AL self j J). }
      assert (K1 : OldKept self m m1).
      { split; [intros i _; rewrite L1, B1; auto|]. split; [lia|exact O1]. }
      unfold itry, ilift in E |- *. destruct (create_new_transaction sg (map from_dict us) _) as [h|e].
      * injection E as <- <-. exists s. split; [reflexivity|]. split; [exact V1|]. split; [exact K1|]. auto.
      * assert (GV : nonempty (Some (map from_dict us)) = match seq (m_next m) (length (map from_dict us)) with [] => None | _ :: _ => Some (map (m_coins m1) (seq (m_next m) (length (map from_dict us)))) end).
        { rewrite C1. destruct us; reflexivity. }
        destruct (second_does sg self des _ (Some (map from_dict us)) m1 s r m' V1 GV E) as (s' & S1 & V2 & K2 & N2).
        exists s'. split; [exact S1|]. split; [exact V2|]. split.
        -- destruct K1 as (A1 & A2 & A3), K2 as (D1 & D2 & D3). split; [|split].
           ++ intros i N. destruct (A1 i N), (D1 i N). split; congruence.
           ++ lia.
           ++ intros j J. rewrite D3 by lia. apply A3. exact J.
        -- intros H. unfold has_coins in H. cbn [given_list] in H. destruct us as [|u us]; [discriminate|].
           destruct N2 as [-> ->]; [discriminate|]. auto.
    + destruct (second_does sg self des [] None m s r m' V eq_refl E) as (s' & S1 & V1 & K1 & _).
      exists s'. split; [exact S1|]. split; [exact V1|]. split; [exact K1|]. discriminate.
Qed.

(** ** What is hypothesis above holds throughout *)
Lemma allocated_world m w : Allocated m -> Allocated (with_world w m).
Proof. intros H. exact H. Qed.
Lemma allocated_within lst rbf m m' : Within lst rbf m m' -> Allocated m -> Allocated m'.
Proof.
  intros (W1 & W2 & _ & W4 & _) A i j J. rewrite W4. destruct (Nat.eq_dec i lst) as [->|N]; [apply W2 in J|rewrite (W1 i N) in J]; eapply A; eauto.
Qed.
Lemma allocated_list l is (m : Mem) : Allocated m -> (forall j, In j is -> (j < m_next m)%nat) -> Allocated (with_list l is m).
Proof. intros A H i j J. cbn [with_list m_lists m_next] in *. unfold M_heap.upd in J. destruct (Nat.eqb i l); [apply H|eapply A]; eauto. Qed.
Lemma allocated_new us m m1 : new_coins us m = (Ok (seq (m_next m) (length us)), m1) -> Allocated m ->
  Allocated m1 /\ m_lists m1 = m_lists m /\ forall j, In j (seq (m_next m) (length us)) -> (j < m_next m1)%nat.
Proof.
  intros E A. destruct (new_coins_same us m) as (m2 & E2 & _ & _ & L2 & _ & N2 & _). rewrite E2 in E. injection E as <-. split; [|split; [exact L2|]].
  - intros i j J. rewrite L2 in J. rewrite N2. apply A in J. lia.
  - intros j J. apply in_seq in J. lia.
Qed.
Lemma allocated_get sg self m r m' : Allocated m -> get_unspents_in sg self m = (r, m') -> Allocated m'.
Proof.
  intros A E. unfold get_unspents_in, change, outside in E. unfold ibind, ilift, zoom, iret, iget, iput in E.
  destruct (coin_types sg) as [[[t1 v1] [t2 v2]]|e]; [|injection E as _ <-; exact A].
  destruct (sg_address sg) as [a|e]; [|injection E as _ <-; exact A].
  destruct (w_unspent (sg_version sg) a (m_world m)) as [[l1|e] w1]; [|injection E as _ <-; exact A].
  destruct (new_coins_same (map (fun u => set_type u t1 v1) l1) (with_world w1 m)) as (m1 & E1 & _).
  destruct (allocated_new _ _ _ E1 A) as (A1 & L1 & S1). rewrite E1 in E.
  set (m2 := with_list self (seq (m_next (with_world w1 m)) (length (map (fun u => set_type u t1 v1) l1))) m1) in E.
  assert (A2 : Allocated m2) by (apply allocated_list; auto).
  destruct (sg_segwit_address sg) as [[sa|]|e]; [|injection E as _ <-; exact A2|injection E as _ <-; exact A2].
  destruct (w_unspent (sg_version sg) sa (m_world m2)) as [[l2|e] w2]; [|injection E as _ <-; exact A2].
  destruct (new_coins_same (map (fun u => set_type u t2 v2) l2) (with_world w2 m2)) as (m3 & E3 & _).
  destruct (allocated_new _ _ _ E3 A2) as (A3 & L3 & S3). rewrite E3 in E. injection E as _ <-.
  cut (Allocated (with_list self (m_lists m3 self ++ seq (m_next (with_world w2 m2)) (length (map (fun u => set_type u t2 v2) l2))) m3)); [intros Q; exact Q|].
  apply allocated_list; auto. intros j J. apply in_app_or in J as [J|J]; [eapply A3; eauto|auto].
Qed.
Lemma allocated_sanitize (B : Blind WD) lst outputs fee leftover mc v o m r m' : Allocated m -> sanitize_in lst outputs fee leftover mc v o m = (r, m') -> Allocated m'.
Proof. intros A E. pose proof (sanitize_same B lst outputs fee leftover mc v o m) as S. rewrite E in S. destruct S as (_ & WI & _). eapply allocated_within; eauto. Qed.
Theorem C110_allocated (B : Blind WD) m m' : Allocated m ->
  ((exists sg self r, get_unspents_in sg self m = (r, m')) \/
   (exists sg self outputs fee leftover unspents o r, create_transaction_in sg self outputs fee leftover unspents o m = (r, m')) \/
   (exists sg self outputs fee leftover unspents o r, send_in sg self outputs fee leftover unspents o m = (r, m')) \/
   (exists new cls address outputs fee leftover unspents o r, prepare_in new cls address outputs fee leftover unspents o m = (r, m')) \/
   (exists sg self tx unspents r, sign_in sg self tx unspents m = (r, m'))) ->
  Allocated m'.
Proof.
  intros A.
  assert (CR1 : forall sg self outputs fee leftover unspents o r m1, create_transaction_in sg self outputs fee leftover unspents o m = (r, m1) -> Allocated m1).
  { intros sg self outputs fee leftover unspents o r m1 E. unfold create_transaction_in in E. unfold ibind at 1, iget at 1 in E. unfold ibind at 1 in E.
    assert (FST : exists r0 m0, (match unspents with Some l => match m_lists m l with _ :: _ => iret l | [] => get_unspents_in sg self end | None => get_unspents_in sg self end) m = (r0, m0) /\ Allocated m0).
    { destruct unspents as [l|]; [destruct (m_lists m l)|]; try (do 2 eexists; split; [reflexivity|exact A]);
      destruct (get_unspents_in sg self m) as [r0 m0] eqn:G; exists r0, m0; (split; [reflexivity|eapply allocated_get; eauto]). }
    destruct FST as (r0 & m0 & E0 & A0). rewrite E0 in E. destruct r0 as [l|e]; [|injection E as _ <-; exact A0].
    unfold ibind, iget, ilift, outside, zoom in E. destruct (if existsb u_is_segwit (contents m0 l) then _ else _) as [ra|e]; [|injection E as _ <-; exact A0].
    destruct (fee_or_cached fee (m_world m0)) as [[f|e] w]; [|injection E as _ <-; exact A0].
    destruct (sanitize_in l outputs f _ 0 (sg_version sg) o (with_world w m0)) as [r2 m2] eqn:S. apply (allocated_sanitize B) in S; [|exact A0].
    destruct r2; injection E as _ <-; exact S. }
  intros [(sg & self & r & E)|[(sg & self & outputs & fee & leftover & unspents & o & r & E)|[(sg & self & outputs & fee & leftover & unspents & o & r & E)|[(new & cls & address & outputs & fee & leftover & unspents & o & r & E)|(sg & self & tx & unspents & r & E)]]]].
  - eapply allocated_get; eauto.
  - eapply CR1; eauto.
  - unfold send_in in E. unfold ibind at 1 in E. destruct (create_transaction_in sg self outputs fee leftover unspents o m) as [r1 m1] eqn:C. apply CR1 in C.
    destruct r1 as [h|e]; [|injection E as _ <-; exact C]. unfold ibind, ilift, outside, zoom in E. destruct (w_broadcast _ _ _) as [[]]; injection E as _ <-; exact C.
  - unfold prepare_in in E. unfold ibind at 1, iget at 1 in E.
    set (fetch := us <~ outside (w_unspent cls address) ;; us <~ new_coins us ;; _ <~ change (with_list new us) ;; iret new) in E.
    assert (FE : exists r0 m0, fetch m = (r0, m0) /\ Allocated m0).
    { unfold fetch, change, ibind, iret, iget, iput, outside, zoom. destruct (w_unspent cls address (m_world m)) as [[us|e] w]; [|do 2 eexists; split; [reflexivity|exact A]].
      destruct (new_coins_same us (with_world w m)) as (m1 & E1 & _). destruct (allocated_new _ _ _ E1 A) as (A1 & L1 & S1). rewrite E1.
      do 2 eexists. split; [reflexivity|]. apply allocated_list; auto. }
    destruct FE as (rf & mf & EF & AF).
    assert (FST : exists r0 m0, (match unspents with Some l => match m_lists m l with _ :: _ => iret l | [] => fetch end | None => fetch end) m = (r0, m0) /\ Allocated m0).
    { destruct unspents as [l|]; [destruct (m_lists m l)|]; rewrite ?EF; do 2 eexists; (split; [reflexivity|]); auto. }
    destruct FST as (r0 & m0 & E0 & A0). unfold ibind at 1 in E. rewrite E0 in E. destruct r0 as [l|e]; [|injection E as _ <-; exact A0].
    unfold ibind, iget, ilift, iret, outside, zoom in E. destruct (fee_or_cached fee (m_world m0)) as [[f|e] w]; [|injection E as _ <-; exact A0].
    destruct (sanitize_in l outputs f _ 0 cls o (with_world w m0)) as [r2 m2] eqn:S. apply (allocated_sanitize B) in S; [|exact A0].
    destruct r2 as [os|e]; [|injection E as _ <-; exact S]. destruct (mapM json_dest os); injection E as _ <-; exact S.
  - unfold sign_in in E. set (des := match tx with Text s => deserialize_hex s | Json _ _ => Raise ValueError end) in E. fold (second_in sg self des) in E.
    unfold ibind at 1, iget at 1 in E.
    assert (SE : forall given m0, Allocated m0 -> second_in sg self des given m0 = (r, m') -> Allocated m').
    { intros given m0 A0 E0. unfold second_in in E0. unfold ibind, iget, iret, ilift in E0. destruct given as [|i l].
      - destruct (get_unspents_in sg self m0) as [r1 m1] eqn:G. apply allocated_get in G; [|exact A0]. destruct r1; [|injection E0 as _ <-; exact G]. destruct des; injection E0 as _ <-; exact G.
      - destruct des; injection E0 as _ <-; exact A0. }
    destruct tx as [us outs|t], unspents as [l|]; [exact (SE (m_lists m l) m A E)| |exact (SE (m_lists m l) m A E)|exact (SE [] m A E)].
    unfold ibind at 1 in E. destruct (new_coins_same (map from_dict us) m) as (m1 & E1 & _). destruct (allocated_new _ _ _ E1 A) as (A1 & _ & _). rewrite E1 in E.
    unfold ibind at 1, iget at 1 in E. unfold itry, ilift in E. destruct (create_new_transaction sg _ _); [injection E as _ <-; exact A1|]. eapply SE; [exact A1|exact E].
Qed.
End Heap.
Print Assumptions C110_prepare.
Print Assumptions C110_prepare_changes.
Print Assumptions C110_prepare_marked.
Print Assumptions C110_prepare_sticky.
Print Assumptions C110_sign.
Print Assumptions C110_allocated.

(** ** Examples *)
(** The memory of P_heap: the lists 1 and 2 hold the same two coins, nobody has
    the list 7.  The first is prepared with, the text is signed, and the second
    is paid with. *)
Definition first_prepared := @prepare_in toy _ _ toy_world 7 Main (addr_of wkey) one_out (Some 10) None (Some 1%nat) again_opts shared_mem.
Definition text_signed d m := @sign_in toy _ _ toy_world (Single wkey) 0 d None m.
Lemma prepared_runs : exists d m' h m1 h' m'', first_prepared = (Ok d, m') /\ text_signed d m' = (Ok h, m1) /\ has_coins d None m' = true /\
  second_shared m' = (Ok h', m'') /\ m_lists m' 1%nat = [0%nat; 1%nat].
Proof.
  assert (G : match first_prepared with (Ok d, m') => match text_signed d m' with (Ok _, _) => match second_shared m' with (Ok _, _) =>
      has_coins d None m' && (if list_eq_dec Nat.eq_dec (m_lists m' 1%nat) [0%nat; 1%nat] then true else false) | _ => false end | _ => false end | _ => false end = true) by (vm_compute; reflexivity).
  revert G. generalize first_prepared. intros [[d|e] m'] G; [|discriminate G]. exists d, m'. revert G. generalize (text_signed d m'). intros [[h|e] m1] G; [|discriminate G].
  revert G. generalize (second_shared m'). intros [[h'|e] m''] G; [|discriminate G]. apply andb_true_iff in G as [G1 G2].
  exists h, m1, h', m''. split; [reflexivity|]. split; [reflexivity|]. split; [exact G1|]. split; [reflexivity|].
  destruct (list_eq_dec Nat.eq_dec (m_lists m' 1%nat) [0%nat; 1%nat]) as [Q|Q]; [exact Q|discriminate G2].
Qed.
Local Opaque create_transaction_in get_unspents_in send_in prepare_in sign_in.
Lemma shared_allocated : Allocated shared_mem.
Proof. intros i j J. cbn in J |- *. destruct i as [|[|[|i]]]; cbn in J; try contradiction; destruct J as [<-|[<-|[]]]; lia. Qed.
Example C110_prepare_case : exists d m' h m1 h' m'' x f w, first_prepared = (Ok d, m') /\ text_signed d m' = (Ok h, m1) /\
  Allocated m' /\ View 0 m' (mkWallet (m_world m') (m_balance m' 0%nat) (contents m' 0%nat) [] []) /\ has_coins d None m' = true /\
  second_shared m' = (Ok h', m'') /\
  @Asked toy _ _ toy_world (Single wkey) one_out f None plain_opts (contents m' 2%nat) (contents m'' 2%nat) w h' x /\ Signals x.
Proof.
  destruct prepared_runs as (d & m' & h & m1 & h' & m'' & E & E1 & HC & E' & L). destruct C43_single_hypotheses as (K & _ & _ & _ & _ & _ & T & D & SC & _).
  destruct (@C110_prepare_sticky toy _ _ toy_world toy_ok toy_random_ok toy_blind 7 Main (addr_of wkey) one_out (Some 10) None 1 again_opts shared_mem d m' wkey 0 one_out (Some 10) None 2 plain_opts h' m''
    ltac:(discriminate) eq_refl E ltac:(discriminate) ltac:(discriminate) ltac:(rewrite L; apply incl_refl) K I T D SC E') as (x & f & w & A & S1).
  exists d, m', h, m1, h', m'', x, f, w. split; [exact E|]. split; [exact E1|]. split.
  { apply (@C110_allocated toy _ _ toy_world toy_blind shared_mem m' shared_allocated). do 3 right. left. exists 7%nat, Main, (addr_of wkey), one_out, (Some 10), None, (Some 1%nat), again_opts, (Ok d). exact E. }
  split; [split; [|split]; reflexivity|]. split; [exact HC|]. split; [exact E'|]. split; [exact A|exact S1].
Qed.
