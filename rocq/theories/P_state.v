(** C53, C67, C68: what fetching and creating transactions leaves in a wallet. *)
From Coq Require Import String Permutation.
From Verif Require Import F_wallet X_world F_spend F_build P_outputs P_select P_wallet P_create.

(** The type given to the coins of a wallet's legacy and segwit address. *)
Definition CoinType (sg : signer) (segwit : bool) : utype :=
  match sg, segwit with
  | Single k, false => if (length (k_public_key k) =? 33)%nat then P2PKH else P2PKH_uncompressed
  | Single _, true => NP2WKH
  | Multi _, false => P2SH
  | Multi _, true => NP2WSH
  end.
(** A coin as fetched, and as stored: only type, size and segwit flag differ. *)
Definition Typed (sg : signer) (segwit : bool) (u u' : Unspent) : Prop :=
  u_amount u' = u_amount u /\ u_confirmations u' = u_confirmations u /\ u_script u' = u_script u /\ u_txid u' = u_txid u /\
  u_txindex u' = u_txindex u /\ u_sequence u' = u_sequence u /\ u_type u' = CoinType sg segwit /\ u_is_segwit u' = segwit.

Section WithWorld.
Context {CR : Crypto} {W Amt : Type} {WD : World W Amt}.

Lemma coin_typed sg t1 v1 t2 v2 l : coin_types sg = Ok (t1, v1, (t2, v2)) ->
  Forall2 (Typed sg false) l (map (fun u => set_type u t1 v1) l) /\ Forall2 (Typed sg true) l (map (fun u => set_type u t2 v2) l).
Proof.
  intros E.
  assert (G : forall u, Typed sg false u (set_type u t1 v1) /\ Typed sg true u (set_type u t2 v2)).
  { intros u. unfold coin_types in E. destruct sg as [k|ms].
    - injection E as <- <- <- <-. unfold Typed, CoinType, key_is_compressed, zlen. split; [|repeat split].
      destruct (Nat.eqb_spec (length (k_public_key k)) 33) as [->|N]; [repeat split|].
      replace (Z.of_nat (length (k_public_key k)) =? 33) with false by lia. repeat split.
    - apply bind_ok in E as (n & _ & E). cbv zeta in E. apply bind_ok in E as (m & _ & E). injection E as <- <- <- <-. split; repeat split. }
  split; induction l; cbn; constructor; auto; apply G.
Qed.

(** The two requests of get_unspents. *)
Definition Fetched (sg : signer) (w : W) (l1 l2 : list Unspent) (w' : W) : Prop :=
  exists a w1 seg, sg_address sg = Ok a /\ w_unspent (sg_version sg) a w = (Ok l1, w1) /\ sg_segwit_address sg = Ok seg /\
    match seg with None => l2 = [] /\ w' = w1 | Some sa => w_unspent (sg_version sg) sa w1 = (Ok l2, w') end.

Theorem C53_fetched sg s us s' : get_unspents sg s = (Ok us, s') ->
  exists l1 l2 us1 us2, Fetched sg (wl_world s) l1 l2 (wl_world s') /\
    us = us1 ++ us2 /\ Forall2 (Typed sg false) l1 us1 /\ Forall2 (Typed sg true) l2 us2 /\
    wl_unspents s' = us /\ wl_balance s' = total (map u_amount us) /\ wl_balance s' = total (map u_amount l1) + total (map u_amount l2) /\
    wl_transactions s' = wl_transactions s /\ wl_caller s' = wl_caller s.
Proof.
  unfold get_unspents. intros E. apply ibind_ok in E as (((t1 & v1) & (t2 & v2)) & s0 & Et & E). apply ilift_ok in Et as (Et & ->). cbv beta iota in E.
  apply ibind_ok in E as (a & s0 & Ea & E). apply ilift_ok in Ea as (Ea & ->).
  apply ibind_ok in E as (l1 & s1 & E1 & E). unfold world, zoom in E1. destruct (w_unspent (sg_version sg) a (wl_world s)) as (r1 & w1) eqn:U1. injection E1 as -> <-.
  apply ibind_ok in E as (x & s2 & E2 & E). unfold modify, iget, iput, ibind in E2. injection E2 as <- <-.
  apply ibind_ok in E as (seg & s2 & Esg & E). apply ilift_ok in Esg as (Esg & ->).
  apply ibind_ok in E as (x & s3 & E3 & E).
  assert (T : forall l us, Forall2 (fun u u' => u_amount u' = u_amount u) l us -> map u_amount us = map u_amount l) by (induction 1; cbn; congruence).
  assert (TT : forall b l us, Forall2 (Typed sg b) l us -> map u_amount us = map u_amount l).
  { intros b l us' F. apply T. induction F as [|u u' l' us'' Q F IH]; constructor; auto. apply Q. }
  destruct (coin_typed _ _ _ _ _ l1 Et) as [C1 _].
  destruct seg as [sa|].
  - apply ibind_ok in E3 as (l2 & s4 & E4 & E3). unfold world, zoom in E4.
    cbn [wl_world set_unspents set_world] in E4. destruct (w_unspent (sg_version sg) sa w1) as (r2 & w2) eqn:U2. injection E4 as -> <-.
    unfold modify, iget, iput, ibind in E3. injection E3 as <- <-. unfold modify, iget, iput, ibind in E. injection E as <- <-.
    destruct (coin_typed _ _ _ _ _ l2 Et) as [_ C2].
    exists l1, l2, (map (fun u => set_type u t1 v1) l1), (map (fun u => set_type u t2 v2) l2). cbn. split.
    { exists a, w1, (Some sa). auto. }
    split; auto. split; auto. split; auto. split; auto. rewrite zsum_total. split; auto. split; auto. rewrite map_app, total_app, (TT _ _ _ C1), (TT _ _ _ C2). auto.
  - injection E3 as <- <-. unfold modify, iget, iput, ibind in E. injection E as <- <-.
    exists l1, [], (map (fun u => set_type u t1 v1) l1), []. cbn. split.
    { exists a, w1, None. auto. }
    rewrite app_nil_r. split; auto. split; auto. split; auto. split; auto. rewrite zsum_total. split; auto. split; auto. rewrite (TT _ _ _ C1). lia.
Qed.

(** If it fails, the balance stays; the unspents stay or are those of the legacy address. *)
Theorem C53_failed sg s e s' : get_unspents sg s = (Raise e, s') ->
  wl_balance s' = wl_balance s /\ wl_transactions s' = wl_transactions s /\ wl_caller s' = wl_caller s /\
  (wl_unspents s' = wl_unspents s \/
   exists a l1 w1, sg_address sg = Ok a /\ w_unspent (sg_version sg) a (wl_world s) = (Ok l1, w1) /\ Forall2 (Typed sg false) l1 (wl_unspents s') /\
     (sg_segwit_address sg = Raise e \/ exists sa w2, sg_segwit_address sg = Ok (Some sa) /\ w_unspent (sg_version sg) sa w1 = (Raise e, w2))).
Proof.
  unfold get_unspents. intros E. unfold ibind at 1, ilift at 1 in E. destruct (coin_types sg) as [((t1 & v1) & (t2 & v2))|] eqn:Et; [|injection E as <- <-; auto 6].
  cbv beta iota in E. unfold ibind at 1, ilift at 1 in E. destruct (sg_address sg) as [a|] eqn:Ea; [|injection E as <- <-; auto 6].
  unfold ibind at 1, world at 1, zoom at 1 in E. destruct (w_unspent (sg_version sg) a (wl_world s)) as ([l1|] & w1) eqn:U1; [|injection E as <- <-; auto 6].
  unfold ibind at 1, modify at 1, iget at 1, iput at 1 in E. unfold ibind at 1 in E.
  unfold ibind at 1, ilift at 1 in E. destruct (coin_typed _ _ _ _ _ l1 Et) as [C1 _].
  destruct (sg_segwit_address sg) as [[sa|]|] eqn:Es.
  - unfold ibind at 1 in E. unfold ibind at 1, world at 1, zoom at 1 in E. cbn [wl_world set_unspents set_world] in E.
    destruct (w_unspent (sg_version sg) sa w1) as ([l2|] & w2) eqn:U2; [discriminate|]. injection E as <- <-. cbn. do 3 (split; auto). right. exists a, l1, w1. split; auto. split; auto.
    split; [exact C1|]. eauto 6.
  - discriminate.
  - injection E as <- <-. cbn. do 3 (split; auto). right. exists a, l1, w1. split; auto.
Qed.

(** ** C68 *)
Theorem C68_history sg s ts s' : get_transactions sg s = (Ok ts, s') ->
  exists a h1 w1 seg h2, sg_address sg = Ok a /\ w_history (sg_version sg) a (wl_world s) = (Ok h1, w1) /\ sg_segwit_address sg = Ok seg /\
    (match seg with None => h2 = [] /\ wl_world s' = w1 | Some sa => w_history (sg_version sg) sa w1 = (Ok h2, wl_world s') end) /\
    ts = h1 ++ h2 /\ wl_transactions s' = ts /\ wl_unspents s' = wl_unspents s /\ wl_balance s' = wl_balance s.
Proof.
  unfold get_transactions. intros E. apply ibind_ok in E as (a & s0 & Ea & E). apply ilift_ok in Ea as (Ea & ->).
  apply ibind_ok in E as (h1 & s1 & E1 & E). unfold world, zoom in E1. destruct (w_history (sg_version sg) a (wl_world s)) as (r1 & w1) eqn:U1. injection E1 as -> <-.
  apply ibind_ok in E as (x & s2 & E2 & E). unfold modify, iget, iput, ibind in E2. injection E2 as <- <-.
  apply ibind_ok in E as (seg & s2 & Esg & E). apply ilift_ok in Esg as (Esg & ->).
  apply ibind_ok in E as (x & s3 & E3 & E). destruct seg as [sa|].
  - apply ibind_ok in E3 as (h2 & s4 & E4 & E3). unfold world, zoom in E4.
    cbn [wl_world set_transactions set_world] in E4. destruct (w_history (sg_version sg) sa w1) as (r2 & w2) eqn:U2. injection E4 as -> <-.
    unfold modify, iget, iput, ibind in E3. injection E3 as <- <-. unfold iget, ibind in E. injection E as <- <-.
    exists a, h1, w1, (Some sa), h2. cbn. auto 8.
  - injection E3 as <- <-. unfold iget, ibind in E. injection E as <- <-. exists a, h1, w1, None, []. cbn. rewrite app_nil_r. auto 9.
Qed.
(** A transaction that touches both addresses is listed twice. *)
Theorem C68_repeated sg s ts s' a h1 w1 sa h2 w2 t : get_transactions sg s = (Ok ts, s') ->
  sg_address sg = Ok a -> w_history (sg_version sg) a (wl_world s) = (Ok h1, w1) -> sg_segwit_address sg = Ok (Some sa) ->
  w_history (sg_version sg) sa w1 = (Ok h2, w2) -> In t h1 -> In t h2 -> ~ NoDup ts.
Proof.
  intros E A1 A2 A3 A4 I1 I2. destruct (C68_history _ _ _ _ E) as (a' & h1' & w1' & seg & h2' & B1 & B2 & B3 & B4 & -> & _).
  rewrite A1 in B1. injection B1 as <-. rewrite A2 in B2. injection B2 as <- <-. rewrite A3 in B3. injection B3 as <-. rewrite A4 in B4. injection B4 as <- _.
  intros D. apply in_split in I1 as (l & r & ->). rewrite <- app_assoc in D. cbn in D. apply NoDup_remove_2 in D. apply D. apply in_or_app. right. apply in_or_app. auto.
Qed.

(** ** C67 *)
Theorem C67_forgets (RO : RandomOk WD) sg outputs fee leftover unspents o s h s' us s1 :
  create_transaction sg outputs fee leftover unspents o s = (Ok h, s') -> given unspents = false -> Available sg unspents s us s1 ->
  exists taken unused, Permutation (taken ++ unused) us /\
    wl_unspents s' = (if o_replace_by_fee o then map opt_in_for_RBF taken else taken) /\
    wl_balance s' = total (map u_amount us) /\ total (map u_amount (wl_unspents s')) = wl_balance s' - total (map u_amount unused).
Proof.
  intros E G A. destruct (create_steps _ _ _ _ _ _ _ _ _ E) as (us2 & s2 & back & f & w1 & sel & outs & w2 & A2 & Ef & Es & En & Hs & _).
  assert (A' : get_unspents sg s = (Ok us, s1) /\ us2 = us /\ s2 = s1).
  { unfold Available in *. destruct unspents as [[|u r]|]; [|discriminate|]; split; auto; split; congruence. }
  destruct A' as (A' & -> & ->). rewrite G in Hs. destruct (C53_fetched _ _ _ _ A') as (l1 & l2 & us1 & us2 & _ & _ & _ & _ & _ & B & _).
  destruct (C44_inputs RO _ _ _ _ _ _ _ _ _ _ _ _ Es) as (taken & unused & P & _ & _ & Hsel). exists taken, unused. split; auto.
  subst s'. cbn [wl_unspents wl_balance set_world set_unspents]. split; auto. split; auto. rewrite B.
  assert (Q : total (map u_amount sel) = total (map u_amount taken)).
  { subst sel. destruct (o_replace_by_fee o); auto. destruct (rbf_maps taken) as (-> & _). auto. }
  rewrite Q. apply (Permutation_map u_amount) in P. rewrite map_app in P. apply total_perm in P. rewrite total_app in P. lia.
Qed.
(** Given unspents: the wallet keeps its attributes, the caller's list is cut down. *)
Theorem C67_given sg outputs fee leftover us o s h s' : us <> [] ->
  create_transaction sg outputs fee leftover (Some us) o s = (Ok h, s') ->
  wl_unspents s' = wl_unspents s /\ wl_balance s' = wl_balance s /\ wl_transactions s' = wl_transactions s /\
  exists f back w1 outs w2, sanitize_tx_data outputs f back 0 (sg_version sg) o (us, w1) = (Ok (wl_caller s', outs), (wl_caller s', w2)).
Proof.
  intros NE E. destruct (create_steps _ _ _ _ _ _ _ _ _ E) as (us2 & s2 & back & f & w1 & sel & outs & w2 & A2 & Ef & Es & En & Hs & _).
  destruct us as [|u r]; [contradiction|]. cbn [Available given] in *. destruct A2 as [-> ->]. subst s'. cbn. do 3 (split; auto). eauto 7.
Qed.
End WithWorld.
Print Assumptions C53_fetched.
Print Assumptions C53_failed.
Print Assumptions C67_forgets.
Print Assumptions C67_given.
Print Assumptions C68_history.
Print Assumptions C68_repeated.

(** ** The hypotheses are met, in the toy world. *)
Example C53_hypotheses : (exists us s', toy_fetched = (Ok us, s') /\ length us = 3%nat /\ wl_balance s' = 90000) /\
  (* the legacy address answers, the segwit address does not *)
  (exists s', @get_unspents toy _ _ {| w_convert := @w_convert _ _ toy_world; w_fee := @w_fee _ _ toy_world;
      w_unspent := fun n a => if list_eqb a (addr_of wkey) then iret legacy_coins else ilift (Raise ConnectionError);
      w_history := @w_history _ _ toy_world; w_broadcast := @w_broadcast _ _ toy_world; w_random := @w_random _ _ toy_world |} (Single wkey) wallet0 = (Raise ConnectionError, s') /\
    length (wl_unspents s') = 2%nat /\ wl_balance s' = 0).
Proof.
  split.
  - do 2 eexists. split; [vm_compute; reflexivity|]. split; reflexivity.
  - eexists. split; [vm_compute; reflexivity|]. split; reflexivity.
Qed.
(** Without [combine], one coin of the three is left in key.unspents: 40000 of 90000. *)
Definition create_toy_one := @create_transaction toy _ _ toy_world (Single wkey) (wouts other_key) None None None (wopts false false) wallet0.
Example C67_hypotheses : @RandomOk _ _ toy_world /\
  (exists h s', create_toy_one = (Ok h, s') /\ wl_balance s' = 90000 /\ total (map u_amount (wl_unspents s')) = 40000) /\
  (exists h s', create_toy_multi = (Ok h, s') /\ wl_balance s' = 0 /\ wl_unspents s' = [] /\ length (wl_caller s') = 2%nat).
Proof.
  split; [apply toy_random_ok|].
  assert (G : (let r := create_toy_one in match fst r with Ok _ => (wl_balance (snd r) =? 90000) && (total (map u_amount (wl_unspents (snd r))) =? 40000) | _ => false end) = true) by (vm_compute; reflexivity).
  assert (H : (let r := create_toy_multi in match fst r with Ok _ => (wl_balance (snd r) =? 0) && ((length (wl_unspents (snd r)) =? 0)%nat && (length (wl_caller (snd r)) =? 2)%nat) | _ => false end) = true)
    by (vm_compute; reflexivity).
  revert G H. generalize create_toy_one create_toy_multi. intros ([h|] & s) ([h'|] & s') G H; try discriminate. cbn [fst snd] in *.
  apply andb_true_iff in G as [G1 G2]. apply andb_true_iff in H as [H1 H2]. apply andb_true_iff in H2 as [H2 H3]. apply Z.eqb_eq in G1, G2, H1. apply Nat.eqb_eq in H2, H3.
  split; [exists h, s; auto|]. exists h', s'. do 2 (split; auto). split; auto. destruct (wl_unspents s'); [auto|discriminate].
Qed.
Example C68_hypotheses : exists ts s', @get_transactions toy _ _ toy_world (Single wkey) wallet0 = (Ok ts, s') /\ ts = [str "a"; str "b"].
Proof. do 2 eexists. split; vm_compute; reflexivity. Qed.
