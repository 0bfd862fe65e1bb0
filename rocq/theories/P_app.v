(** C74, C75, C76: wallets on top of bit.network. *)
From Coq Require Import String Permutation.
From Verif Require Import F_cosign F_cosigntx F_signtx F_wallet F_utf8 F_spend F_wire F_build P_outputs P_select P_sign P_multi P_wallet P_create P_state P_send X_world X_server.
From Verif Require Import M_app F_app S_Decimal S_History S_Servers S_Failover F_decimal F_network F_servers P_rates P_network P_services P_failover P_anyservice.

Section App.
Context {CR : Crypto} {E : Type} {OU : Outside E} {CH : Chance E} (rounds : nat).
Notation run := (S_History.run (E:=E) rounds).
Notation step := (S_History.step (E:=E) rounds).
Notation NW := (network (CR:=CR) (E:=E) rounds).
Notation Wal := (@Wallet (Net E)).
Notation Method := (Method (E:=E) rounds).

(** ** Histories with calls of wallet methods *)

(** The states of bit.network that can be reached: [calls] are the direct calls. *)
Inductive Reached (t1 t2 : Z) (e : E) : list (op E) -> Net E -> Prop :=
| R_start : Reached t1 t2 e [] (start t1 t2 e)
| R_call calls w o : Reached t1 t2 e calls w -> Reached t1 t2 e (calls ++ [o]) (step o w)
| R_method calls A (m : IO Wal A) s : Method A m -> Reached t1 t2 e calls (wl_world s) -> Reached t1 t2 e calls (wl_world (snd (m s))).

(** Calls that wallet methods make. *)
Definition Internal (o : op E) : Prop :=
  match o with
  | Transactions _ _ | Unspents _ _ | Broadcast _ _ | FeeCached _ | ToSatoshiCached _ _ | FromSatoshiCached _ _ | Meanwhile _ => True
  | _ => False
  end.
Definition Does (w w' : Net E) : Prop := exists ops, Forall Internal ops /\ w' = run ops w.
Lemma does_refl w : Does w w. Proof. exists []. auto. Qed.
Lemma does_trans a b c : Does a b -> Does b c -> Does a c.
Proof. intros (o1 & F1 & ->) (o2 & F2 & ->). exists (o1 ++ o2). split; [apply Forall_app; auto|]. rewrite run_app. reflexivity. Qed.
Lemma does_step o w : Internal o -> Does w (step o w).
Proof. intros I. exists [o]. split; auto. Qed.

Lemma walk_does n : Walk rounds n Does.
Proof.
  constructor.
  - exact does_refl.
  - exact does_trans.
  - intros a c w. apply (does_step (ToSatoshiCached a c)). exact I.
  - intros x c w. apply (does_step (FromSatoshiCached x c)). exact I.
  - intros w. apply (does_step (FeeCached true)). exact I.
  - intros a w. cbn. unfold ibind. pose proof (does_step (Unspents n a) w I) as D. cbn [S_History.step] in D.
    destruct (get_unspent rounds n a w) as [[[us|]|x] w1]; exact D.
  - intros a w. apply (does_step (Transactions n a)). exact I.
  - intros a w. apply (does_step (Broadcast n a)). exact I.
  - intros w. cbn. unfold outside, zoom. destruct (o_random (n_outside w)) as [r e'].
    apply (does_step (Meanwhile (fun _ => e'))). exact I.
Qed.
Lemma calls_method A (m : IO Wal A) : Method A m -> forall s, Does (wl_world s) (wl_world (snd (m s))).
Proof. intros (n & M) s. exact (method_walk rounds n A m Does M (walk_does n) s). Qed.

Lemma connected_app n (a b : list (op E)) : connected n (a ++ b) = match connected n b with Some u => Some u | None => connected n a end.
Proof.
  induction a as [|o a IH]; cbn [app connected]; [destruct (connected n b); reflexivity|]. rewrite IH. destruct (connected n b); reflexivity.
Qed.
Lemma internal_connected n ops : Forall Internal ops -> connected n ops = None.
Proof. induction 1 as [|o ops H F IH]; cbn [connected]; [reflexivity|]. rewrite IH. destruct o; try reflexivity. destruct H. Qed.

(** Whatever methods were called, the state is one that direct calls lead to, with
    the same connections to nodes: the properties of such histories (C56 to C62,
    C71, C72) hold when keys and wallets are used too. *)
Theorem C76_histories t1 t2 e calls w : Reached t1 t2 e calls w ->
  exists ops, w = run ops (start t1 t2 e) /\ (forall n, connected n ops = connected n calls) /\
    forall o, In o ops -> In o calls \/ Internal o.
Proof.
  induction 1 as [|calls w o R (ops & -> & HC & HI)|calls A m s M R (ops & EW & HC & HI)].
  - exists []. split; [reflexivity|]. split; [reflexivity|]. intros o [].
  - exists (ops ++ [o]). rewrite run_app. split; [reflexivity|]. split.
    + intros n. rewrite !connected_app, HC. reflexivity.
    + intros o' I. apply in_app_or in I as [I|I]; [destruct (HI o' I); auto; left; apply in_or_app; auto|]. left. apply in_or_app. auto.
  - destruct (calls_method A m M s) as (ops' & F & EW'). rewrite EW', EW. exists (ops ++ ops'). rewrite run_app. split; [reflexivity|]. split.
    + intros n. rewrite connected_app, internal_connected by auto. apply HC.
    + intros o I. apply in_app_or in I as [I|I]; [auto|]. right. rewrite Forall_forall in F. auto.
Qed.

(** No method of a key or wallet changes the services to ask, the precision of
    decimals, how long rates and fees are kept or how long to wait for a service. *)
Theorem C76_settings A (m : IO Wal A) s : Method A m ->
  let g := n_globals (wl_world s) in let g' := n_globals (wl_world (snd (m s))) in
  g_main g' = g_main g /\ g_test g' = g_test g /\ g_prec g' = g_prec g /\ g_rate_time g' = g_rate_time g /\ g_fee_time g' = g_fee_time g /\
  g_timeout g' = g_timeout g.
Proof.
  cbv zeta. intros M. destruct (calls_method A m M s) as (ops & F & ->). generalize (wl_world s). induction F as [|o ops H F IH]; intros w; [cbn; auto 6|].
  cbn [S_History.run]. destruct (IH (step o w)) as (-> & -> & -> & -> & -> & ->). pose proof (step_change rounds o w) as C.
  destruct o; cbn [Internal Change] in H, C; try contradiction; try (rewrite C; auto 6).
  - destruct C as [->|(x & t & ->)]; [auto 6|destruct fast; auto 6].
  - destruct C as [->|(x & t & ->)]; auto 6.
  - destruct C as [->|(x & t & ->)]; auto 6.
Qed.

(** ** The coins and the balance of a key or wallet *)

(** The services either cannot be used or know what there is to know about the
    address; at least one of them does. *)
Definition Reports (calls : list (op E)) (n : net) (L : Ledger) (address : pystr) : Prop :=
  (forall sv, In sv (unspent_services n calls) -> Down (call_unspent rounds n address sv) \/ Knows (OU:=OU) rounds n L address sv) /\
  exists sv, In sv (unspent_services n calls) /\ Knows (OU:=OU) rounds n L address sv /\ (sv = BlockchainInfo -> zlen (l_coins L) < 1000).
(** The ledger is about the address, and its amounts can be read. *)
Definition LedgerOf (prec : Z) (L : Ledger) (address : pystr) : Prop :=
  (exists script, address_to_scriptpubkey address = Ok (Some script) /\ l_script L = bytes_to_hex script) /\
  Forall (fun c => 0 <= c_value c < 10 ^ prec) (l_coins L) /\ (forall c h, In c (l_coins L) -> c_height c = Some h -> 0 <= h).
(** A coin in the ledger, and in the wallet. *)
Definition Held (sg : signer) (segwit : bool) (L : Ledger) (c : Coin) (u : Unspent) : Prop :=
  u_amount u = c_value c /\ u_confirmations u = confirmations L c /\ u_script u = l_script L /\ u_txid u = c_txid c /\
  u_txindex u = c_index c /\ u_sequence u = 4294967295 /\ u_type u = CoinType sg segwit /\ u_is_segwit u = segwit.
Definition AllHeld (sg : signer) (segwit : bool) (L : Ledger) (us : list Unspent) : Prop :=
  exists cs, Permutation (l_coins L) cs /\ Forall2 (Held sg segwit L) cs us.
Definition nothing : Ledger := mkLedger 0 [] [] [] [].

(** What the two addresses of a key or wallet hold; some have no segwit address. *)
Definition Owns (calls : list (op E)) (prec : Z) (sg : signer) (L1 L2 : Ledger) : Prop :=
  exists a seg, sg_address sg = Ok a /\ Reports calls (sg_version sg) L1 a /\ LedgerOf prec L1 a /\ sg_segwit_address sg = Ok seg /\
    match seg with None => L2 = nothing | Some sa => Reports calls (sg_version sg) L2 sa /\ LedgerOf prec L2 sa end.

Lemma services_same n (ops calls : list (op E)) : connected n ops = connected n calls -> unspent_services n ops = unspent_services n calls.
Proof. intros H. unfold unspent_services, services_for. rewrite H. reflexivity. Qed.
Lemma fetch_ledger t1 t2 e calls w n L a : Reached t1 t2 e calls w -> Reports calls n L a -> LedgerOf (g_prec (n_globals w)) L a ->
  exists us e', @w_unspent _ _ NW n a w = (Ok us, mkNet (n_globals w) e') /\ Coins L us.
Proof.
  intros R (RA & RE) ((script & SC & LS) & HV & HH). destruct (C76_histories _ _ _ _ _ R) as (ops & -> & HC & _).
  rewrite <- (services_same n ops calls (HC n)) in RA, RE.
  destruct (C71_any rounds n L a ops t1 t2 e script RA SC LS HV HH) as (r & e' & ER & _ & HS). destruct (HS RE) as (us & -> & C).
  exists us, e'. split; [|exact C]. cbn. unfold ibind. rewrite ER. reflexivity.
Qed.
Lemma reached_outside t1 t2 e calls g w e' : Reached t1 t2 e calls w -> n_globals w = g -> exists calls', Reached t1 t2 e calls' (mkNet g e') /\ forall n, connected n calls' = connected n calls.
Proof.
  intros R <-. exists (calls ++ [Meanwhile (fun _ => e')]). split; [exact (R_call _ _ _ _ _ (Meanwhile (fun _ => e')) R)|].
  intros n. rewrite connected_app. reflexivity.
Qed.
Lemma coins_held sg b L us us' : Coins L us -> Forall2 (Typed sg b) us us' -> AllHeld sg b L us' /\ S_Fee.total (map u_amount us') = total L.
Proof.
  intros (cs & P & F) T. split.
  - exists cs. split; auto. clear P. revert us' T. induction F as [|c u cs us H F IH]; intros us' T; inversion T as [|? u' ? us'' T1 T2]; subst; constructor; auto.
    destruct T1 as (A1 & A2 & A3 & A4 & A5 & A6 & A7 & A8). unfold Holds in H. subst u. cbn in *. repeat split; auto.
  - assert (Q : S_Fee.total (map u_amount us') = fold_right Z.add 0 (map c_value cs)).
    { clear P. revert us' T. induction F as [|c u cs us H F IH]; intros us' T; inversion T as [|? u' ? us'' T1 T2]; subst; cbn; auto.
      rewrite (IH _ T2). destruct T1 as (A1 & _). unfold Holds in H. subst u. cbn in A1. lia. }
    rewrite Q. unfold total. clear Q F. induction P; cbn; lia.
Qed.

(** get_unspents returns all coins of both addresses, with the right type, and
    sets the balance to their sum, whichever service answers. *)
Theorem C74_unspents t1 t2 e calls sg s L1 L2 ts : Reached t1 t2 e calls (wl_world s) -> Owns calls (g_prec (n_globals (wl_world s))) sg L1 L2 ->
  coin_types sg = Ok ts ->
  exists us1 us2 s', @get_unspents CR _ _ NW sg s = (Ok (us1 ++ us2), s') /\ AllHeld sg false L1 us1 /\ AllHeld sg true L2 us2 /\
    wl_unspents s' = us1 ++ us2 /\ wl_balance s' = total L1 + total L2 /\
    n_globals (wl_world s') = n_globals (wl_world s).
Proof.
  intros R (a & seg & EA & RA & LA & ES & H2) ET. destruct ts as ((ty1 & v1) & (ty2 & v2)).
  destruct (fetch_ledger _ _ _ _ _ _ _ _ R RA LA) as (l1 & e1 & U1 & C1).
  destruct (coin_typed sg ty1 v1 ty2 v2 l1 ET) as [T1 _].
  destruct (reached_outside _ _ _ _ _ _ e1 R eq_refl) as (calls' & R' & HC).
  assert (SV : forall L x, Reports calls (sg_version sg) L x -> Reports calls' (sg_version sg) L x).
  { intros L x. unfold Reports. rewrite (services_same (sg_version sg) calls' calls) by auto. auto. }
  assert (G : exists l2 e2, Coins L2 l2 /\ match seg with None => l2 = [] /\ e2 = e1 | Some sa => @w_unspent _ _ NW (sg_version sg) sa (mkNet (n_globals (wl_world s)) e1) = (Ok l2, mkNet (n_globals (wl_world s)) e2) end).
  { destruct seg as [sa|].
    - destruct H2 as [RS LS]. destruct (fetch_ledger _ _ _ _ _ _ _ _ R' (SV _ _ RS) LS) as (l2 & e2 & U2 & C2). exists l2, e2. auto.
    - subst L2. exists [], e1. split; auto. exists []. split; constructor. }
  destruct G as (l2 & e2 & C2 & G2). destruct (coin_typed sg ty1 v1 ty2 v2 l2 ET) as [_ T2].
  assert (RUN : exists s', @get_unspents CR _ _ NW sg s = (Ok (map (fun u => set_type u ty1 v1) l1 ++ map (fun u => set_type u ty2 v2) l2), s') /\
    wl_world s' = mkNet (n_globals (wl_world s)) e2).
  { unfold get_unspents. rewrite ET. unfold ibind at 1, ilift at 1. cbv beta iota. rewrite EA. unfold ibind at 1, ilift at 1. cbv beta iota.
    unfold ibind at 1, world at 1, zoom at 1. rewrite U1. unfold ibind at 1, modify at 1, iget at 1, iput at 1. unfold ibind at 1.
    rewrite ES. unfold ibind at 1, ilift at 1. destruct seg as [sa|].
    - unfold ibind at 1. unfold ibind at 1, world at 1, zoom at 1. cbn [wl_world set_unspents set_world]. rewrite G2. eexists. split; [reflexivity|]. reflexivity.
    - destruct G2 as [-> ->]. cbn [map]. rewrite app_nil_r. eexists. split; [reflexivity|]. reflexivity. }
  destruct RUN as (s' & RUN & EW). destruct (C53_fetched _ _ _ _ RUN) as (_ & _ & _ & _ & _ & _ & _ & _ & EU & EB & _).
  destruct (coins_held _ _ _ _ _ C1 T1) as [A1 B1]. destruct (coins_held _ _ _ _ _ C2 T2) as [A2 B2].
  eexists _, _, s'. split; [exact RUN|]. split; [exact A1|]. split; [exact A2|]. split; [exact EU|].
  split; [|rewrite EW; reflexivity]. rewrite EB, map_app, total_app, B1, B2. reflexivity.
Qed.

(** A rate that is a unit is exact in every history. *)
Lemma unit_rate t1 t2 e calls w unit_ u now e1 : Reached t1 t2 e calls w -> In (unit_, u) units -> o_time (n_outside w) = (Ok now, e1) ->
  exists w', currency_to_satoshi_cached (str "1") unit_ w = (Ok (10 ^ u), w') /\ g_prec (n_globals w') = g_prec (n_globals w).
Proof.
  intros R HU ET. destruct (C76_histories _ _ _ _ _ R) as (ops & EW & _ & _).
  assert (B : 10 ^ u < 10 ^ 9) by (cbn in HU; repeat (destruct HU as [HU|HU]; [injection HU as _ <-; reflexivity|]); destruct HU).
  assert (Sg1 : Signed false 1 0 (str "1")).
  { constructor. constructor; [|discriminate]. exact (Dsnoc 0 [] 1 Dnil ltac:(lia)). }
  pose proof (C57_units rounds ops t1 t2 e unit_ u false 1 0 (str "1")) as C. cbv zeta in C. rewrite <- EW in C.
  specialize (C now e1 HU Sg1 ltac:(reflexivity) ltac:(lia) ET).
  pose proof (step_change rounds (ToSatoshiCached (str "1") unit_) w) as SC. cbn [S_History.step Change] in SC.
  destruct (currency_to_satoshi_cached (str "1") unit_ w) as [r w'] eqn:EC. cbn [fst snd] in *. exists w'. split.
  - rewrite C. unfold trunc. rewrite Z.mul_1_l, Z.div_1_r. reflexivity.
  - destruct SC as [->|(x & t & ->)]; reflexivity.
Qed.

(** get_balance shows the sum of the coins of both addresses, exactly, in any unit. *)
Theorem C74_balance t1 t2 e calls sg s L1 L2 ts unit_ u : Reached t1 t2 e calls (wl_world s) -> Owns calls (g_prec (n_globals (wl_world s))) sg L1 L2 ->
  coin_types sg = Ok ts -> In (unit_, u) units -> (forall x, exists now x', o_time x = (Ok now, x')) ->
  total L1 + total L2 < 10 ^ g_prec (n_globals (wl_world s)) ->
  exists text s', key_get_balance rounds sg unit_ s = (Ok text, s') /\ Shortest (total L1 + total L2) u text /\ wl_balance s' = total L1 + total L2.
Proof.
  intros R O ET HU TM HB. destruct (C74_unspents _ _ _ _ _ _ _ _ _ R O ET) as (us1 & us2 & s1 & EG & _ & _ & _ & EB & GL).
  pose proof (R_method _ _ _ _ _ _ s (ex_intro _ _ (M_unspents rounds sg)) R) as R1. rewrite EG in R1. cbn [snd] in R1.
  assert (NN : 0 <= total L1 + total L2).
  { destruct O as (a & seg & _ & _ & (_ & V1 & _) & _ & H2).
    assert (T : forall L P, Forall (fun c => 0 <= c_value c < P) (l_coins L) -> 0 <= total L).
    { intros L P F. unfold total. induction F; cbn; lia. }
    pose proof (T _ _ V1). destruct seg; [|subst L2; cbn; lia]. destruct H2 as (_ & _ & V2 & _). pose proof (T _ _ V2). lia. }
  destruct (TM (n_outside (wl_world s1))) as (now & x' & ET1).
  destruct (unit_rate _ _ _ _ _ _ _ _ _ R1 HU ET1) as (w' & EC & EP).
  destruct (units_rate (E:=E) _ _ HU) as (Hu & EPR & _).
  assert (PR : g_prec (n_globals (wl_world s)) = 28 \/ g_prec (n_globals (wl_world s)) = 9).
  { destruct (C76_histories _ _ _ _ _ R) as (ops & -> & _). apply (precision_always rounds ops t1 t2 e). }
  destruct (show_unit (g_prec (n_globals w')) (total L1 + total L2) u) as (text & ES & SH).
  { rewrite EP, GL. destruct PR as [-> | ->]; lia. }
  { exact (proj1 Hu). }
  { rewrite EP, GL. destruct PR as [-> | ->]; lia. }
  { rewrite EP, GL, Z.abs_eq by exact NN. exact HB. }
  rewrite Z.abs_eq in SH by lia. replace (total L1 + total L2 <? 0) with false in ES by lia. cbn [app] in ES.
  exists text, (set_world w' s1). split; [|split; [exact SH|cbn; exact EB]].
  unfold key_get_balance. unfold ibind at 1. rewrite EG. unfold balance_as. unfold ibind at 1, iget. unfold world, zoom.
  unfold satoshi_to_currency_cached. unfold ibind at 1. rewrite EC. unfold ibind at 1, ilift at 1. rewrite EPR.
  unfold ibind at 1. change (globals w') with (Ok (n_globals w'), w'). cbv beta iota. rewrite EB, ES. reflexivity.
Qed.

(** ** Sending *)
(** The ids of the coins are those of transactions, and no coin is listed twice. *)
Definition GoodIds (cs : list Coin) : Prop :=
  Forall (fun c => exists t, hex_to_bytes (c_txid c) = Ok t /\ length t = 32%nat) cs /\
  NoDup (map (fun c => (hex_to_bytes (c_txid c), c_index c)) cs).

Lemma held_ids sg b L cs us : Forall2 (Held sg b L) cs us ->
  map (fun u => (hex_to_bytes (u_txid u), u_txindex u)) us = map (fun c => (hex_to_bytes (c_txid c), c_index c)) cs.
Proof. induction 1 as [|c u cs us (_ & _ & _ & H1 & H2 & _) F IH]; cbn; [reflexivity|]. rewrite IH, H1, H2. reflexivity. Qed.
Lemma held_good sg L1 L2 us1 us2 : GoodIds (l_coins L1 ++ l_coins L2) -> AllHeld sg false L1 us1 -> AllHeld sg true L2 us2 ->
  Forall TxidOk (us1 ++ us2) /\ Distinct (us1 ++ us2).
Proof.
  intros (G1 & G2) (cs1 & P1 & F1) (cs2 & P2 & F2). pose proof (Permutation_app P1 P2) as P. split.
  - assert (T : forall b L cs us, Forall2 (Held sg b L) cs us -> Forall (fun c => exists t, hex_to_bytes (c_txid c) = Ok t /\ length t = 32%nat) cs -> Forall TxidOk us).
    { intros b L cs us. induction 1 as [|c u cs us (_ & _ & _ & H & _) F IH]; intros G; [constructor|]. inversion G; subst. constructor; auto. unfold TxidOk. rewrite H. auto. }
    apply (Permutation_Forall P) in G1. apply Forall_app in G1 as [A1 A2]. apply Forall_app. split; eauto.
  - unfold Distinct. rewrite map_app, (held_ids _ _ _ _ _ F1), (held_ids _ _ _ _ _ F2), <- map_app.
    eapply Permutation_NoDup; [|exact G2]. apply Permutation_map. exact P.
Qed.
Lemma held_single (HO : HashOk CR) calls prec k L1 L2 us1 us2 : KeyOk k -> Owns calls prec (Single k) L1 L2 ->
  AllHeld (Single k) false L1 us1 -> AllHeld (Single k) true L2 us2 -> Forall (SingleCoin k) (us1 ++ us2).
Proof.
  intros K (a & seg & EA & _ & ((script & SC & LS) & _) & ES & H2) (cs1 & _ & F1) (cs2 & P2 & F2). apply Forall_app. split.
  - apply (key_address_script HO k a _ (ko_hash k K) EA) in SC. injection SC as ->.
    clear -F1 LS. induction F1 as [|c u cs us (_ & _ & H1 & _ & _ & _ & _ & H2) F IH]; constructor; auto. unfold SingleCoin. rewrite H2, H1. exact LS.
  - cbn [sg_segwit_address] in ES. unfold key_segwit_address in ES. destruct (key_is_compressed k) eqn:C.
    + unfold public_key_to_segwit_address in ES. unfold key_is_compressed in C. rewrite C in ES. cbn in ES. injection ES as <-.
      destruct H2 as (_ & ((sc & SC2 & LS2) & _)).
      apply (b58_p2sh HO (k_version k)) in SC2. injection SC2 as ->. clear -F2 LS2 C.
      induction F2 as [|c u cs us (_ & _ & H1 & _ & _ & _ & _ & H2) F IH]; constructor; auto. unfold SingleCoin. rewrite H2, H1.
      unfold zlen in C. split; [lia|]. exact LS2.
    + injection ES as <-. subst L2. apply Permutation_nil in P2. subst cs2. inversion F2. constructor.
Qed.

(** With coins fetched from any services that know the addresses of the key: the
    transaction spends only such coins, is what the caller asked for, and was
    accepted as it is by a service of the key's network; the id is its id. *)
Theorem C75_send (HO : HashOk CR) (SF : forall x rnd x', o_random x = (Ok rnd, x') -> Shuffle (r_shuffle rnd))
    t1 t2 e calls k outputs fee leftover o s i s' L1 L2 :
  Reached t1 t2 e calls (wl_world s) -> KeyOk k -> MsgOk o -> Owns calls (g_prec (n_globals (wl_world s))) (Single k) L1 L2 ->
  GoodIds (l_coins L1 ++ l_coins L2) -> @send CR _ _ NW (Single k) outputs fee leftover None o s = (Ok i, s') ->
  exists us1 us2 s1 h w1 x sel f w2,
    AllHeld (Single k) false L1 us1 /\ AllHeld (Single k) true L2 us2 /\ @get_unspents CR _ _ NW (Single k) s = (Ok (us1 ++ us2), s1) /\
    @FeeRate _ _ NW fee (wl_world s1) f w2 /\ @Asked CR _ _ NW (Single k) outputs f leftover o (us1 ++ us2) sel w2 h x /\
    (forall j u xi, nth_error sel j = Some u -> nth_error (t_ins x) j = Some xi -> spends_single k x j u xi) /\
    Submitted (call_broadcast (k_version k) h) (broadcast_services (k_version k) calls) w1 (Ok tt) (wl_world s') /\
    IdOf x i.
Proof.
  intros R K M O G ES. destruct (C74_unspents _ _ _ _ _ _ _ _ _ R O eq_refl) as (us1 & us2 & s1 & EG & A1 & A2 & _).
  destruct (held_good _ _ _ _ _ G A1 A2) as [TX DI]. pose proof (held_single HO _ _ _ _ _ _ _ K O A1 A2) as SC.
  assert (RO : RandomOk NW).
  { intros w rnd w' ER. cbn in ER. unfold outside, zoom in ER. destruct (o_random (n_outside w)) as [r x'] eqn:EO. injection ER as -> <-. exact (SF _ _ _ EO). }
  destruct (@C73_send CR HO _ _ NW RO k outputs fee leftover None o s i s' (us1 ++ us2) s1 K M ES EG TX DI SC)
    as (h & s2 & x & sel & f & w & EC & EB & _ & FR & AS & SP & ID).
  exists us1, us2, s1, h, (wl_world s2), x, sel, f, w. do 6 (split; auto). split; auto.
  pose proof (R_method _ _ _ _ _ _ s (ex_intro _ _ (M_create rounds (Single k) outputs fee leftover None o)) R) as R2. rewrite EC in R2. cbn [snd] in R2.
  destruct (C76_histories _ _ _ _ _ R2) as (ops & EW & HC & _).
  pose proof (C60_broadcast rounds ops t1 t2 e (k_version k) h (Ok tt) (wl_world s')) as [C _]. cbv zeta in C. rewrite <- EW in C.
  unfold broadcast_services, services_for in C |- *. rewrite <- HC. apply C. exact EB.
Qed.
Lemma held_multi (HO : HashOk CR) calls prec e k L1 L2 us1 us2 : EnvOk e -> Owns calls prec (Multi (wallet e k)) L1 L2 ->
  AllHeld (Multi (wallet e k)) false L1 us1 -> AllHeld (Multi (wallet e k)) true L2 us2 -> Forall (MultiCoin e) (us1 ++ us2).
Proof.
  intros EO (a & seg & EA & _ & ((script & SC & LS) & _) & ES & H2) (cs1 & _ & F1) (cs2 & P2 & F2).
  pose proof (eo_redeem e EO) as N. cbn [sg_address sg_segwit_address] in EA, ES. unfold ms_address, multisig_to_address in EA. cbn [wallet ms_public_keys ms_m ms_version] in EA.
  rewrite N in EA. cbn [bind] in EA. injection EA as <-. apply (b58_p2sh HO (e_ver e)) in SC. injection SC as ->.
  apply Forall_app. split.
  - clear -F1 LS. induction F1 as [|c u cs us (_ & _ & H1 & _ & _ & _ & _ & H2) F IH]; constructor; auto. unfold MultiCoin. rewrite H2, H1. exact LS.
  - unfold ms_segwit_address in ES. destruct (ms_is_compressed (wallet e k)) eqn:C.
    + unfold multisig_to_segwit_address in ES. cbn [wallet ms_public_keys ms_m ms_version] in ES. rewrite N in ES. cbn [bind rmap] in ES. injection ES as <-.
      destruct H2 as (_ & ((sc & SC2 & LS2) & _)). apply (b58_p2sh HO (e_ver e)) in SC2. injection SC2 as ->.
      assert (P33 : Forall (fun p => length p = 33%nat) (e_pubs e)).
      { unfold ms_is_compressed in C. cbn [wallet ms_public_keys] in C. rewrite forallb_forall in C. rewrite Forall_forall. intros p Hp. specialize (C p Hp). unfold zlen in C. lia. }
      clear -F2 LS2 P33. induction F2 as [|c u cs us (_ & _ & H1 & _ & _ & _ & _ & H2) F IH]; constructor; auto. unfold MultiCoin. rewrite H2, H1. split; auto.
    + injection ES as <-. subst L2. apply Permutation_nil in P2. subst cs2. inversion F2. constructor.
Qed.

(** The same for a transaction made by a multisig wallet and passed on to the other
    co-signers. *)
Theorem C75_multi (HO : HashOk CR) (SF : forall x rnd x', o_random x = (Ok rnd, x') -> Shuffle (r_shuffle rnd))
    t1 t2 e calls ms k ks outputs fee leftover o s h s' L1 L2 :
  Reached t1 t2 e calls (wl_world s) -> EnvOk ms -> Signers ms (k :: ks) -> zlen (k :: ks) <= e_m ms -> MsgOk o ->
  Owns calls (g_prec (n_globals (wl_world s))) (Multi (wallet ms k)) L1 L2 -> GoodIds (l_coins L1 ++ l_coins L2) ->
  @create_transaction CR _ _ NW (Multi (wallet ms k)) outputs fee leftover None o s = (Ok h, s') ->
  exists us1 us2 s1 h' x sel f w2,
    AllHeld (Multi (wallet ms k)) false L1 us1 /\ AllHeld (Multi (wallet ms k)) true L2 us2 /\
    @get_unspents CR _ _ NW (Multi (wallet ms k)) s = (Ok (us1 ++ us2), s1) /\
    @FeeRate _ _ NW fee (wl_world s1) f w2 /\ pass_all ms sel h ks = Ok h' /\
    @Asked CR _ _ NW (Multi (wallet ms k)) outputs f leftover o (us1 ++ us2) sel w2 h' x /\
    forall j u xi, nth_error sel j = Some u -> nth_error (t_ins x) j = Some xi ->
      exists z, part_spends ms (k :: ks) x j u z xi /\ (zlen (k :: ks) = e_m ms -> z = 0%nat).
Proof.
  intros R EO K LM M O G EC.
  assert (CT : exists ts, coin_types (Multi (wallet ms k)) = Ok ts).
  { destruct (coin_types (Multi (wallet ms k))) as [ts|x] eqn:CT; [eauto|]. exfalso.
    unfold create_transaction in EC. cbn [nonempty] in EC. unfold ibind at 1 2 in EC. unfold get_unspents in EC. unfold ibind at 1 in EC. rewrite CT in EC. discriminate. }
  destruct CT as (ts & CT). destruct (C74_unspents _ _ _ _ _ _ _ _ _ R O CT) as (us1 & us2 & s1 & EG & A1 & A2 & _).
  destruct (held_good _ _ _ _ _ G A1 A2) as [TX DI]. pose proof (held_multi HO _ _ _ _ _ _ _ _ EO O A1 A2) as SC.
  assert (RO : RandomOk NW).
  { intros w rnd w' ER. cbn in ER. unfold outside, zoom in ER. destruct (o_random (n_outside w)) as [r x'] eqn:EO2. injection ER as -> <-. exact (SF _ _ _ EO2). }
  destruct (@C50_create_multi CR HO _ _ NW RO ms k ks outputs fee leftover None o s h s' (us1 ++ us2) s1 EO K LM M EC EG TX DI SC)
    as (h' & x & sel & f & w & FR & EP & AS & SP).
  exists us1, us2, s1, h', x, sel, f, w. do 6 (split; auto).
Qed.
End App.
Print Assumptions C74_unspents.
Print Assumptions C74_balance.
Print Assumptions C75_send.
Print Assumptions C75_multi.
Print Assumptions C76_histories.
Print Assumptions C76_settings.

(** ** Examples: only Blockstream can be reached and knows both addresses of the key *)
Definition town_txid (b : Z) : pystr := bytes_to_hex (repeat b 32).
Definition town_coin1 : Coin := mkCoin 20000 (Some 699998) (town_txid 1) 0.
Definition town_coin2 : Coin := mkCoin 30000 None (town_txid 2) 5.
Definition town_coin3 : Coin := mkCoin 40000 (Some 600000) (town_txid 3) 1.
Definition town_a : pystr := Eval vm_compute in addr_of wkey.
Definition town_sa : pystr := Eval vm_compute in segwit_addr_of wkey.
Definition town_ms : MultiSig := wallet toy_env (toy_k 5).
Definition town_ma : pystr := Eval vm_compute in match @ms_address toy town_ms with Ok a => a | Raise _ => [] end.
Definition town_msa : pystr := Eval vm_compute in match @ms_segwit_address toy town_ms with Ok (Some a) => a | _ => [] end.
Definition ledger_legacy (a : pystr) : Ledger := mkLedger 700000 (hex_script a) [town_coin1; town_coin2] [] [].
Definition ledger_segwit (a : pystr) : Ledger := mkLedger 700000 (hex_script a) [town_coin3] [] [].
Definition town_legacy : Ledger := ledger_legacy town_a.
Definition town_segwit : Ledger := ledger_segwit town_sa.
Definition blockstream_stats (n : Z) : json :=
  obj [("chain_stats", obj [("funded_txo_sum", JInt n); ("spent_txo_sum", JInt 0)]);
       ("mempool_stats", obj [("funded_txo_sum", JInt 0); ("spent_txo_sum", JInt 0)])]%string.
Definition pages_for (a : pystr) (L : Ledger) : list (pystr * json) :=
  let bs := str "https://blockstream.info/api/address/" in
  [(bs ++ a ++ str "/utxo", JList (map blockstream_json (l_coins L))); (bs ++ a ++ str "/txs/mempool", JList []);
   (bs ++ a ++ str "/txs/chain/", JList []); (bs ++ a, blockstream_stats (total L))].
Definition town_pages : list (pystr * json) :=
  pages_for town_a town_legacy ++ pages_for town_sa town_segwit ++
  pages_for town_ma (ledger_legacy town_ma) ++ pages_for town_msa (ledger_segwit town_msa).
(** The state: the number of requests and what was posted. *)
Definition Town : Type := Z * list pystr.
#[local] Instance town : Outside Town := {|
  o_get := fun url ps _ e => (if list_eqb (firstn 24 url) (str "https://blockstream.info")
      then if list_eqb url (str "https://blockstream.info/api/blocks/tip/height") then Ok (mkResp 200 (str "700000") (Raise ValueError))
      else match find (fun p => list_eqb (fst p) url) town_pages with
           | Some p => Ok (mkResp 200 [] (Ok (snd p)))
           | None => Ok (mkResp 404 [] (Raise ValueError)) end
      else Raise ReqConnectionError, (fst e + 1, snd e));
  o_post := fun url ps _ e => if list_eqb (firstn 24 url) (str "https://blockstream.info")
      then (Ok (mkResp 200 [] (Raise ValueError)), (fst e + 1, snd e ++ map snd (match ps with Form l | JsonBody l => l end)))
      else (Raise ReqConnectionError, (fst e + 1, snd e));
  o_rpc := fun _ _ _ _ e => (Raise ReqConnectionError, e);
  o_time := fun e => (Ok (fst e), e) |}.
#[local] Instance town_chance : Chance Town := {| o_random := iret (mkRandom (fun _ => false) (@rev Unspent)) |}.
Definition town_state : Net Town := start 0 0 (0, []).
Definition town_wallet : @Wallet (Net Town) := mkWallet town_state 0 [] [] [].

Lemma town_replies url ps j (P : json -> Prop) :
  (list_eqb (firstn 24 url) (str "https://blockstream.info") && negb (list_eqb url (str "https://blockstream.info/api/blocks/tip/height")))%bool = true ->
  find (fun p => list_eqb (fst p) url) town_pages = Some (url, j) -> P j -> Replies url ps P.
Proof.
  intros HU HF HP t e. apply andb_true_iff in HU as [U1 U2]. apply negb_true_iff in U2. cbn [o_get town]. rewrite U1, U2, HF. eexists _, j, _.
  split; [reflexivity|]. cbn. auto.
Qed.
Ltac town_page := eapply town_replies; [vm_compute; reflexivity|vm_compute; reflexivity|].
Ltac town_json := eexists; split; [unfold blockstream_json; hask|split; [hask|split; [hask|split; [hask|cbn; try split; hask]]]].
Lemma town_tip : RepliesText (OU:=town) (blockstream_url Main "blocks/tip/height") (fun t => Digits 700000 t /\ t <> []).
Proof. intros e. eexists _, _. split; [reflexivity|]. split; [reflexivity|]. split; [apply (digits_of (str "700000")); reflexivity|discriminate]. Qed.
Lemma town_empty : list_of Txid [] (JList []).
Proof. eexists. split; [reflexivity|constructor]. Qed.
Ltac town_serves := split; [exact town_tip|]; split; [|split; [|split; [|split]]];
  [ eapply town_replies; [vm_compute; reflexivity|vm_compute; reflexivity|]; eexists; split; [reflexivity|]; all2; town_json
  | town_page; apply town_empty
  | town_page; apply town_empty
  | intros pre t post H; destruct pre; discriminate
  | eapply town_replies; [vm_compute; reflexivity|vm_compute; reflexivity|];
    eexists _, _, _, _, _, _; repeat (split; [hask|]); reflexivity ].
Example town_serves1 : ServesBlockstream (OU:=town) Main 25 town_legacy town_a.
Proof. town_serves. Qed.
Example town_serves2 : ServesBlockstream (OU:=town) Main 25 town_segwit town_sa.
Proof. town_serves. Qed.
Example town_serves3 : ServesBlockstream (OU:=town) Main 25 (ledger_legacy town_ma) town_ma.
Proof. town_serves. Qed.
Example town_serves4 : ServesBlockstream (OU:=town) Main 25 (ledger_segwit town_msa) town_msa.
Proof. town_serves. Qed.
Lemma town_reports L a calls : connected Main calls = None -> (length (l_confirmed L) < 5)%nat -> ServesBlockstream (OU:=town) Main 25 L a ->
  @Reports toy Town town 5 calls Main L a.
Proof.
  intros NC LC SB. assert (KN : Knows (OU:=town) 5 Main L a Blockstream).
  { exists L. split; [repeat split; reflexivity|]. exists 25%nat. split; [lia|]. auto. }
  unfold Reports, unspent_services, services_for. rewrite NC. split.
  - intros sv I. cbn in I. repeat (destruct I as [<-|I]; [try (right; exact KN); left; intros [g x]; eexists _, _; (split; [reflexivity|]); unfold Unusable; cbn; auto|]). destruct I.
  - exists Blockstream. split; [cbn; auto|]. split; [exact KN|discriminate].
Qed.
Lemma town_ledger L a : (match @address_to_scriptpubkey toy a with Ok (Some b) => list_eqb (l_script L) (bytes_to_hex b) | _ => false end) = true ->
  forallb (fun c => (0 <=? c_value c) && (c_value c <? 10 ^ 9) && (match c_height c with Some h => 0 <=? h | None => true end))%bool (l_coins L) = true -> @LedgerOf toy 28 L a.
Proof.
  intros HS HC. rewrite forallb_forall in HC. split; [|split].
  - destruct (@address_to_scriptpubkey toy a) as [[b|]|]; try discriminate. apply list_eqb_eq in HS. eauto.
  - apply Forall_forall. intros c I. specialize (HC c I). apply andb_true_iff in HC as [HC _]. assert (10 ^ 9 < 10 ^ 28) by reflexivity. lia.
  - intros c h I EH. specialize (HC c I). rewrite EH in HC. lia.
Qed.
Example town_owns calls : connected Main calls = None -> @Owns toy Town town 5 calls 28 (Single wkey) town_legacy town_segwit.
Proof.
  intros NC. exists town_a, (Some town_sa). split; [vm_compute; reflexivity|]. split; [apply (town_reports town_legacy town_a calls NC); [cbn; lia|exact town_serves1]|].
  split; [apply town_ledger; vm_compute; reflexivity|]. split; [vm_compute; reflexivity|].
  split; [apply (town_reports town_segwit town_sa calls NC); [cbn; lia|exact town_serves2]|]. apply town_ledger; vm_compute; reflexivity.
Qed.
Example town_owns_multi calls : connected Main calls = None -> @Owns toy Town town 5 calls 28 (Multi town_ms) (ledger_legacy town_ma) (ledger_segwit town_msa).
Proof.
  intros NC. exists town_ma, (Some town_msa). split; [vm_compute; reflexivity|]. split; [apply (town_reports _ town_ma calls NC); [cbn; lia|exact town_serves3]|].
  split; [apply town_ledger; vm_compute; reflexivity|]. split; [vm_compute; reflexivity|].
  split; [apply (town_reports _ town_msa calls NC); [cbn; lia|exact town_serves4]|]. apply town_ledger; vm_compute; reflexivity.
Qed.
Lemma town_ids a b : GoodIds (l_coins (ledger_legacy a) ++ l_coins (ledger_segwit b)).
Proof.
  split; [|vm_compute; repeat constructor; cbn; intuition discriminate].
  assert (T : forall b, 0 <= b < 256 -> exists t, hex_to_bytes (town_txid b) = Ok t /\ length t = 32%nat).
  { intros c Hc. exists (repeat c 32). split; [|apply repeat_length]. apply hex_to_bytes_to_hex. apply bytes_ok_Forall. apply Forall_forall. intros z I. apply repeat_spec in I. subst. auto. }
  cbn. repeat (constructor; [apply T; lia|]). constructor.
Qed.
(** Two payments, given in different units, with a message. *)
Definition town_outs : list (pystr * pystr * pystr) := [(addr_of other_key, str "0.00025", str "btc"); (segwit_addr_of other_key, str "1000", str "satoshi")].
Definition town_send := @send toy _ _ (@network toy Town town town_chance 5) (Single wkey) town_outs (Some 2) None None (wopts true true) town_wallet.
Example C75_send_hypotheses :
  @Reached toy Town town town_chance 5 0 0 (0, []) [] (wl_world town_wallet) /\ @KeyOk toy wkey /\ MsgOk (wopts true true) /\
  @Owns toy Town town 5 [] (g_prec (n_globals (wl_world town_wallet))) (Single wkey) town_legacy town_segwit /\
  GoodIds (l_coins town_legacy ++ l_coins town_segwit) /\
  exists i s', town_send = (Ok i, s') /\ length (snd (n_outside (wl_world s'))) = 1%nat.
Proof.
  split; [constructor|]. split; [apply toy_key_ok|]. split; [cbn; repeat constructor; unfold is_char; lia|]. split; [apply town_owns; reflexivity|]. split.
  - apply town_ids.
  - assert (G : (match town_send with (Ok i, s') => (length (snd (n_outside (wl_world s'))) =? 1)%nat | _ => false end) = true) by (vm_compute; reflexivity).
    revert G. generalize town_send. intros ([i|] & s') G; [|discriminate]. exists i, s'. split; auto. apply Nat.eqb_eq. auto.
Qed.
(** The balance is shown in bitcoin. *)
Example C74_balance_case : exists s', @key_get_balance toy Town town town_chance 5 (Single wkey) (str "btc") town_wallet = (Ok (str "0.0009"), s') /\ wl_balance s' = 90000.
Proof.
  set (r := @key_get_balance toy Town town town_chance 5 (Single wkey) (str "btc") town_wallet).
  assert (G : (match r with (Ok t, s') => list_eqb t (str "0.0009") && (wl_balance s' =? 90000) | _ => false end)%bool = true) by (vm_compute; reflexivity).
  revert G. generalize r. intros ([t|] & s') G; [|discriminate]. apply andb_true_iff in G as [G1 G2]. apply list_eqb_eq in G1. exists s'. split; [congruence|lia].
Qed.
(** Two of three sign. *)
Definition town_create := @create_transaction toy _ _ (@network toy Town town town_chance 5) (Multi town_ms) town_outs (Some 2) None None (wopts true true) town_wallet.
Example C75_multi_hypotheses : @EnvOk toy toy_env /\ @Signers toy toy_env [toy_k 5; toy_k 7] /\ zlen [toy_k 5; toy_k 7] = e_m toy_env /\
  @Owns toy Town town 5 [] (g_prec (n_globals (wl_world town_wallet))) (Multi town_ms) (ledger_legacy town_ma) (ledger_segwit town_msa) /\
  GoodIds (l_coins (ledger_legacy town_ma) ++ l_coins (ledger_segwit town_msa)) /\ exists h s', town_create = (Ok h, s').
Proof.
  split; [apply toy_env_ok|]. split; [apply toy_signers; auto; lia|]. split; [reflexivity|]. split; [apply town_owns_multi; reflexivity|].
  split; [apply town_ids|]. apply is_ok. vm_compute. reflexivity.
Qed.
