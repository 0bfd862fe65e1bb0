(** C99: what a key or wallet shows and spends was reported for its addresses. *)
From Coq Require Import String Permutation.
From Verif Require Import F_cosign F_cosigntx F_signtx F_wallet F_utf8 F_spend F_wire F_build P_outputs P_select P_sign P_multi P_wallet P_create P_state P_send X_world X_server.
From Verif Require Import M_app F_app S_Decimal S_History S_Servers S_Failover F_decimal F_network F_servers P_rates P_network P_services P_failover P_anyservice P_app.
From Verif Require Import S_Requests S_Answers S_Reported P_answers X_toy X_net.

Section Reported.
Context {CR : Crypto} {E : Type} {OU : Outside E} {CH : Chance E} (rounds : nat).
Local Existing Instance LGA.
Local Instance LCR : Chance (E * Log) := logged_chance CH.
Notation NW := (network (CR:=CR) (E:=E * Log) rounds).
Notation Wal := (@Wallet (Net (E * Log))).

Lemma history_same n (ops calls : list (op (E * Log))) : connected n ops = connected n calls -> history_services n ops = history_services n calls.
Proof. intros H. unfold history_services, services_for. rewrite H. reflexivity. Qed.

(** One request for coins, for histories. *)
Lemma fetched_said t1 t2 e calls w n a us w' : Reached (E:=E * Log) rounds t1 t2 e calls w -> @w_unspent _ _ NW n a w = (Ok us, w') ->
  exists sv new, In sv (unspent_services n calls) /\ asked w' = asked w ++ new /\ Forall (CoinSaid (E:=E) (n_globals w) a sv new) us /\
    n_globals w' = n_globals w /\ exists calls', Reached (E:=E * Log) rounds t1 t2 e calls' w' /\ forall m, connected m calls' = connected m calls.
Proof.
  intros R H. destruct (C76_histories _ _ _ _ _ _ R) as (ops & EW & HC & _). cbn in H. apply ibind_ok in H as (o & w1 & EG & H).
  destruct o as [us0|]; [|discriminate]. injection H as -> ->.
  assert (EG0 := EG). rewrite EW in EG. destruct (C97_coins rounds ops t1 t2 e n a us w' EG) as (sv & earlier & new & I & EN & F).
  rewrite <- EW in EN, F. rewrite (services_same n ops calls (HC n)) in I. exists sv, (earlier ++ new). split; auto. split; auto. split.
  { eapply Forall_impl; [|exact F]. intros u. apply amount_mono. apply incl_appr, incl_refl. }
  assert (W' : w' = step rounds (Unspents n a) w) by (cbn [S_History.step]; rewrite EG0; reflexivity).
  split.
  - rewrite W'. pose proof (step_change rounds (Unspents n a) w) as C. exact C.
  - exists (calls ++ [Unspents n a]). split; [rewrite W'; apply R_call; exact R|]. intros m. rewrite connected_app. reflexivity.
Qed.

(** Every coin of get_unspents is one that a service reported, in an answer to a
    request of this call, for the legacy or the segwit address of the wallet. *)
Theorem C99_unspents t1 t2 e calls sg (s s' : Wal) us : Reached (E:=E * Log) rounds t1 t2 e calls (wl_world s) ->
  @get_unspents CR _ _ NW sg s = (Ok us, s') ->
  exists l us1 us2, asked (wl_world s') = asked (wl_world s) ++ l /\ us = us1 ++ us2 /\
    Forall (Reported (E:=E) (n_globals (wl_world s)) (unspent_services (sg_version sg) calls) sg false l) us1 /\
    Forall (Reported (E:=E) (n_globals (wl_world s)) (unspent_services (sg_version sg) calls) sg true l) us2 /\
    wl_unspents s' = us /\ wl_balance s' = S_Fee.total (map u_amount us).
Proof.
  intros R H. destruct (@C53_fetched CR _ _ NW _ _ _ _ H) as (l1 & l2 & us1 & us2 & (a & w1 & seg & EA & E1 & ES & E2) & EU & T1 & T2 & EW & EB & _).
  destruct (fetched_said _ _ _ _ _ _ _ _ _ R E1) as (sv1 & n1 & I1 & A1 & F1 & G1 & calls' & R1 & HC).
  assert (TR : forall b a sv l l0 us0 us', AddressOf sg b a -> In sv (unspent_services (sg_version sg) calls) -> incl l0 l ->
    Forall (CoinSaid (E:=E) (n_globals (wl_world s)) a sv l0) us0 -> Forall2 (Typed sg b) us0 us' ->
    Forall (Reported (E:=E) (n_globals (wl_world s)) (unspent_services (sg_version sg) calls) sg b l) us').
  { clear. intros b a sv l l0 us0 us' HA I IL F T. induction T as [|u u' us0 us' Q T IH]; constructor; inversion F; subst; auto.
    destruct Q as (Q1 & Q2 & Q3 & Q4 & Q5 & _). exists a, sv, u. split; auto. split; auto. split; [eapply amount_mono; eauto|]. auto. }
  destruct seg as [sa|].
  - destruct (fetched_said _ _ _ _ _ _ _ _ _ R1 E2) as (sv2 & n2 & I2 & A2 & F2 & G2 & _).
    exists (n1 ++ n2), us1, us2. rewrite A2, A1, app_assoc. split; auto. split; auto. rewrite G1 in F2. rewrite (services_same _ _ _ (HC _)) in I2.
    split; [exact (TR false a sv1 (n1 ++ n2) n1 l1 us1 EA I1 (incl_appl _ (incl_refl _)) F1 T1)|].
    split; [exact (TR true sa sv2 (n1 ++ n2) n2 l2 us2 ES I2 (incl_appr _ (incl_refl _)) F2 T2)|]. auto.
  - destruct E2 as [-> EQ]. inversion T2; subst us2. exists n1, us1, []. rewrite EQ, A1. split; auto. split; auto.
    split; [exact (TR false a sv1 n1 n1 l1 us1 EA I1 (incl_refl _) F1 T1)|]. auto.
Qed.
(** The same for get_transactions. *)
Theorem C99_history t1 t2 e calls sg (s s' : Wal) ts : Reached (E:=E * Log) rounds t1 t2 e calls (wl_world s) ->
  @M_wallet.get_transactions CR _ _ NW sg s = (Ok ts, s') ->
  exists l, asked (wl_world s') = asked (wl_world s) ++ l /\ Forall (HistoryReported (history_services (sg_version sg) calls) sg l) ts.
Proof.
  intros R H. destruct (@C68_history CR _ _ NW _ _ _ _ H) as (a & h1 & w1 & seg & h2 & EA & E1 & ES & E2 & -> & _).
  assert (ONE : forall calls0 w a h w', Reached (E:=E * Log) rounds t1 t2 e calls0 w -> (forall m, connected m calls0 = connected m calls) ->
    @w_history _ _ NW (sg_version sg) a w = (Ok h, w') ->
    exists sv new, In sv (history_services (sg_version sg) calls) /\ asked w' = asked w ++ new /\ Forall (TxidSaid a sv new) h).
  { clear. intros calls0 w a h w' R HC0 EH. destruct (C76_histories _ _ _ _ _ _ R) as (ops & EW & HC & _). cbn in EH. rewrite EW in EH.
    destruct (C97_history rounds ops t1 t2 e _ a h w' EH) as (sv & earlier & new & I & EN & F). rewrite <- EW in EN.
    rewrite (history_same _ ops calls) in I by (rewrite HC; apply HC0). exists sv, (earlier ++ new). split; auto. split; auto.
    eapply Forall_impl; [|exact F]. intros t. apply txid_mono. apply incl_appr, incl_refl. }
  destruct (ONE _ _ _ _ _ R (fun _ => eq_refl) E1) as (sv1 & n1 & I1 & A1 & F1).
  assert (R1 : Reached (E:=E * Log) rounds t1 t2 e (calls ++ [Transactions (sg_version sg) a]) w1).
  { assert (W1 : w1 = step rounds (Transactions (sg_version sg) a) (wl_world s)).
    { cbn [S_History.step]. change (M_services.get_transactions rounds (sg_version sg) a (wl_world s) = (Ok h1, w1)) in E1. rewrite E1. reflexivity. }
    rewrite W1. apply R_call. exact R. }
  destruct seg as [sa|].
  - destruct (ONE _ _ _ _ _ R1 (fun m => connected_app m calls [Transactions (sg_version sg) a]) E2) as (sv2 & n2 & I2 & A2 & F2).
    exists (n1 ++ n2). rewrite A2, A1, app_assoc. split; auto. apply Forall_app. split.
    + eapply Forall_impl; [|exact F1]. intros t Q. exists false, a, sv1. split; auto. split; auto. eapply txid_mono; [|exact Q]. apply incl_appl, incl_refl.
    + eapply Forall_impl; [|exact F2]. intros t Q. exists true, sa, sv2. split; auto. split; auto. eapply txid_mono; [|exact Q]. apply incl_appr, incl_refl.
  - destruct E2 as [-> EQ]. exists n1. rewrite EQ, A1. split; auto. rewrite app_nil_r.
    eapply Forall_impl; [|exact F1]. intros t Q. exists false, a, sv1. auto.
Qed.

Lemma rbf_confirmations u : u_confirmations (opt_in_for_RBF u) = u_confirmations u.
Proof. unfold opt_in_for_RBF. destruct (_ >? _); reflexivity. Qed.
Lemma chosen_reported sg (calls : list (op (E * Log))) outputs f leftover o us sel w h x g l :
  @Asked CR _ _ NW sg outputs f leftover o us sel w h x ->
  (forall u, In u us -> exists b, Reported (E:=E) g (unspent_services (sg_version sg) calls) sg b l u) ->
  length sel = length (t_ins x) /\
  forall j xi, nth_error (t_ins x) j = Some xi -> exists b u, nth_error sel j = Some u /\
    Reported (E:=E) g (unspent_services (sg_version sg) calls) sg b l u /\ SpendsOutpoint xi u.
Proof.
  intros (outs & sats & w1 & change & msgs & back & (_ & _ & _ & F & _) & _ & _ & _ & _ & _ & _ & (taken & unused & P & _ & _ & ES) & _) H.
  split; [apply (Forall2_length _ _ _ F)|]. intros j xi EX.
  assert (HU : exists u, nth_error sel j = Some u /\ InFor u xi).
  { clear -F EX. revert j EX. induction F as [|u x0 us xs I F IH]; intros [|j] EX; try discriminate; cbn in *; [injection EX as <-; eauto|]. apply IH. auto. }
  destruct HU as (u & EU & SO & _).
  assert (IT : forall v, In v taken -> In v us).
  { intros v Hv. apply (Permutation_in _ P). apply in_or_app. auto. }
  assert (HR : exists b, Reported (E:=E) g (unspent_services (sg_version sg) calls) sg b l u).
  { pose proof (nth_error_In _ _ EU) as I. rewrite ES in I. destruct (o_replace_by_fee o); [|auto].
    apply in_map_iff in I as (v & <- & I). destruct (H v (IT v I)) as (b & a & sv & u0 & HA & IS & C & K1 & K2 & K3 & K4 & K5). exists b, a, sv, u0.
    destruct (rbf_keep v) as (-> & -> & -> & _ & ->). rewrite rbf_confirmations. auto 10. }
  destruct HR as (b & HR). exists b, u. auto.
Qed.
Lemma random_ok : (forall x rnd x', @o_random E CH x = (Ok rnd, x') -> Shuffle (r_shuffle rnd)) -> RandomOk NW.
Proof.
  intros SF w rnd w' ER. cbn in ER. unfold outside, zoom in ER. destruct (n_outside w) as [x0 lg]. cbn in ER.
  destruct (@o_random E CH x0) as [r x'] eqn:EO. injection ER as -> <-. exact (SF _ _ _ EO).
Qed.
(** Every coin that create_transaction spends (no coins being given) is one reported
    for an address of the key; the signature commits to the amount reported. *)
Theorem C99_spent_single (HO : HashOk CR) (SF : forall x rnd x', @o_random E CH x = (Ok rnd, x') -> Shuffle (r_shuffle rnd))
    t1 t2 e calls k outputs fee leftover o (s s1 s' : Wal) h us :
  Reached (E:=E * Log) rounds t1 t2 e calls (wl_world s) -> KeyOk k -> MsgOk o ->
  @get_unspents CR _ _ NW (Single k) s = (Ok us, s1) -> Forall TxidOk us -> Distinct us -> Forall (SingleCoin k) us ->
  @create_transaction CR _ _ NW (Single k) outputs fee leftover None o s = (Ok h, s') ->
  exists l x, asked (wl_world s1) = asked (wl_world s) ++ l /\ (exists b, h = bytes_to_hex b /\ (EncSegwit x b \/ EncLegacy x b)) /\ t_ins x <> [] /\
    forall j xi, nth_error (t_ins x) j = Some xi -> exists b u, SpendsOutpoint xi u /\ spends_single k x j u xi /\
      Reported (E:=E) (n_globals (wl_world s)) (unspent_services (k_version k) calls) (Single k) b l u.
Proof.
  intros R K M EG TX DI SC EC. assert (RO : RandomOk NW) by (apply random_ok; auto).
  destruct (@C50_create_single CR HO _ _ NW RO k outputs fee leftover None o s h s' us s1 K M EC EG TX DI SC) as (x & sel & f & w & _ & AS & SP).
  destruct (C99_unspents _ _ _ _ _ _ _ _ R EG) as (l & us1 & us2 & EL & EU & F1 & F2 & _).
  assert (HR : forall u, In u us -> exists b, Reported (E:=E) (n_globals (wl_world s)) (unspent_services (sg_version (Single k)) calls) (Single k) b l u).
  { intros u I. rewrite Forall_forall in F1, F2. rewrite EU in I. apply in_app_or in I as [I|I]; eauto. }
  destruct (chosen_reported _ _ _ _ _ _ _ _ _ _ _ _ _ AS HR) as [LEN CH']. exists l, x. split; auto.
  destruct AS as (outs & sats & w1 & change & msgs & back & ((b & (Eh & _) & EN) & _) & _ & _ & _ & _ & _ & _ & (taken & unused & _ & NE & _ & ES) & _).
  split; [exists b; split; auto; destruct (existsb u_is_segwit sel); auto|]. split.
  { destruct taken as [|v r]; [contradiction|]. intros Q. rewrite Q, ES in LEN. destruct (o_replace_by_fee o); discriminate. }
  intros j xi EX. destruct (CH' j xi EX) as (bb & u & EU' & HRu & SO). exists bb, u. auto.
Qed.
(** The same for the transaction of a multisig wallet, completed by the others. *)
Theorem C99_spent_multi (HO : HashOk CR) (SF : forall x rnd x', @o_random E CH x = (Ok rnd, x') -> Shuffle (r_shuffle rnd))
    t1 t2 e calls ms k ks outputs fee leftover o (s s1 s' : Wal) h us :
  Reached (E:=E * Log) rounds t1 t2 e calls (wl_world s) -> EnvOk ms -> Signers ms (k :: ks) -> zlen (k :: ks) = e_m ms -> MsgOk o ->
  @get_unspents CR _ _ NW (Multi (wallet ms k)) s = (Ok us, s1) -> Forall TxidOk us -> Distinct us -> Forall (MultiCoin ms) us ->
  @create_transaction CR _ _ NW (Multi (wallet ms k)) outputs fee leftover None o s = (Ok h, s') ->
  exists l h' x sel, asked (wl_world s1) = asked (wl_world s) ++ l /\ pass_all ms sel h ks = Ok h' /\
    (exists b, h' = bytes_to_hex b /\ (EncSegwit x b \/ EncLegacy x b)) /\ t_ins x <> [] /\
    forall j xi, nth_error (t_ins x) j = Some xi -> exists b u, SpendsOutpoint xi u /\ part_spends ms (k :: ks) x j u 0 xi /\
      Reported (E:=E) (n_globals (wl_world s)) (unspent_services (e_ver ms) calls) (Multi (wallet ms k)) b l u.
Proof.
  intros R EO SG LM M EG TX DI SC EC. assert (RO : RandomOk NW) by (apply random_ok; auto).
  assert (LE : zlen (k :: ks) <= e_m ms) by lia.
  destruct (@C50_create_multi CR HO _ _ NW RO ms k ks outputs fee leftover None o s h s' us s1 EO SG LE M EC EG TX DI SC) as (h' & x & sel & f & w & _ & EP & AS & SP).
  destruct (C99_unspents _ _ _ _ _ _ _ _ R EG) as (l & us1 & us2 & EL & EU & F1 & F2 & _).
  assert (HR : forall u, In u us -> exists b, Reported (E:=E) (n_globals (wl_world s)) (unspent_services (sg_version (Multi (wallet ms k))) calls) (Multi (wallet ms k)) b l u).
  { intros u I. rewrite Forall_forall in F1, F2. rewrite EU in I. apply in_app_or in I as [I|I]; eauto. }
  destruct (chosen_reported _ _ _ _ _ _ _ _ _ _ _ _ _ AS HR) as [LEN CH']. exists l, h', x, sel. split; auto. split; auto.
  destruct AS as (outs & sats & w1 & change & msgs & back & ((b & (Eh & _) & EN) & _) & _ & _ & _ & _ & _ & _ & (taken & unused & _ & NE & _ & ES) & _).
  split; [exists b; split; auto; destruct (existsb u_is_segwit sel); auto|]. split.
  { destruct taken as [|v r]; [contradiction|]. intros Q. rewrite Q, ES in LEN. destruct (o_replace_by_fee o); discriminate. }
  intros j xi EX. destruct (CH' j xi EX) as (bb & u & EU' & HRu & SO). exists bb, u. split; auto. split; auto.
  destruct (SP j u xi EU' EX) as (z & PS & Z0). rewrite (Z0 LM) in PS. exact PS.
Qed.
(** A service that answers "not found" about an address ends the search for coins
    without any (Ok None); wallets then raise TypeError.  If it is the segwit
    address, the coins of the legacy address are kept already, and the balance is
    the one before. *)
Lemma none_unspent n a w w' : get_unspent rounds n a w = (Ok None, w') -> @w_unspent _ _ NW n a w = (Raise TypeError, w').
Proof. intros H. cbn. unfold ibind. rewrite H. reflexivity. Qed.
Theorem C98_none sg ts (s : Wal) a w' : coin_types sg = Ok ts -> sg_address sg = Ok a -> get_unspent rounds (sg_version sg) a (wl_world s) = (Ok None, w') ->
  exists s', @get_unspents CR _ _ NW sg s = (Raise TypeError, s') /\ wl_world s' = w' /\ wl_unspents s' = wl_unspents s /\ wl_balance s' = wl_balance s.
Proof.
  intros ET EA EG. apply none_unspent in EG. exists (set_world w' s). split; [|repeat split].
  unfold get_unspents. destruct ts as ((t1 & v1) & (t2 & v2)). unfold ibind at 1. rewrite ET. cbn [ilift]. unfold ibind at 1. rewrite EA. cbn [ilift].
  unfold ibind at 1. unfold world, zoom. rewrite EG. reflexivity.
Qed.
Theorem C98_none_segwit sg ts (s : Wal) a sa l1 w1 w' : coin_types sg = Ok ts -> sg_address sg = Ok a -> sg_segwit_address sg = Ok (Some sa) ->
  get_unspent rounds (sg_version sg) a (wl_world s) = (Ok (Some l1), w1) -> get_unspent rounds (sg_version sg) sa w1 = (Ok None, w') ->
  exists s', @get_unspents CR _ _ NW sg s = (Raise TypeError, s') /\ wl_world s' = w' /\ Forall2 (Typed sg false) l1 (wl_unspents s') /\ wl_balance s' = wl_balance s.
Proof.
  intros ET EA ES E1 EG. apply none_unspent in EG. destruct ts as ((t1 & v1) & (t2 & v2)).
  assert (E1' : @w_unspent _ _ NW (sg_version sg) a (wl_world s) = (Ok l1, w1)) by (cbn; unfold ibind; rewrite E1; reflexivity).
  exists (set_world w' (set_unspents (map (fun u => set_type u t1 v1) l1) (set_world w1 s))). split; [|split; [reflexivity|split; [|reflexivity]]].
  - unfold get_unspents. unfold ibind at 1. rewrite ET. cbn [ilift]. unfold ibind at 1. rewrite EA. cbn [ilift]. unfold ibind at 1. unfold world at 1, zoom at 1. rewrite E1'.
    unfold ibind at 1. unfold modify at 1, ibind at 1, iget at 1, iput at 1. unfold ibind at 1. rewrite ES. cbn [ilift]. unfold ibind at 1 2. unfold world, zoom.
    cbn [wl_world set_unspents set_world]. rewrite EG. reflexivity.
  - apply (coin_typed _ _ _ _ _ l1 ET).
Qed.
End Reported.
Print Assumptions C98_none.
Print Assumptions C98_none_segwit.
Print Assumptions C99_unspents.
Print Assumptions C99_history.
Print Assumptions C99_spent_single.
Print Assumptions C99_spent_multi.

(** ** Examples: the services of the town, with the requests written down *)
Definition coin_ok (u : Unspent) (script : bytes) : bool :=
  match hex_to_bytes (u_txid u) with Ok t => (length t =? 32)%nat | Raise _ => false end && list_eqb (u_script u) (bytes_to_hex script).
Definition single_ok (k : PrivateKey) (u : Unspent) : bool :=
  (length (k_public_key k) =? 33)%nat &&
  coin_ok u (if u_is_segwit u then p2sh_script (CR:=toy) ([0x00; 0x14] ++ hash160 (CR:=toy) (k_public_key k)) else p2pkh_script (CR:=toy) (k_public_key k)).
Lemma single_checks k us : forallb (single_ok k) us = true -> Forall TxidOk us /\ Forall (@SingleCoin toy k) us.
Proof.
  rewrite forallb_forall. intros H. split; apply Forall_forall; intros u I; specialize (H u I); apply andb_true_iff in H as [H1 H2];
    apply andb_true_iff in H2 as [H2 H3]; [unfold TxidOk; destruct (hex_to_bytes (u_txid u)) as [t|]; [exists t; split; auto; apply Nat.eqb_eq; auto|discriminate]|].
  apply list_eqb_eq in H3. apply Nat.eqb_eq in H1. unfold SingleCoin. destruct (u_is_segwit u); auto.
Qed.
Lemma distinct_checks (us : list Unspent) n : map u_txindex us = n -> NoDup n -> Distinct us.
Proof.
  intros <- H. apply (NoDup_map_inv snd). rewrite map_map. exact H.
Qed.
Definition told_town : @Wallet (Net (Town * Log)) := mkWallet (start 0 0 (((0, []) : Town), [])) 0 [] [] [].
Notation TNW := (@network toy (Town * Log) (@logged Town town) (logged_chance town_chance) 5).
Definition told_outs : list (pystr * pystr * pystr) := [(addr_of other_key, str "25000", str "satoshi")].
Local Opaque create_transaction get_unspents.
Example C99_hypotheses : exists us s1 h s', @Reached toy (Town * Log) (@logged Town town) (logged_chance town_chance) 5 0 0 ((0, []), []) [] (wl_world told_town) /\
  @KeyOk toy wkey /\ @get_unspents toy _ _ TNW (Single wkey) told_town = (Ok us, s1) /\ Forall TxidOk us /\ Distinct us /\ Forall (@SingleCoin toy wkey) us /\
  map u_amount us = [30000; 20000; 40000] /\ length (asked (wl_world s1)) = 4%nat /\
  @create_transaction toy _ _ TNW (Single wkey) told_outs (Some 2) None None (wopts false false) told_town = (Ok h, s').
Proof.
  set (r := @get_unspents toy _ _ TNW (Single wkey) told_town).
  assert (G : (match r with (Ok us, s1) => Some (forallb (single_ok wkey) us, map u_txindex us, map u_amount us, length (asked (wl_world s1))) | _ => None end) =
    Some (true, [5; 0; 1], [30000; 20000; 40000], 4%nat)) by (vm_compute; reflexivity).
  revert G. generalize r. intros ([us|] & s1) G; [|discriminate]. assert (G1 := f_equal (fun o => match o with Some (a, _, _, _) => a | None => true end) G).
  assert (G2 := f_equal (fun o => match o with Some (_, a, _, _) => a | None => [] end) G). assert (G3 := f_equal (fun o => match o with Some (_, _, a, _) => a | None => [] end) G).
  assert (G4 := f_equal (fun o => match o with Some (_, _, _, a) => a | None => O end) G). cbv beta iota in G1, G2, G3, G4.
  set (c := @create_transaction toy _ _ TNW (Single wkey) told_outs (Some 2) None None (wopts false false) told_town).
  assert (C : (match c with (Ok _, _) => true | _ => false end) = true) by (vm_compute; reflexivity).
  revert C. generalize c. intros ([h|] & s') C; [|discriminate]. exists us, s1, h, s'. split; [constructor|]. split; [apply toy_key_ok|]. split; [reflexivity|].
  destruct (single_checks _ _ G1) as [T SC]. split; auto. split; [|auto 6].
  apply (distinct_checks _ _ G2). repeat constructor; cbn; intuition discriminate.
Qed.
(** A multisig wallet, two of three signing. *)
Definition multi_ok (u : Unspent) : bool :=
  coin_ok u (if u_is_segwit u then p2sh_script (CR:=toy) ([0x00; 0x20] ++ sha256 (Crypto:=toy) (e_redeem toy_env)) else p2sh_script (CR:=toy) (e_redeem toy_env)).
Lemma multi_checks us : forallb multi_ok us = true -> Forall TxidOk us /\ Forall (@MultiCoin toy toy_env) us.
Proof.
  rewrite forallb_forall. intros H. split; apply Forall_forall; intros u I; specialize (H u I); apply andb_true_iff in H as [H1 H2].
  - unfold TxidOk. destruct (hex_to_bytes (u_txid u)) as [t|]; [exists t; split; auto; apply Nat.eqb_eq; auto|discriminate].
  - apply list_eqb_eq in H2. unfold MultiCoin. destruct (u_is_segwit u); auto. split; auto. repeat constructor.
Qed.
Example C99_multi_hypotheses : exists us s1 h s', @EnvOk toy toy_env /\ @Signers toy toy_env [toy_k 5; toy_k 7] /\ zlen [toy_k 5; toy_k 7] = e_m toy_env /\
  @get_unspents toy _ _ TNW (Multi town_ms) told_town = (Ok us, s1) /\ Forall TxidOk us /\ Distinct us /\ Forall (@MultiCoin toy toy_env) us /\
  @create_transaction toy _ _ TNW (Multi town_ms) told_outs (Some 2) None None (wopts false false) told_town = (Ok h, s').
Proof.
  set (r := @get_unspents toy _ _ TNW (Multi town_ms) told_town).
  assert (G : (match r with (Ok us, s1) => Some (forallb multi_ok us, map u_txindex us) | _ => None end) = Some (true, [5; 0; 1])) by (vm_compute; reflexivity).
  revert G. generalize r. intros ([us|] & s1) G; [|discriminate]. assert (G1 := f_equal (fun o => match o with Some (a, _) => a | None => true end) G).
  assert (G2 := f_equal (fun o => match o with Some (_, a) => a | None => [] end) G). cbv beta iota in G1, G2.
  set (c := @create_transaction toy _ _ TNW (Multi town_ms) told_outs (Some 2) None None (wopts false false) told_town).
  assert (C : (match c with (Ok _, _) => true | _ => false end) = true) by (vm_compute; reflexivity).
  revert C. generalize c. intros ([h|] & s') C; [|discriminate]. exists us, s1, h, s'. split; [apply toy_env_ok|]. split; [apply toy_signers; auto; lia|].
  split; [reflexivity|]. split; [reflexivity|]. destruct (multi_checks _ G1) as [T SC]. split; auto. split; [|auto].
  apply (distinct_checks _ _ G2). repeat constructor; cbn; intuition discriminate.
Qed.
(** A history of two transactions, one for each address. *)
Definition told_history : @Wallet (Net (script * Log)) := mkWallet (start 0 0 ((([
  Raise ReqTimeout; reply (JList []); reply (JList [JObj [(str "txid", JStr (str "aa"))]]); reply (JList []);
  Raise ReqTimeout; reply (JList []); reply (JList [JObj [(str "txid", JStr (str "bb"))]]); reply (JList [])], 5), []) : script * Log)) 0 [] [] [].
Example C99_history_case : fst (@M_wallet.get_transactions toy _ _ (@network toy (script * Log) (@logged script scripted) (logged_chance {| o_random := iret (mkRandom (fun _ => false) (@rev Unspent)) |}) 5)
  (Single wkey) told_history) = Ok [str "aa"; str "bb"].
Proof. vm_compute. reflexivity. Qed.
(** Blockchair knows nothing of the address: TypeError, although other services
    might know it. *)
Definition told_none : @Wallet (Net (script * Log)) := mkWallet (start 0 0 ((([Raise ReqTimeout; status 404], 5), []) : script * Log)) 0 [] [] [].
Example C98_none_case : fst (@get_unspent toy _ (@logged script scripted) 5 Main (addr_of wkey) (wl_world told_none)) = Ok None.
Proof. vm_compute. reflexivity. Qed.
