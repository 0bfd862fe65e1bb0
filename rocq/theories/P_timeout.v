(** C91: time-outs. *)
From Coq Require Import String.
From Verif Require Import F_base M_app F_app S_Decimal S_History S_Failover S_Requests S_Timeout F_network P_network P_failover P_app X_toy X_net X_world X_server.

(** ** Which calls make which requests *)
Section Thru.
Context {CR : Crypto} {E : Type} {OU : Outside E} (rounds : nat).
Notation W := (Net E).
Context (D : W -> W -> Prop).
Definition Thru {A} (m : IO W A) : Prop := forall w, D w (snd (m w)).
Record Base : Prop := {
  b_refl : forall w, D w w;
  b_trans : forall a b c, D a b -> D b c -> D a c
}.
Context (B : Base).

Lemma thru_bind {A C} (m : IO W A) (f : A -> IO W C) : Thru m -> (forall a, Thru (f a)) -> Thru (ibind m f).
Proof.
  intros H1 H2 w. unfold ibind. specialize (H1 w). destruct (m w) as [[a|x] w1]; [|exact H1]. eapply (b_trans B); [exact H1|apply H2].
Qed.
Lemma thru_try {A} (m : IO W A) h : Thru m -> (forall x, Thru (h x)) -> Thru (itry m h).
Proof.
  intros H1 H2 w. unfold itry. specialize (H1 w). destruct (m w) as [[a|x] w1]; [exact H1|]. eapply (b_trans B); [exact H1|apply H2].
Qed.
Lemma thru_lift {A} (r : result A) : Thru (ilift r). Proof. intros w. apply (b_refl B). Qed.
Lemma thru_ret {A} (a : A) : Thru (iret a). Proof. intros w. apply (b_refl B). Qed.
Lemma thru_globals : Thru globals. Proof. intros w. apply (b_refl B). Qed.
Lemma thru_first {A} ign (calls : list (IO W A)) : Forall Thru calls -> Thru (first_working ign calls).
Proof. induction 1 as [|c r Hc _ IH]; cbn [first_working]; [apply thru_lift|]. apply thru_try; auto. intros x. destruct (ign x); auto. apply thru_lift. Qed.
Lemma thru_broadcast_loop (calls : list (IO W bool)) : Forall Thru calls -> Thru (broadcast_loop calls).
Proof.
  induction 1 as [|c r Hc _ IH]; cbn [broadcast_loop]; [apply thru_lift|]. apply thru_bind.
  - apply thru_try; auto. intros x. destruct (net_ignored x); [apply thru_ret|apply thru_lift].
  - intros []; auto using thru_ret.
Qed.

Ltac thru :=
  repeat lazymatch goal with
  | |- Thru (ibind _ _) => apply thru_bind; [|intros ?]
  | |- Thru (itry _ _) => apply thru_try; [|intros ?]
  | |- Thru (ilift _) => apply thru_lift
  | |- Thru (iret _) => apply thru_ret
  | |- Thru globals => apply thru_globals
  | |- Thru (push _ _) => unfold push
  | |- Thru (match ?x with _ => _ end) => destruct x
  | |- Thru (let _ := _ in _) => cbv zeta
  end.

(** The web services. *)
Section Services.
Context (GET : forall url ps, Thru (http_get url ps)) (POST : forall url ps, Thru (http_post url ps)).
Lemma thru_blockchair_pages {A} k items url a : forall o r acc, Thru (@blockchair_pages _ OU A k items url a o r acc).
Proof. induction k; intros; cbn [blockchair_pages]; thru; auto. Qed.
Lemma thru_blockstream_pages n k a : forall r acc, Thru (blockstream_pages k n a r acc).
Proof. induction k; intros; cbn [blockstream_pages]; thru; auto. Qed.
Lemma thru_bitcore_pages k url : forall r acc, Thru (bitcore_pages k url r acc).
Proof. induction k; intros; cbn [bitcore_pages]; thru; auto. Qed.
Lemma thru_blockchain_pages k url : forall o r acc, Thru (blockchain_pages k url o r acc).
Proof. induction k; intros; cbn [blockchain_pages]; thru; auto. Qed.
Lemma thru_smartbit_pages {A} k (page : json -> result (list A * json)) ps : forall next acc, Thru (@smartbit_pages _ OU A k page ps next acc).
Proof. induction k; intros; cbn [smartbit_pages]; thru; auto. Qed.
Definition NoNode (sv : service) : Prop := match sv with Node _ => False | _ => True end.
Ltac service H := destruct H; auto using thru_blockchair_pages, thru_blockstream_pages, thru_bitcore_pages, thru_blockchain_pages, thru_smartbit_pages.
Lemma thru_balance n a sv : NoNode sv -> Thru (call_balance n a sv).
Proof.
  intros H. destruct sv, n; try destruct H; cbn [call_balance]; unfold blockchair_balance, blockstream_balance, bitcore_balance, smartbit_balance, blockchain_balance; thru; auto.
Qed.
Lemma thru_transactions n a sv : NoNode sv -> Thru (call_transactions rounds n a sv).
Proof.
  intros H. destruct sv, n; try destruct H; cbn [call_transactions]; unfold blockchair_transactions, blockstream_transactions, smartbit_transactions, blockchain_transactions; thru;
    auto using thru_blockchair_pages, thru_blockstream_pages, thru_bitcore_pages, thru_blockchain_pages, thru_smartbit_pages.
Qed.
Lemma thru_by_id n a sv : NoNode sv -> Thru (call_by_id n a sv).
Proof.
  intros H. destruct sv, n; try destruct H; cbn [call_by_id]; unfold blockchair_by_id, blockstream_by_id, smartbit_by_id, blockchain_by_id; thru; auto.
Qed.
Lemma thru_unspent n a sv : NoNode sv -> Thru (call_unspent rounds n a sv).
Proof.
  intros H. destruct sv, n; try destruct H; cbn [call_unspent]; unfold blockchair_unspent, blockstream_unspent, bitcore_unspent, smartbit_unspent, blockchain_unspent; thru;
    auto using thru_blockchair_pages, thru_blockstream_pages, thru_bitcore_pages, thru_blockchain_pages, thru_smartbit_pages.
Qed.
Lemma thru_broadcast n a sv : NoNode sv -> Thru (call_broadcast n a sv).
Proof.
  intros H. destruct sv, n; try destruct H; cbn [call_broadcast];
    unfold blockchair_broadcast, blockstream_broadcast, bitcore_broadcast, smartbit_broadcast, blockchain_broadcast; thru; auto.
Qed.
End Services.

(** Nodes. *)
Section Nodes.
Context (url : pystr) (RPC : forall m args, Thru (outside (o_rpc url m args None))).
Lemma thru_rpc m args : Thru (rpc url m args).
Proof. unfold rpc. thru. apply RPC. Qed.
Lemma thru_node_transactions n a : Thru (call_transactions rounds n a (Node url)).
Proof. destruct n; cbn [call_transactions]; unfold node_transactions; thru; apply thru_rpc. Qed.
Lemma thru_node_by_id n a : Thru (call_by_id n a (Node url)).
Proof. destruct n; cbn [call_by_id]; unfold node_by_id; thru; apply thru_rpc. Qed.
Lemma thru_node_unspent n a : Thru (call_unspent rounds n a (Node url)).
Proof. destruct n; cbn [call_unspent]; unfold node_unspent; thru; apply thru_rpc. Qed.
Lemma thru_node_broadcast n a : Thru (call_broadcast n a (Node url)).
Proof. destruct n; cbn [call_broadcast]; unfold node_broadcast; thru; apply thru_rpc. Qed.
Lemma thru_node_balance n a : Thru (modify_globals (set_prec (ndigits BTC))) -> Thru (call_balance n a (Node url)).
Proof. intros H. destruct n; cbn [call_balance]; unfold node_balance; thru; auto; apply thru_rpc. Qed.
End Nodes.

(** Rates and fees. *)
Definition units : list string := ["satoshi"; "ubtc"; "mbtc"; "btc"]%string.
Lemma thru_rate currency :
  (In currency (map str units) \/ forall url, RateUrl currency url -> Thru (get_untimed url)) -> Thru (exchange_rate currency).
Proof.
  unfold exchange_rate. intros [H|H].
  - cbn in H. destruct H as [<-|[<-|[<-|[<-|[]]]]]; cbn; thru.
  - thru. apply thru_first. repeat constructor; [unfold bitpay_rate|unfold blockchain_rate]; thru; apply H; unfold RateUrl; auto.
Qed.
Lemma thru_to_cached a currency : Thru (outside o_time) -> (forall r, Thru (modify_globals (fun g => set_rates (r g) g))) ->
  (In currency (map str units) \/ forall url, RateUrl currency url -> Thru (get_untimed url)) -> Thru (currency_to_satoshi_cached a currency).
Proof.
  intros HT HM H. unfold currency_to_satoshi_cached. thru; auto using thru_rate.
Qed.
Lemma thru_from_cached a currency : Thru (outside o_time) -> (forall r, Thru (modify_globals (fun g => set_rates (r g) g))) ->
  (In currency (map str units) \/ forall url, RateUrl currency url -> Thru (get_untimed url)) -> Thru (satoshi_to_currency_cached a currency).
Proof. intros HT HM H. unfold satoshi_to_currency_cached. thru; auto using thru_to_cached. Qed.
Lemma thru_to_satoshi a currency :
  (In currency (map str units) \/ forall url, RateUrl currency url -> Thru (get_untimed url)) -> Thru (currency_to_satoshi a currency).
Proof. intros H. unfold currency_to_satoshi. thru; auto using thru_rate. Qed.
Lemma thru_from_satoshi a currency :
  (In currency (map str units) \/ forall url, RateUrl currency url -> Thru (get_untimed url)) -> Thru (satoshi_to_currency a currency).
Proof. intros H. unfold satoshi_to_currency. thru; auto using thru_rate. Qed.
Lemma thru_fee fast : (forall url, FeeUrl url -> Thru (get_untimed url)) -> Thru (get_fee fast).
Proof. intros H. unfold get_fee. thru; apply H; reflexivity. Qed.
Lemma thru_fee_cached fast : Thru (outside o_time) -> (forall x t, Thru (modify_globals (set_fast x t))) -> (forall x t, Thru (modify_globals (set_hour x t))) ->
  (forall url, FeeUrl url -> Thru (get_untimed url)) -> Thru (get_fee_cached fast).
Proof. intros HT H1 H2 H. unfold get_fee_cached. thru; auto; try (apply H; reflexivity); destruct fast; auto. Qed.
End Thru.

Section Limit.
Context {CR : Crypto} {E : Type} {OU : Outside E} (rounds : nat).
Notation W := (Net E).
Notation run := (S_History.run (E:=E) rounds).
Notation step := (S_History.step (E:=E) rounds).
(** The settings in force after a history. *)
Lemma limit_run ops (w : W) : g_timeout (n_globals (run ops w)) = timeout_after ops (g_timeout (n_globals w)).
Proof.
  revert w. induction ops as [|o ops IH]; intros w; [reflexivity|]. cbn [S_History.run]. rewrite IH.
  assert (EQ : g_timeout (n_globals (step o w)) = timeout_after [o] (g_timeout (n_globals w))).
  { pose proof (step_change rounds o w) as C. destruct o; cbn [Change] in C; cbn [timeout_after]; try (rewrite C; reflexivity).
    - destruct C as [-> | (-> & _)]; reflexivity.
    - rewrite C. destruct testnet; reflexivity.
    - destruct C as [-> | (x & t & ->)]; [reflexivity|]. destruct fast; reflexivity.
    - destruct C as [-> | (x & t & ->)]; reflexivity.
    - destruct C as [-> | (x & t & ->)]; reflexivity. }
  rewrite EQ. destruct o; reflexivity.
Qed.
Lemma limit_start ops t1 t2 e : g_timeout (n_globals (run ops (start t1 t2 e))) = Limit ops.
Proof. rewrite limit_run. reflexivity. Qed.
Lemma limit_app ops (o : op (E)) t : timeout_after (ops ++ [o]) t = match o with ServiceTimeout t' => t' | _ => timeout_after ops t end.
Proof. revert t. induction ops as [|x ops IH]; intros t; cbn [app timeout_after]; [destruct o; reflexivity|]. destruct x; apply IH. Qed.

End Limit.

(** ** The time-outs of the requests *)
Section Watch.
Context {CR : Crypto} {E : Type} {OU : Outside E} (rounds : nat).
Local Instance WA : Outside (E * TLog) := watched.
Notation W := (Net (E * TLog)).
Notation run := (S_History.run (E:=E * TLog) rounds).
Notation step := (S_History.step (E:=E * TLog) rounds).

Definition Tells (t : option Z) (P : pystr * option Z -> Prop) (w w' : W) : Prop :=
  g_timeout (n_globals w) = t -> g_timeout (n_globals w') = t /\ exists l, watch w' = watch w ++ l /\ Forall P l.
Lemma tells_base t P : Base (Tells t P).
Proof.
  constructor.
  - intros w H. split; [exact H|]. exists []. rewrite app_nil_r. auto.
  - intros a b c H1 H2 H. destruct (H1 H) as (T1 & l1 & E1 & F1). destruct (H2 T1) as (T2 & l2 & E2 & F2). split; [exact T2|].
    exists (l1 ++ l2). rewrite E2, E1, app_assoc. split; [reflexivity|apply Forall_app; auto].
Qed.
Lemma tells_note {A} t (P : pystr * option Z -> Prop) url x (m : IO E A) : P (url, x) -> Thru (Tells t P) (outside (noted url x m)).
Proof.
  intros HP w H. unfold outside, zoom, noted, watch. destruct (m (fst (n_outside w))) as [r e']. cbn. split; [exact H|].
  exists [(url, x)]. auto.
Qed.
Lemma tells_get t (P : pystr * option Z -> Prop) url ps : P (url, t) -> Thru (Tells t P) (http_get url ps).
Proof. intros HP w H. unfold http_get. rewrite H. exact (tells_note t P url t (o_get url ps t) HP w H). Qed.
Lemma tells_post t (P : pystr * option Z -> Prop) url ps : P (url, t) -> Thru (Tells t P) (http_post url ps).
Proof. intros HP w H. unfold http_post. rewrite H. exact (tells_note t P url t (o_post url ps t) HP w H). Qed.
Lemma tells_untimed t (P : pystr * option Z -> Prop) url : P (url, None) -> Thru (Tells t P) (get_untimed url).
Proof. intros HP. exact (tells_note t P url None _ HP). Qed.
Lemma tells_rpc t (P : pystr * option Z -> Prop) url m args : P (url, None) -> Thru (Tells t P) (outside (o_rpc url m args None)).
Proof. intros HP. exact (tells_note t P url None _ HP). Qed.
Lemma tells_time t P : Thru (Tells t P) (outside o_time).
Proof.
  intros w H. unfold outside, zoom. cbn. unfold watch. destruct (o_time (fst (n_outside w))) as [r e']. cbn. split; [exact H|]. exists []. rewrite app_nil_r. auto.
Qed.
Lemma tells_modify t P f : (forall g, g_timeout (f g) = g_timeout g) -> Thru (Tells t P) (modify_globals f).
Proof. intros Hf w H. cbn. unfold watch. cbn. rewrite Hf. split; [exact H|]. exists []. rewrite app_nil_r. auto. Qed.

(** The calls that ask a network. *)
Definition About (o : op (E * TLog)) : option net :=
  match o with Balance n _ | Transactions n _ | ById n _ | Unspents n _ | Broadcast n _ => Some n | _ => None end.
Definition Serves (ops : list (op (E * TLog))) (n : net) (w : W) : Prop := let a := apis n (n_globals w) in
  a_balance a = balance_services n ops /\ a_transactions a = history_services n ops /\ a_by_id a = history_services n ops /\
  a_unspent a = unspent_services n ops /\ a_broadcast a = broadcast_services n ops.
Lemma tells_services (D : W -> W -> Prop) ops o n s : Base D -> (forall url ps, Thru D (http_get url ps)) -> (forall url ps, Thru D (http_post url ps)) ->
  About o = Some n -> connected n ops = None -> Serves ops n s -> D s (step o s).
Proof.
  intros B G P HO HC (H1 & H2 & H3 & H4 & H5).
  assert (NN : forall (main test : list service) sv, forallb (fun sv => match sv with Node _ => false | _ => true end) (main ++ test) = true ->
    In sv (services_for (E:=E * TLog) n main test ops) -> NoNode sv).
  { intros main test sv F I. unfold services_for in I. rewrite HC in I. rewrite forallb_forall in F. specialize (F sv). rewrite in_app_iff in F.
    destruct n; destruct sv; cbn; auto; discriminate F; auto. }
  destruct o; cbn [About] in HO; try discriminate HO; injection HO as ->; cbn [S_History.step].
  - unfold get_balance. change (D s (snd (first_working net_ignored (map (call_balance n address) (a_balance (apis n (n_globals s)))) s))).
    apply thru_first; auto. rewrite H1. apply Forall_map, Forall_forall. intros sv I. apply thru_balance; auto. eapply NN; [|exact I]; reflexivity.
  - unfold M_services.get_transactions. change (D s (snd (first_working net_ignored (map (call_transactions rounds n address) (a_transactions (apis n (n_globals s)))) s))).
    apply thru_first; auto. rewrite H2. apply Forall_map, Forall_forall. intros sv I. apply thru_transactions; auto. eapply NN; [|exact I]; reflexivity.
  - unfold get_transaction_by_id. change (D s (snd (first_working net_ignored (map (call_by_id n txid) (a_by_id (apis n (n_globals s)))) s))).
    apply thru_first; auto. rewrite H3. apply Forall_map, Forall_forall. intros sv I. apply thru_by_id; auto. eapply NN; [|exact I]; reflexivity.
  - unfold get_unspent. change (D s (snd (first_working net_ignored (map (call_unspent rounds n address) (a_unspent (apis n (n_globals s)))) s))).
    apply thru_first; auto. rewrite H4. apply Forall_map, Forall_forall. intros sv I. apply thru_unspent; auto. eapply NN; [|exact I]; reflexivity.
  - unfold broadcast_tx. change (D s (snd (broadcast_loop (map (call_broadcast n tx) (a_broadcast (apis n (n_globals s)))) s))).
    apply thru_broadcast_loop; auto. rewrite H5. apply Forall_map, Forall_forall. intros sv I. apply thru_broadcast; auto. eapply NN; [|exact I]; reflexivity.
Qed.
Lemma tells_node (D : W -> W -> Prop) ops o n s url : Base D -> (forall m args, Thru D (outside (o_rpc url m args None))) ->
  Thru D (modify_globals (set_prec (ndigits BTC))) ->
  About o = Some n -> connected n ops = Some url -> Serves ops n s -> D s (step o s).
Proof.
  intros B R M HO HC HL. unfold Serves, balance_services, history_services, unspent_services, broadcast_services, services_for in HL. rewrite HC in HL.
  destruct HL as (H1 & H2 & H3 & H4 & H5).
  destruct o; cbn [About] in HO; try discriminate HO; injection HO as ->; cbn [S_History.step].
  - unfold get_balance. change (D s (snd (first_working net_ignored (map (call_balance n address) (a_balance (apis n (n_globals s)))) s))).
    apply thru_first; auto. rewrite H1. repeat constructor. apply thru_node_balance; auto.
  - unfold M_services.get_transactions. change (D s (snd (first_working net_ignored (map (call_transactions rounds n address) (a_transactions (apis n (n_globals s)))) s))).
    apply thru_first; auto. rewrite H2. repeat constructor. apply thru_node_transactions; auto.
  - unfold get_transaction_by_id. change (D s (snd (first_working net_ignored (map (call_by_id n txid) (a_by_id (apis n (n_globals s)))) s))).
    apply thru_first; auto. rewrite H3. repeat constructor. apply thru_node_by_id; auto.
  - unfold get_unspent. change (D s (snd (first_working net_ignored (map (call_unspent rounds n address) (a_unspent (apis n (n_globals s)))) s))).
    apply thru_first; auto. rewrite H4. repeat constructor. apply thru_node_unspent; auto.
  - unfold broadcast_tx. change (D s (snd (broadcast_loop (map (call_broadcast n tx) (a_broadcast (apis n (n_globals s)))) s))).
    apply thru_broadcast_loop; auto. rewrite H5. repeat constructor. apply thru_node_broadcast; auto.
Qed.

(** Every request to a web service has the time-out that was set last. *)
Theorem C91_services ops t1 t2 e o n : About o = Some n -> connected n ops = None -> let s := run ops (start t1 t2 e) in
  exists l, watch (step o s) = watch s ++ l /\ Forall (fun r => snd r = Limit ops) l.
Proof.
  intros HO HC. cbv zeta.
  apply (tells_services (Tells (Limit ops) (fun r => snd r = Limit ops)) ops o n _ (tells_base _ _)); auto using limit_start; try apply (lists rounds);
    intros; [apply tells_get|apply tells_post]; reflexivity.
Qed.
(** Requests to a node, for rates and for fees have none: they may wait for ever. *)
Theorem C91_untimed ops t1 t2 e o : (forall n, About o = Some n -> connected n ops <> None) -> (forall f, o <> Meanwhile f) -> let s := run ops (start t1 t2 e) in
  exists l, watch (step o s) = watch s ++ l /\ Forall (fun r => snd r = None) l.
Proof.
  intros HO NM. cbv zeta. set (P := fun r : pystr * option Z => snd r = None).
  assert (BA := tells_base (Limit ops) P).
  assert (TT : Thru (Tells (Limit ops) P) (outside o_time)) by apply tells_time.
  assert (UT : forall url, Thru (Tells (Limit ops) P) (get_untimed url)) by (intros; apply tells_untimed; reflexivity).
  assert (MR : forall r, Thru (Tells (Limit ops) P) (modify_globals (fun g => set_rates (r g) g))) by (intros; apply tells_modify; reflexivity).
  assert (Q : forall n, About o = Some n -> Tells (Limit ops) P (run ops (start t1 t2 e)) (step o (run ops (start t1 t2 e)))).
  { intros n HN. destruct (connected n ops) as [url|] eqn:HC; [|destruct (HO n HN HC)].
    apply (tells_node _ ops o n _ url BA); auto; [intros; apply tells_rpc; reflexivity|apply tells_modify; reflexivity|apply (lists rounds)]. }
  assert (NIL : forall w w' : W, watch w' = watch w -> exists l, watch w' = watch w ++ l /\ Forall P l).
  { intros w w' ->. exists []. rewrite app_nil_r. auto. }
  pose proof (limit_start rounds ops t1 t2 e) as HL.
  destruct o; cbn [About] in Q; try (apply (Q _ eq_refl HL)); clear Q HO; cbn [S_History.step];
    generalize dependent (run ops (start t1 t2 e)); intros w HL.
  - apply NIL. reflexivity.
  - apply (thru_fee _ BA); auto.
  - apply (thru_fee_cached _ BA); auto; intros; apply tells_modify; reflexivity.
  - apply (thru_to_satoshi _ BA); auto.
  - apply (thru_to_cached _ BA); auto.
  - apply (thru_from_satoshi _ BA); auto.
  - apply (thru_from_cached _ BA); auto.
  - apply NIL. reflexivity.
  - apply NIL. reflexivity.
  - apply NIL. reflexivity.
  - destruct (NM f eq_refl).
Qed.

(** ** Keys and wallets *)
Context {CH : Chance E}.
Definition watched_chance : Chance (E * TLog) := {| o_random := fun s => let (r, e') := o_random (fst s) in (r, (e', snd s)) |}.
Local Instance WC : Chance (E * TLog) := watched_chance.
Notation NW := (network (CR:=CR) (E:=E * TLog) rounds).

(** What is in force, and is not changed by the calls of methods. *)
Definition Kept (ops : list (op (E * TLog))) (n : net) (w : W) : Prop := g_timeout (n_globals w) = Limit ops /\ Serves ops n w.
Lemma kept_step ops n o w : Internal o -> Kept ops n w -> Kept ops n (step o w).
Proof.
  intros HI (H1 & H2). pose proof (step_change rounds o w) as C.
  assert (Q : apis n (n_globals (step o w)) = apis n (n_globals w) /\ g_timeout (n_globals (step o w)) = g_timeout (n_globals w)).
  { destruct o; cbn [Internal Change] in HI, C; try contradiction; try (rewrite C; auto).
    - destruct C as [->|(x & t & ->)]; [auto|destruct fast, n; auto].
    - destruct C as [->|(x & t & ->)]; [auto|destruct n; auto].
    - destruct C as [->|(x & t & ->)]; [auto|destruct n; auto]. }
  destruct Q as (Q1 & Q2). unfold Kept, Serves. rewrite Q1, Q2. auto.
Qed.
Definition Stays (ops : list (op (E * TLog))) (n : net) (P : pystr * option Z -> Prop) (w w' : W) : Prop :=
  Kept ops n w -> Kept ops n w' /\ exists l, watch w' = watch w ++ l /\ Forall P l.
Lemma stays_step ops n P o w : Internal o -> (Serves ops n w -> Tells (Limit ops) P w (step o w)) -> Stays ops n P w (step o w).
Proof. intros HI HT HK. split; [apply kept_step; auto|]. apply HT; apply HK. Qed.
Definition Mine (ops : list (op (E * TLog))) (n : net) (r : pystr * option Z) : Prop :=
  connected n ops = None /\ snd r = Limit ops \/ connected n ops = Some (fst r) /\ snd r = None.
Lemma stays_asking ops n (P : pystr * option Z -> Prop) o w : (forall r, Mine ops n r -> P r) -> About o = Some n -> Internal o -> Stays ops n P w (step o w).
Proof.
  intros HP HA HI. apply stays_step; [exact HI|]. intros SV. unfold Mine in HP. destruct (connected n ops) as [url|] eqn:HC.
  - apply (tells_node _ ops o n _ url (tells_base _ _)); auto; [intros; apply tells_rpc; apply HP; auto|apply tells_modify; reflexivity].
  - apply (tells_services _ ops o n _ (tells_base _ _)); auto; intros; [apply tells_get|apply tells_post]; apply HP; auto.
Qed.
Lemma walk_stays ops n (K : pystr -> Prop) (F : Prop) (P : pystr * option Z -> Prop) : (forall r, Mine ops n r -> P r) ->
  (F -> forall url, FeeUrl url -> P (url, None)) ->
  (forall c, K c -> In c (map str units) \/ forall url, RateUrl c url -> P (url, None)) ->
  WalkFor rounds n K F (Stays ops n P).
Proof.
  intros HM HF HC. constructor.
  - intros w H. split; [exact H|]. exists []. rewrite app_nil_r. auto.
  - intros a b c H1 H2 H. destruct (H1 H) as (K1 & l1 & E1 & F1). destruct (H2 K1) as (K2 & l2 & E2 & F2). split; [exact K2|].
    exists (l1 ++ l2). rewrite E2, E1, app_assoc. split; [reflexivity|apply Forall_app; auto].
  - intros a c HK w. apply (stays_step ops n P (ToSatoshiCached a c)); [exact I|]. intros _.
    apply (thru_to_cached _ (tells_base _ _)); [apply tells_time|intros; apply tells_modify; reflexivity|].
    destruct (HC c HK) as [H|H]; [auto|]. right. intros url HU. apply tells_untimed, H, HU.
  - intros f w. apply (stays_step ops n P (FeeCached true)); [exact I|]. intros _.
    apply (thru_fee_cached _ (tells_base _ _)); [apply tells_time|intros; apply tells_modify; reflexivity|intros; apply tells_modify; reflexivity|].
    intros url HU. apply tells_untimed. auto.
  - intros a w. assert (EW : snd (@w_unspent _ _ NW n a w) = step (Unspents n a) w).
    { cbn [network w_unspent S_History.step]. unfold ibind. destruct (get_unspent rounds n a w) as [[[us|]|x] w1]; reflexivity. }
    rewrite EW. apply stays_asking; auto. exact I.
  - intros a w. apply (stays_asking ops n P (Transactions n a)); auto. exact I.
  - intros a w. apply (stays_asking ops n P (Broadcast n a)); auto. exact I.
  - intros w H. cbn. unfold outside, zoom. cbn. unfold watch. destruct (o_random (fst (n_outside w))) as [r e']. cbn. split; [exact H|].
    exists []. rewrite app_nil_r. auto.
Qed.
Lemma kept_reached t1 t2 e calls w n : Reached rounds t1 t2 e calls w -> Kept calls n w.
Proof.
  intros R. split.
  - unfold Limit. induction R as [|calls w o R IH|calls A m s M R IH].
    + reflexivity.
    + rewrite limit_app. pose proof (limit_run rounds [o] w) as H. cbn [S_History.run] in H. rewrite H, IH. destruct o; reflexivity.
    + rewrite <- IH. destruct (calls_method rounds A m M s) as (ops & F & ->). rewrite limit_run. clear IH. generalize (g_timeout (n_globals (wl_world s))).
      induction F as [|o ops HI F IHF]; intros t; [reflexivity|]. destruct o; cbn [timeout_after]; try apply IHF. destruct HI.
  - destruct (C76_histories rounds _ _ _ _ _ R) as (ops & -> & HC & _). pose proof (lists rounds ops t1 t2 e n) as H. cbv zeta in H.
    unfold Serves, balance_services, history_services, unspent_services, broadcast_services, services_for in *. rewrite <- HC. exact H.
Qed.

(** Whatever a key or wallet does, its requests have the time-out that was set last,
    but for those for rates and fees and those to a node, which have none. *)
Theorem C91_wallets t1 t2 e calls n A (m : IO (@Wallet W) A) s : Reached rounds t1 t2 e calls (wl_world s) -> MethodOf rounds n A m ->
  exists l, watch (wl_world (snd (m s))) = watch (wl_world s) ++ l /\
    Forall (fun r => snd r = Limit calls \/
      snd r = None /\ (FeeUrl (fst r) \/ (exists c, RateUrl c (fst r)) \/ connected n calls = Some (fst r))) l.
Proof.
  intros R M. set (P := fun r : pystr * option Z => _ \/ _).
  assert (WK : Walk rounds n (Stays calls n P)).
  { assert (WF : WalkFor rounds n (fun _ => True) True (Stays calls n P)).
    { apply walk_stays.
      - intros r [(H1 & H2)|(H1 & H2)]; [left; exact H2|right; auto].
      - intros _ url HU. right. auto.
      - intros c _. right. intros url HU. right. cbn. eauto. }
    destruct WF. constructor; auto. intros x c w. apply (stays_step calls n P (FromSatoshiCached x c)); [exact I|]. intros _.
    apply (thru_from_cached _ (tells_base _ _)); [apply tells_time|intros; apply tells_modify; reflexivity|].
    right. intros url HU. apply tells_untimed. right. cbn. eauto. }
  exact (proj2 (method_walk rounds n A m _ M WK s (kept_reached _ _ _ _ _ n R))).
Qed.
(** With a fee and amounts in bitcoin units, and no node, all requests of
    create_transaction, send and prepare_transaction have the time-out. *)
Definition InUnits (outputs : list (pystr * pystr * pystr)) : Prop := Forall (fun o => In (snd o) (map str units)) outputs.
Theorem C91_given t1 t2 e calls sg outputs fee leftover unspents o s : Reached rounds t1 t2 e calls (wl_world s) ->
  InUnits outputs -> fee <> 0 -> connected (sg_version sg) calls = None ->
  (exists l, watch (wl_world (snd (@create_transaction CR _ _ NW sg outputs (Some fee) leftover unspents o s))) = watch (wl_world s) ++ l /\
     Forall (fun r => snd r = Limit calls) l) /\
  (exists l, watch (wl_world (snd (@send CR _ _ NW sg outputs (Some fee) leftover unspents o s))) = watch (wl_world s) ++ l /\
     Forall (fun r => snd r = Limit calls) l) /\
  (forall address, exists l, watch (snd (snd (@prepare_transaction CR _ _ NW (sg_version sg) address outputs (Some fee) leftover unspents o (wl_caller s, wl_world s)))) =
     watch (wl_world s) ++ l /\ Forall (fun r => snd r = Limit calls) l).
Proof.
  intros R HU HF HC. set (n := sg_version sg). pose proof (kept_reached _ _ _ _ _ n R) as KP.
  assert (WF : WalkFor rounds n (fun c => In c (map str units)) False (Stays calls n (fun r => snd r = Limit calls))).
  { apply walk_stays; [|intros []|auto]. intros r [(_ & H)|(H & _)]; [exact H|]. fold n in HC. congruence. }
  assert (GV : GivenOr False (Some fee)) by (intros [H|H]; congruence).
  split; [|split; [|intros address]].
  - exact (proj2 (calls_create rounds n _ _ _ WF sg outputs (Some fee) leftover unspents o eq_refl HU GV s KP)).
  - exact (proj2 (calls_send rounds n _ _ _ WF sg outputs (Some fee) leftover unspents o eq_refl HU GV s KP)).
  - exact (proj2 (callsU_prepare rounds n _ _ _ WF address outputs (Some fee) leftover unspents o HU GV (wl_caller s, wl_world s) KP)).
Qed.

Lemma walk_extends n t : WalkFor rounds n (fun _ => True) True (Tells t (fun _ => True)).
Proof.
  pose proof (tells_base t (fun _ => True)) as B.
  assert (G : forall url ps, Thru (Tells t (fun _ => True)) (http_get url ps)) by (intros; apply tells_get; exact I).
  assert (P : forall url ps, Thru (Tells t (fun _ => True)) (http_post url ps)) by (intros; apply tells_post; exact I).
  assert (R : forall url m args, Thru (Tells t (fun _ => True)) (outside (o_rpc url m args None))) by (intros; apply tells_rpc; exact I).
  assert (U : forall url, Thru (Tells t (fun _ => True)) (get_untimed url)) by (intros; apply tells_untimed; exact I).
  assert (T : Thru (Tells t (fun _ => True)) (outside o_time)) by apply tells_time.
  constructor; try apply B.
  - intros a c _. apply (thru_to_cached _ B); auto. intros. apply tells_modify. reflexivity.
  - intros _. apply (thru_fee_cached _ B); auto; intros; apply tells_modify; reflexivity.
  - intros a w. assert (EW : snd (@w_unspent _ _ NW n a w) = step (Unspents n a) w).
    { cbn [network w_unspent S_History.step]. unfold ibind. destruct (get_unspent rounds n a w) as [[[us|]|x] w1]; reflexivity. }
    rewrite EW. cbn [S_History.step]. unfold get_unspent.
    change (Tells t (fun _ => True) w (snd (first_working net_ignored (map (call_unspent rounds n a) (a_unspent (apis n (n_globals w)))) w))).
    apply thru_first; auto. apply Forall_map, Forall_forall. intros sv _. destruct sv; try (apply thru_unspent; auto; exact I). apply thru_node_unspent; auto.
  - intros a w. cbn [network w_history]. unfold M_services.get_transactions.
    change (Tells t (fun _ => True) w (snd (first_working net_ignored (map (call_transactions rounds n a) (a_transactions (apis n (n_globals w)))) w))).
    apply thru_first; auto. apply Forall_map, Forall_forall. intros sv _. destruct sv; try (apply thru_transactions; auto; exact I). apply thru_node_transactions; auto.
  - intros a w. cbn [network w_broadcast]. unfold broadcast_tx.
    change (Tells t (fun _ => True) w (snd (broadcast_loop (map (call_broadcast n a) (a_broadcast (apis n (n_globals w)))) w))).
    apply thru_broadcast_loop; auto. apply Forall_map, Forall_forall. intros sv _. destruct sv; try (apply thru_broadcast; auto; exact I). apply thru_node_broadcast; auto.
  - intros w H. cbn. unfold outside, zoom. cbn. unfold watch. destruct (o_random (fst (n_outside w))) as [r e']. cbn. split; [exact H|].
    exists []. rewrite app_nil_r. auto.
Qed.
(** A transaction without a given fee, when no fee was asked for before: whatever
    time-out was set, create_transaction begins with a request that has none. *)
Theorem C91_create_refuted sg outputs leftover us o s now e' : us <> [] ->
  (exists a, (if existsb u_is_segwit us then sg_segwit_address sg else rmap Some (sg_address sg)) = Ok a) ->
  g_fast (n_globals (wl_world s)) = None -> @o_time E OU (fst (n_outside (wl_world s))) = (Ok now, e') ->
  exists l, watch (wl_world (snd (@create_transaction CR _ _ NW sg outputs None leftover (Some us) o s))) =
    watch (wl_world s) ++ (str "https://mempool.space/api/v1/fees/recommended", None) :: l.
Proof.
  intros NE (a & EA) GF ET. change (str "https://mempool.space/api/v1/fees/recommended") with fee_url.
  assert (TL : exists r w1, @w_fee _ _ NW (wl_world s) = (r, w1) /\ watch w1 = watch (wl_world s) ++ [(fee_url, None)]).
  { cbn [network w_fee]. rewrite (fee_cached_eq true). cbv zeta. rewrite GF. cbn [o_time watched WA]. rewrite ET. cbn [fresh].
    cbn [o_get watched WA]. unfold noted. cbn [fst snd]. destruct (o_get fee_url [] None e') as [r e2].
    destruct (resp <- r ;; _) as [x|x]; eexists _, _; (split; [reflexivity|]); reflexivity. }
  destruct TL as (r & w1 & EW & LW).
  assert (EC : exists r2 s2, @create_transaction CR _ _ NW sg outputs None leftover (Some us) o s = (r2, s2) /\ exists l, watch (wl_world s2) = watch w1 ++ l).
  { unfold create_transaction. destruct us as [|u us]; [congruence|]. cbn [nonempty]. unfold ibind at 1. unfold ibind at 1.
    change (modify (set_caller (u :: us)) s) with (@Ok unit tt, set_caller (u :: us) s). unfold iret at 1. unfold ibind at 1. rewrite EA. unfold ilift at 1. unfold ibind at 1.
    unfold world at 1, zoom at 1. cbn [fee_or_cached]. change (wl_world (set_caller (u :: us) s)) with (wl_world s). rewrite EW.
    destruct r as [f|x]; [|eexists _, _; split; [reflexivity|]; exists []; rewrite app_nil_r; reflexivity].
    match goal with |- exists r2 s2, ?m ?st = _ /\ _ => assert (C : Calls (Tells (g_timeout (n_globals w1)) (fun _ => True)) m); [|specialize (C st)] end.
    - eapply calls_bind; [exact (walk_extends (sg_version sg) _)|eapply calls_run_sanitize, callsU_sanitize; [exact (walk_extends (sg_version sg) _)|]|].
      + apply Forall_forall. auto.
      + intros (us2 & outs). eapply calls_lift. exact (walk_extends (sg_version sg) _).
    - match goal with |- exists r2 s2, ?x = _ /\ _ => destruct x as [r2 s2] end. exists r2, s2. split; [reflexivity|].
      destruct (C eq_refl) as (_ & l & EL & _). exists l. exact EL. }
  destruct EC as (r2 & s2 & EC & l & EL). rewrite EC. exists l. cbn [snd]. rewrite EL, LW, <- app_assoc. reflexivity.
Qed.
End Watch.

(** ** When nobody answers *)
Section Clock.
Context {CR : Crypto} {E : Type} {OU : Outside E} (rounds : nat) (clock : E -> Z) (PU : Punctual clock) (SI : Silent (OU:=OU)).
Notation W := (Net E).
Notation run := (S_History.run (E:=E) rounds).
Notation at_ w := (clock (n_outside w)).

Definition DownIn {A} (T : Z) (m : IO W A) : Prop := forall s, g_timeout (n_globals s) = Some T ->
  exists x s', m s = (Raise x, s') /\ Unusable x /\ n_globals s' = n_globals s /\ at_ s' <= at_ s + T.
Lemma down_in_bind {A C} T (m : IO W A) (f : A -> IO W C) : DownIn T m -> DownIn T (ibind m f).
Proof. intros H s HT. destruct (H s HT) as (x & s' & EM & U). exists x, s'. unfold ibind. rewrite EM. auto. Qed.
Lemma down_in_get T url ps : DownIn T (http_get url ps).
Proof.
  intros s HT. unfold http_get, outside, zoom. rewrite HT. destruct (proj1 SI url ps T (n_outside s)) as (x & EX & HX). pose proof (proj1 PU url ps T (n_outside s)) as HP.
  destruct (o_get url ps (Some T) (n_outside s)) as [r e']. cbn in EX, HP |- *. subst r. eexists _, _. split; [reflexivity|]. split; [|auto].
  unfold Unusable. cbn. destruct HX as [-> | ->]; auto.
Qed.
Lemma down_in_post T url ps : DownIn T (http_post url ps).
Proof.
  intros s HT. unfold http_post, outside, zoom. rewrite HT. destruct (proj2 SI url ps T (n_outside s)) as (x & EX & HX). pose proof (proj2 PU url ps T (n_outside s)) as HP.
  destruct (o_post url ps (Some T) (n_outside s)) as [r e']. cbn in EX, HP |- *. subst r. eexists _, _. split; [reflexivity|]. split; [|auto].
  unfold Unusable. cbn. destruct HX as [-> | ->]; auto.
Qed.
Lemma all_down {A} T (calls : list (IO W A)) s : Forall (DownIn T) calls -> g_timeout (n_globals s) = Some T ->
  exists s', first_working net_ignored calls s = (Raise ConnectionError, s') /\ at_ s' <= at_ s + zlen calls * T.
Proof.
  intros F. revert s. induction F as [|c r Hc _ IH]; intros s HT; cbn [first_working].
  - exists s. split; [reflexivity|]. unfold zlen. cbn. lia.
  - destruct (Hc s HT) as (x & s1 & EM & U & EG & LE). unfold itry. rewrite EM. apply ignored_unusable in U. rewrite U.
    destruct (IH s1) as (s2 & E2 & LE2); [rewrite EG; exact HT|]. exists s2. split; [exact E2|]. unfold zlen in *. cbn [length]. lia.
Qed.
Lemma all_down_broadcast T (calls : list (IO W bool)) s : Forall (DownIn T) calls -> g_timeout (n_globals s) = Some T ->
  exists s', broadcast_loop calls s = (Raise ConnectionError, s') /\ at_ s' <= at_ s + zlen calls * T.
Proof.
  intros F. revert s. induction F as [|c r Hc _ IH]; intros s HT; cbn [broadcast_loop].
  - exists s. split; [reflexivity|]. unfold zlen. cbn. lia.
  - destruct (Hc s HT) as (x & s1 & EM & U & EG & LE). unfold ibind, itry. rewrite EM. apply ignored_unusable in U. rewrite U. unfold iret.
    destruct (IH s1) as (s2 & E2 & LE2); [rewrite EG; exact HT|]. exists s2. split; [exact E2|]. unfold zlen in *. cbn [length]. lia.
Qed.
Ltac down_in := repeat first [apply down_in_get | apply down_in_post | apply down_in_bind].
(** Then every call raises ConnectionError, at the latest when the time-out has
    passed once for every service of the list (four or five of them). *)
Theorem C91_silent ops t1 t2 e n x T : Limit ops = Some T -> connected n ops = None -> let s := run ops (start t1 t2 e) in
  (exists s', get_balance n x s = (Raise ConnectionError, s') /\ at_ s' <= at_ s + zlen (balance_services n ops) * T) /\
  (exists s', M_services.get_transactions rounds n x s = (Raise ConnectionError, s') /\ at_ s' <= at_ s + zlen (history_services n ops) * T) /\
  (exists s', get_transaction_by_id n x s = (Raise ConnectionError, s') /\ at_ s' <= at_ s + zlen (history_services n ops) * T) /\
  (exists s', get_unspent rounds n x s = (Raise ConnectionError, s') /\ at_ s' <= at_ s + zlen (unspent_services n ops) * T) /\
  (exists s', broadcast_tx n x s = (Raise ConnectionError, s') /\ at_ s' <= at_ s + zlen (broadcast_services n ops) * T).
Proof.
  intros HT HC. cbv zeta. pose proof (lists rounds ops t1 t2 e n) as HL. cbv zeta in HL. pose proof (limit_start rounds ops t1 t2 e) as HG. rewrite HT in HG.
  generalize dependent (run ops (start t1 t2 e)). intros s (H1 & H2 & H3 & H4 & H5) HG.
  assert (ML : forall A (f : service -> A) l, zlen (map f l) = zlen l) by (intros; unfold zlen; rewrite map_length; reflexivity).
  repeat split.
  - unfold get_balance. change (exists s', first_working net_ignored (map (call_balance n x) (a_balance (apis n (n_globals s)))) s = (Raise ConnectionError, s') /\ at_ s' <= at_ s + zlen (balance_services n ops) * T).
    rewrite H1. rewrite <- (ML _ (call_balance n x)). apply all_down; [|exact HG].
    unfold balance_services, services_for. rewrite HC. destruct n; repeat constructor; cbn [call_balance];
      unfold blockchair_balance, blockstream_balance, bitcore_balance, smartbit_balance, blockchain_balance; down_in.
  - unfold M_services.get_transactions. change (exists s', first_working net_ignored (map (call_transactions rounds n x) (a_transactions (apis n (n_globals s)))) s = (Raise ConnectionError, s') /\ at_ s' <= at_ s + zlen (history_services n ops) * T).
    rewrite H2. rewrite <- (ML _ (call_transactions rounds n x)). apply all_down; [|exact HG].
    unfold history_services, services_for. rewrite HC. destruct n; repeat constructor; cbn [call_transactions];
      unfold blockchair_transactions, blockstream_transactions, smartbit_transactions, blockchain_transactions; down_in.
  - unfold get_transaction_by_id. change (exists s', first_working net_ignored (map (call_by_id n x) (a_by_id (apis n (n_globals s)))) s = (Raise ConnectionError, s') /\ at_ s' <= at_ s + zlen (history_services n ops) * T).
    rewrite H3. rewrite <- (ML _ (call_by_id n x)). apply all_down; [|exact HG].
    unfold history_services, services_for. rewrite HC. destruct n; repeat constructor; cbn [call_by_id];
      unfold blockchair_by_id, blockstream_by_id, smartbit_by_id, blockchain_by_id; down_in.
  - unfold get_unspent. change (exists s', first_working net_ignored (map (call_unspent rounds n x) (a_unspent (apis n (n_globals s)))) s = (Raise ConnectionError, s') /\ at_ s' <= at_ s + zlen (unspent_services n ops) * T).
    rewrite H4. rewrite <- (ML _ (call_unspent rounds n x)). apply all_down; [|exact HG].
    unfold unspent_services, services_for. rewrite HC. destruct n; repeat constructor; cbn [call_unspent];
      unfold blockchair_unspent, blockstream_unspent, bitcore_unspent, smartbit_unspent, blockchain_unspent; down_in.
  - unfold broadcast_tx. change (exists s', broadcast_loop (map (call_broadcast n x) (a_broadcast (apis n (n_globals s)))) s = (Raise ConnectionError, s') /\ at_ s' <= at_ s + zlen (broadcast_services n ops) * T).
    rewrite H5. rewrite <- (ML _ (call_broadcast n x)). apply all_down_broadcast; [|exact HG].
    unfold broadcast_services, services_for. rewrite HC. destruct n; repeat constructor; cbn [call_broadcast];
      unfold blockchair_broadcast, blockstream_broadcast, bitcore_broadcast, smartbit_broadcast, blockchain_broadcast, push; down_in.
Qed.
End Clock.

(** ** Examples *)

(** Nobody answers; the state is the clock. *)
Definition silent : Outside Z := {|
  o_get := fun _ _ t e => (Raise ReqTimeout, match t with Some t => e + t | None => e end);
  o_post := fun _ _ t e => (Raise ReqConnectionError, match t with Some t => e + t | None => e end);
  o_rpc := fun _ _ _ _ e => (Raise ReqConnectionError, e); o_time := fun e => (Ok e, e) |}.
Example C91_silent_hypotheses : Punctual (OU:=silent) (fun e => e) /\ Silent (OU:=silent) /\
  Limit (E:=Z) [ServiceTimeout (Some 60); Balance Main (str "a"); ServiceTimeout (Some 3); Fee true] = Some 3.
Proof. split; [split; intros; cbn; lia|]. split; [split; intros; eexists; (split; [reflexivity|]); auto|reflexivity]. Qed.
Example C91_silent_case : @get_balance Z silent Main (str "a") (@S_History.run toy Z silent 5 [ServiceTimeout (Some 3)] (start 0 0 100)) =
  (Raise ConnectionError, mkNet (set_service_timeout (Some 3) (initial_globals 0 0)) 115).
Proof. vm_compute. reflexivity. Qed.

(** The town of P_app, watched. *)
Definition town_watched : Outside (Town * TLog) := @watched Town town.
Definition calm : list (op (Town * TLog)) := [ServiceTimeout (Some 4)].
Definition watched_wallet : @Wallet (Net (Town * TLog)) :=
  mkWallet (@S_History.run toy _ town_watched 5 calm (start 0 0 ((0, []), []))) 0 [] [] [].
Example C91_services_case :
  watch (@S_History.step toy _ town_watched 5 (Unspents Main town_a) (wl_world watched_wallet)) =
    [(str "https://blockstream.info/api/blocks/tip/height", Some 4); (str "https://blockstream.info/api/address/" ++ town_a ++ str "/utxo", Some 4)] /\
  watch (@S_History.step toy _ town_watched 5 (Balance Main town_a) (wl_world watched_wallet)) =
    [(str "https://api.blockchair.com/bitcoin/dashboards/address/" ++ town_a, Some 4); (str "https://blockstream.info/api/address/" ++ town_a, Some 4)].
Proof. split; vm_compute; reflexivity. Qed.
Example C91_untimed_case :
  watch (@S_History.step toy _ town_watched 5 (ToSatoshi (str "1") (str "usd")) (wl_world watched_wallet)) =
    [(str "https://bitpay.com/rates/BTC/usd", None); (str "https://blockchain.info/tobtc?currency=USD&value=1", None)] /\
  watch (@S_History.step toy _ town_watched 5 (Balance Test town_a) (@S_History.step toy _ town_watched 5
    (Connect (str "u") (str "p") (str "h") 8332 false true []) (wl_world watched_wallet))) = [(str "http://u:p@h:8332/", None)].
Proof. split; vm_compute; reflexivity. Qed.
(** A request for more than there is: the coins of both addresses are asked for. *)
Definition town_chance_watched : Chance (Town * TLog) := @watched_chance Town town_chance.
Definition too_much : list (pystr * pystr * pystr) := [(town_a, str "1", str "btc")].
Example C91_given_hypotheses : @Reached toy _ town_watched town_chance_watched 5 0 0 ((0, []), []) calm (wl_world watched_wallet) /\
  InUnits too_much /\ connected (sg_version (Single wkey)) calm = None /\
  exists r s' l, @create_transaction toy _ _ (@network toy _ town_watched town_chance_watched 5) (Single wkey) too_much (Some 7) None None (mkOptions true None false false false) watched_wallet = (r, s') /\
    watch (wl_world s') = l /\ length l = 4%nat /\ forallb (fun x => match snd x with Some 4 => true | _ => false end) l = true.
Proof.
  split; [exact (R_call _ _ _ _ _ _ (ServiceTimeout (Some 4)) (R_start _ _ _ _))|]. split; [constructor; [vm_compute; tauto|constructor]|]. split; [reflexivity|].
  eexists _, _, _. split; [vm_compute; reflexivity|]. split; [vm_compute; reflexivity|]. vm_compute. auto.
Qed.
Example C91_create_refuted_hypotheses : let u := new_unspent 5000 1 [] [] 0 (str "p2pkh") None None 4294967295 in
  (exists a, (if existsb u_is_segwit [u] then @sg_segwit_address toy (Single wkey) else rmap Some (@sg_address toy (Single wkey))) = Ok a) /\
  g_fast (n_globals (wl_world watched_wallet)) = None /\ @o_time Town town (fst (n_outside (wl_world watched_wallet))) = (Ok 0, (0, [])).
Proof. cbv zeta. split; [eexists; vm_compute; reflexivity|]. split; vm_compute; reflexivity. Qed.

Print Assumptions C91_services.
Print Assumptions C91_untimed.
Print Assumptions C91_wallets.
Print Assumptions C91_given.
Print Assumptions C91_create_refuted.
Print Assumptions C91_silent.
