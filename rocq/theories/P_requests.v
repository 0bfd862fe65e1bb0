(** C60, C61, C77, C78: the requests that are made. *)
From Coq Require Import String.
From Verif Require Import F_base M_app F_app S_Decimal S_History S_Servers S_Failover S_Requests F_decimal F_network F_servers P_rates P_network P_services P_failover P_anyservice P_app X_toy X_net X_server.

Section Requests.
Context {CR : Crypto} {E : Type} {OU : Outside E} (rounds : nat).
Notation run := (S_History.run (E:=E) rounds).

(** ** C60: submitting makes one request, and a status of 200 means success *)
Theorem C60_requests n tx sv url form (s : Net E) : submission n tx sv = Some (url, form) ->
  let (r, e') := o_post url form (g_timeout (n_globals s)) (n_outside s) in
  call_broadcast n tx sv s = (match r with Ok resp => Ok (r_status resp =? 200) | Raise x => Raise x end, mkNet (n_globals s) e').
Proof.
  intros H. assert (EC : call_broadcast n tx sv = push url form).
  { destruct sv, n; cbn [submission] in H; inversion H; subst; reflexivity. }
  rewrite EC. unfold push, ibind, http_post, outside, zoom. destruct (o_post url form (g_timeout (n_globals s)) (n_outside s)) as [[resp|x] e']; reflexivity.
Qed.
(** Every public service that is asked has one. *)
Theorem C60_all ops n tx sv : connected n ops = None -> In sv (broadcast_services (E:=E) n ops) -> exists url form, submission n tx sv = Some (url, form).
Proof.
  unfold broadcast_services, services_for. intros ->. destruct n; cbn; intros H; intuition subst; cbn; eauto.
Qed.
(** A node is sent the transaction too; only a report without error means success. *)
Theorem C60_node n tx url (s : Net E) :
  let (r, e') := o_rpc url (str "sendrawtransaction") [JStr tx] None (n_outside s) in
  let s' := mkNet (n_globals s) e' in
  match r with
  | Raise x => x <> BitcoinNodeException ->
      call_broadcast n tx (Node url) s = (Raise (match x with ReqConnectionError => ConnectionError | x => x end), s')
  | Ok resp =>
      (r_status resp <> 200 -> r_status resp <> 500 -> call_broadcast n tx (Node url) s = (Ok false, s')) /\
      (r_status resp = 200 \/ r_status resp = 500 -> forall j, r_json resp = Ok j ->
        (forall v, Lacks "error" j \/ Has "error" JNull j -> Has "result" v j -> call_broadcast n tx (Node url) s = (Ok true, s')) /\
        (forall v, Has "error" v j -> v <> JNull -> call_broadcast n tx (Node url) s = (Ok false, s')))
  end.
Proof.
  assert (EC : call_broadcast n tx (Node url) = node_broadcast url tx) by (destruct n; reflexivity). rewrite EC. clear EC.
  unfold node_broadcast, rpc, itry, ibind, outside, zoom. destruct (o_rpc url (str "sendrawtransaction") [JStr tx] None (n_outside s)) as [[resp|x] e'].
  - split.
    + intros N1 N2. cbn [fst snd]. destruct (Z.eqb_spec (r_status resp) 200); [lia|]. destruct (Z.eqb_spec (r_status resp) 500); [lia|]. reflexivity.
    + intros ST j EJ. assert (B : (r_status resp =? 200) || (r_status resp =? 500) = true) by (apply orb_true_iff; rewrite !Z.eqb_eq; exact ST).
      cbn [fst snd]. rewrite B. cbn [negb]. unfold ilift. rewrite EJ. cbn [bind]. split.
      * intros v [LE|HE] HR; [rewrite (lacks_jhas _ _ LE)|rewrite (has_jhas _ _ _ HE); cbn [bind]; rewrite (has _ _ _ HE)]; cbn [bind]; rewrite (has _ _ _ HR); reflexivity.
      * intros v HE NV. rewrite (has_jhas _ _ _ HE). cbn [bind]. rewrite (has _ _ _ HE). cbn [bind]. destruct v; try congruence; reflexivity.
  - intros NX. destruct x; try congruence; reflexivity.
Qed.

(** ** C61: where a node is *)
Theorem C61_connect user password host port https testnet path (s : Net E) : 0 <= port ->
  exists digits s', Digits port digits /\ digits <> [] /\
    connect_to_node user password host port https testnet path s =
      (Ok (str (if https then "https" else "http") ++ str "://" ++ user ++ str ":" ++ password ++ str "@" ++ host ++ str ":" ++ digits ++ str "/" ++ path), s') /\
    n_outside s' = n_outside s.
Proof.
  intros HP. destruct (str_of_int_digits port HP) as [D N]. exists (str_of_int port), (snd (connect_to_node user password host port https testnet path s)).
  split; [exact D|]. split; [exact N|]. split; [|reflexivity]. destruct https; reflexivity.
Qed.

(** ** C77: a transaction by its id, from any service *)
Lemma yields_status g url st P : Answers url st P -> Yields g (http_get url []) (fun r => r_status r = st /\ P r).
Proof.
  intros H e. destruct (H (g_timeout g) e) as (r & e' & E1 & E2 & E3). exists r, e'. split; [|auto].
  unfold http_get, outside, zoom. cbn [n_outside n_globals]. rewrite E1. reflexivity.
Qed.
Lemma raw_service g n txid raw sv : ServesRaw (OU:=OU) n txid raw sv -> Yields g (call_by_id n txid sv) (eq raw).
Proof.
  destruct sv as [| | | | |url]; cbn [ServesRaw].
  - assert (EC : call_by_id n txid Blockchair = blockchair_by_id n txid) by (destruct n; reflexivity). rewrite EC. clear EC. unfold blockchair_by_id.
    assert (EU : blockchair_endpoint n ++ str "raw/transaction/" ++ txid = match n with Main => str "https://api.blockchair.com/bitcoin/raw/transaction/"
                            | Test => str "https://api.blockchair.com/bitcoin/testnet/raw/transaction/" end ++ txid) by (destruct n; reflexivity).
    rewrite EU. clear EU. destruct raw as [h|]; [intros R|intros [R|R]].
    + eapply yields_bind; [apply yields_get, R|]. intros r (ST & j & EJ & d & t & H1 & H2 & H3). rewrite ST. cbn [Z.eqb Pos.eqb].
      eapply yields_bind; [apply yields_ok_status, ST|]. intros _ _. eapply yields_lift; [|reflexivity]. rewrite EJ. cbn [bind]. rewrite (has _ _ _ H1). cbn [bind].
      assert (T : jtrue d = true) by (destruct H2 as (fs & -> & _ & I); destruct fs; [destruct I|reflexivity]). rewrite T. cbn [negb].
      rewrite (has_key _ _ _ H2). cbn [bind]. rewrite (has _ _ _ H3). reflexivity.
    + eapply yields_bind; [apply yields_status, R|]. intros r (ST & _). rewrite ST. apply yields_ret. reflexivity.
    + eapply yields_bind; [apply yields_get, R|]. intros r (ST & j & EJ & d & H1 & H2). rewrite ST. cbn [Z.eqb Pos.eqb].
      eapply yields_bind; [apply yields_ok_status, ST|]. intros _ _. eapply yields_lift; [|reflexivity]. rewrite EJ. cbn [bind]. rewrite (has _ _ _ H1). cbn [bind].
      assert (T : jtrue d = false) by (cbn in H2; intuition subst; reflexivity). rewrite T. reflexivity.
  - assert (EC : call_by_id n txid Blockstream = blockstream_by_id n txid) by (destruct n; reflexivity). rewrite EC. clear EC. unfold blockstream_by_id.
    assert (EU : blockstream_endpoint n ++ str "tx/" ++ txid ++ str "/hex" =
      match n with Main => str "https://blockstream.info/api/tx/" | Test => str "https://blockstream.info/testnet/api/tx/" end ++ txid ++ str "/hex") by (destruct n; reflexivity).
    rewrite EU. clear EU. destruct raw as [h|]; intros R.
    + eapply yields_bind; [apply yields_text, R|]. intros r (ST & <-). rewrite ST. cbn [Z.eqb Pos.eqb].
      eapply yields_bind; [apply yields_ok_status, ST|]. intros _ _. apply yields_ret. reflexivity.
    + eapply yields_bind; [apply yields_status, R|]. intros r (ST & _). rewrite ST. apply yields_ret. reflexivity.
  - intros [].
  - assert (EC : call_by_id n txid Smartbit = smartbit_by_id n txid) by (destruct n; reflexivity). rewrite EC. clear EC. unfold smartbit_by_id.
    assert (EU : smartbit_endpoint n ++ str "tx/" ++ txid ++ str "/hex?limit=1000" =
      match n with Main => str "https://api.smartbit.com.au/v1/blockchain/tx/" | Test => str "https://testnet-api.smartbit.com.au/v1/blockchain/tx/" end ++ txid ++ str "/hex?limit=1000") by (destruct n; reflexivity).
    rewrite EU. clear EU. destruct raw as [h|]; intros R.
    + eapply yields_bind; [apply yields_get, R|]. intros r (ST & j & EJ & x & l & H1 & H2). rewrite ST. cbn [Z.eqb Pos.eqb].
      eapply yields_bind; [apply yields_ok_status, ST|]. intros _ _. eapply yields_lift; [|reflexivity]. rewrite EJ. cbn [bind]. rewrite (has _ _ _ H1). cbn [bind jlist].
      assert (PI : py_index (x :: l) 0 = Ok x) by reflexivity. rewrite PI. cbn [bind]. rewrite (has _ _ _ H2). reflexivity.
    + eapply yields_bind; [apply yields_status, R|]. intros r (ST & _). rewrite ST. apply yields_ret. reflexivity.
  - intros (-> & R). cbn [call_by_id]. unfold blockchain_by_id.
    change (blockchain_endpoint ++ str "rawtx/" ++ txid ++ str "?limit=0&format=hex") with (str "https://blockchain.info/rawtx/" ++ txid ++ str "?limit=0&format=hex").
    destruct raw as [h|].
    + eapply yields_bind; [apply yields_text, R|]. intros r (ST & <-). rewrite ST. cbn [Z.eqb Pos.eqb andb].
      eapply yields_bind; [apply yields_ok_status, ST|]. intros _ _. apply yields_ret. reflexivity.
    + eapply yields_bind; [apply yields_status, R|]. intros r (ST & TX). rewrite ST, TX. apply yields_ret. reflexivity.
  - destruct raw as [h|]; [|intros []]. intros R. assert (EC : call_by_id n txid (Node url) = node_by_id url txid) by (destruct n; reflexivity). rewrite EC. clear EC.
    unfold node_by_id. eapply yields_bind; [apply yields_rpc, R|]. intros r <-. eapply yields_lift; reflexivity.
Qed.
Theorem C77_any n txid raw ops t1 t2 e : let s := run ops (start t1 t2 e) in
  (forall sv, In sv (history_services n ops) -> Down (call_by_id n txid sv) \/ ServesRaw (OU:=OU) n txid raw sv) ->
  exists r e', get_transaction_by_id n txid s = (r, mkNet (n_globals s) e') /\ (r = Raise ConnectionError \/ r = Ok raw) /\
    ((exists sv, In sv (history_services n ops) /\ ServesRaw (OU:=OU) n txid raw sv) -> r = Ok raw).
Proof.
  cbv zeta. intros HSV. set (s := run ops (start t1 t2 e)) in *.
  pose proof (lists rounds ops t1 t2 e n) as (_ & _ & HL & _). cbv zeta in HL. fold s in HL.
  unfold get_transaction_by_id. unfold ibind at 1. change (globals s) with (Ok (n_globals s), s). cbv beta iota. rewrite HL.
  destruct (first_reports (call_by_id n txid) (history_services n ops) (n_globals s) (eq raw)) with (e := n_outside s) as (r & e' & ER & HR & HS).
  - intros sv I e0. destruct (HSV sv I) as [DN|SV].
    + left. apply down_frame; auto. apply Frame_call_by_id.
    + right. apply raw_service. exact SV.
  - replace (mkNet (n_globals s) (n_outside s)) with s in ER by (destruct s; reflexivity). exists r, e'. split; [exact ER|]. split.
    + destruct HR as [->|(a & -> & <-)]; auto.
    + intros (sv & I & SV). destruct HS as (a & -> & <-); auto. exists sv. split; auto. apply raw_service. exact SV.
Qed.
(** A node that does not know the transaction reports an error, and that is raised
    instead of returning None. *)
Theorem C77_node_unknown n txid url ops t1 t2 e resp e' j v : let s := run ops (start t1 t2 e) in
  connected n ops = Some url -> o_rpc url (str "getrawtransaction") [JStr txid; JBool false] None (n_outside s) = (Ok resp, e') ->
  r_status resp = 500 -> r_json resp = Ok j -> Has "error" v j -> v <> JNull ->
  get_transaction_by_id n txid s = (Raise BitcoinNodeException, mkNet (n_globals s) e').
Proof.
  cbv zeta. intros HC HR ST EJ HE NV. set (s := run ops (start t1 t2 e)) in *.
  pose proof (lists rounds ops t1 t2 e n) as (_ & _ & HL & _). cbv zeta in HL. fold s in HL. unfold history_services, services_for in HL. rewrite HC in HL.
  unfold get_transaction_by_id. unfold ibind at 1. change (globals s) with (Ok (n_globals s), s). cbv beta iota. rewrite HL. cbn [map first_working].
  assert (EC : call_by_id n txid (Node url) = node_by_id url txid) by (destruct n; reflexivity). rewrite EC. unfold node_by_id, rpc, itry, ibind, outside, zoom.
  rewrite HR, ST. cbn [Z.eqb Pos.eqb orb negb]. unfold ilift. rewrite EJ. cbn [bind]. rewrite (has_jhas _ _ _ HE). cbn [bind]. rewrite (has _ _ _ HE). cbn [bind].
  destruct v; try congruence; reflexivity.
Qed.
End Requests.

(** ** C78: where requests go *)
Section Log.
Context {CR : Crypto} {E : Type} {OU : Outside E} (rounds : nat).
Local Instance LG : Outside (E * Log) := logged.
Notation W := (Net (E * Log)).

Fixpoint latest (b : option (result Response)) (l : Log) : option (result Response) :=
  match l with [] => b | (_, r) :: l => latest (Some r) l end.
Lemma follows_app P l1 l2 : forall b, Follows P b l1 -> Follows P (latest b l1) l2 -> Follows P b (l1 ++ l2).
Proof. induction l1 as [|(u & r) l1 IH]; intros b; cbn [app Follows latest]; [auto|]. intros (H1 & H2) H3. split; auto. Qed.
Lemma follows_any P l b : Only P l -> Follows P b l.
Proof. destruct l as [|(u & r) l]; [auto|]. intros ([H|(r0 & N & _)] & F); [|discriminate]. split; auto. Qed.
Lemma only_app P l1 l2 : Only P l1 -> Only P l2 -> Only P (l1 ++ l2).
Proof. intros H1 H2. apply follows_app; auto. apply follows_any. exact H2. Qed.
Lemma follows_weaken (P Q : pystr -> Prop) l : (forall u, P u -> Q u) -> forall b, Follows P b l -> Follows Q b l.
Proof. intros H. induction l as [|(u & r) l IH]; intros b; cbn [Follows]; [auto|]. intros ([A|A] & F); split; auto. Qed.

(** m asks as expected when the answer before was b, and has Q in the end. *)
Definition Ask {A} (P : pystr -> Prop) (b : option (result Response)) (m : IO W A) (Q : option (result Response) -> A -> Prop) : Prop :=
  forall s, exists l, asked (snd (m s)) = asked s ++ l /\ Follows P b l /\ forall a, fst (m s) = Ok a -> Q (latest b l) a.
Definition Quiet {A} (P : pystr -> Prop) (m : IO W A) : Prop := forall b, Ask P b m (fun _ _ => True).

Lemma latest_app b l1 l2 : latest b (l1 ++ l2) = latest (latest b l1) l2.
Proof. revert b. induction l1 as [|(u & r) l1 IH]; intros b; cbn; auto. Qed.
Lemma ask_bind {A B} P b (m : IO W A) (f : A -> IO W B) Q Q' : Ask P b m Q -> (forall b' a, Q b' a -> Ask P b' (f a) Q') -> Ask P b (ibind m f) Q'.
Proof.
  intros H1 H2 s. destruct (H1 s) as (l1 & E1 & F1 & C1). unfold ibind. destruct (m s) as [[a|x] s1]; cbn [fst snd] in *.
  - destruct (H2 _ a (C1 a eq_refl) s1) as (l2 & E2 & F2 & C2). exists (l1 ++ l2). rewrite E2, E1, app_assoc. split; [reflexivity|].
    split; [apply follows_app; auto|]. rewrite latest_app. exact C2.
  - exists l1. split; [exact E1|]. split; [exact F1|]. discriminate.
Qed.
Lemma ask_weaken {A} P b (m : IO W A) Q (Q' : _ -> A -> Prop) : Ask P b m Q -> (forall b' a, Q b' a -> Q' b' a) -> Ask P b m Q'.
Proof. intros H HQ s. destruct (H s) as (l & E1 & F & C). exists l. auto. Qed.
Lemma ask_lift {A} P b (r : result A) : Ask P b (ilift r) (fun b' a => b' = b /\ r = Ok a).
Proof. intros s. exists []. cbn. rewrite app_nil_r. auto. Qed.
Lemma ask_globals P b : Ask P b globals (fun b' _ => b' = b).
Proof. intros s. exists []. cbn. rewrite app_nil_r. auto. Qed.
Lemma ask_note (P : pystr -> Prop) b url (m : IO E Response) : (P url \/ exists r0, b = Some r0 /\ Links r0 url) ->
  Ask P b (outside (note url m)) (fun b' r => b' = Some (Ok r)).
Proof.
  intros H s. exists [(url, fst (m (fst (n_outside s))))]. unfold outside, zoom, note, asked. destruct (m (fst (n_outside s))) as [r e'] eqn:EM.
  cbn. split; [reflexivity|]. split; [auto|]. intros a ->. reflexivity.
Qed.
Lemma ask_get (P : pystr -> Prop) b url ps : (P url \/ exists r0, b = Some r0 /\ Links r0 url) -> Ask P b (http_get url ps) (fun b' r => b' = Some (Ok r)).
Proof. intros H s. exact (ask_note _ _ _ (o_get url ps (g_timeout (n_globals s))) H s). Qed.
Lemma quiet_ask {A} P (m : IO W A) b : Quiet P m -> Ask P b m (fun _ _ => True).
Proof. intros H. apply H. Qed.

Lemma quiet_bind {A B} P (m : IO W A) (f : A -> IO W B) : Quiet P m -> (forall a, Quiet P (f a)) -> Quiet P (ibind m f).
Proof. intros H1 H2 b. eapply ask_bind; [apply H1|]. intros b' a _. apply H2. Qed.
Lemma quiet_lift {A} P (r : result A) : Quiet P (ilift r).
Proof. intros b. eapply ask_weaken; [apply ask_lift|]. auto. Qed.
Lemma quiet_ret {A} P (a : A) : Quiet P (iret a).
Proof. apply (quiet_lift P (Ok a)). Qed.
Lemma quiet_globals P : Quiet P globals.
Proof. intros b. eapply ask_weaken; [apply ask_globals|]. auto. Qed.
Lemma quiet_modify P f : Quiet P (modify_globals f).
Proof. intros b s. exists []. cbn. rewrite app_nil_r. auto. Qed.
Lemma quiet_time P : Quiet P (outside o_time).
Proof. intros b s. exists []. unfold outside, zoom, asked. cbn. destruct (o_time (fst (n_outside s))). cbn. rewrite app_nil_r. auto. Qed.
Lemma quiet_get (P : pystr -> Prop) url ps : P url -> Quiet P (http_get url ps).
Proof. intros H b. eapply ask_weaken; [apply ask_get|]; auto. Qed.
Lemma quiet_post (P : pystr -> Prop) url ps : P url -> Quiet P (http_post url ps).
Proof.
  intros H b s. destruct (ask_note P b url (o_post url ps (g_timeout (n_globals s))) (or_introl H) s) as (l & E1 & F & _). exists l. auto.
Qed.
Lemma quiet_untimed (P : pystr -> Prop) url : P url -> Quiet P (get_untimed url).
Proof. intros H b. eapply ask_weaken; [apply ask_note|]; auto. Qed.
Lemma quiet_try {A} P (m : IO W A) h : Quiet P m -> (forall x, Quiet P (h x)) -> Quiet P (itry m h).
Proof.
  intros H1 H2 b s. destruct (H1 b s) as (l1 & E1 & F1 & C1). unfold itry. destruct (m s) as [[a|x] s1]; cbn [fst snd] in *; [exists l1; auto|].
  destruct (H2 x (latest b l1) s1) as (l2 & E2 & F2 & _). exists (l1 ++ l2). rewrite E2, E1, app_assoc. split; [reflexivity|]. split; [apply follows_app; auto|auto].
Qed.
Lemma quiet_rpc (P : pystr -> Prop) url m args : P url -> Quiet P (rpc url m args).
Proof.
  intros H. unfold rpc. apply quiet_bind.
  - apply quiet_try; [|intros; apply quiet_lift]. intros b. eapply ask_weaken; [apply ask_note|]; auto.
  - intros r. destruct (negb _); apply quiet_lift.
Qed.
Lemma quiet_first {A} P ign (calls : list (IO W A)) : Forall (Quiet P) calls -> Quiet P (first_working ign calls).
Proof. induction 1 as [|c r Hc _ IH]; cbn [first_working]; [apply quiet_lift|]. apply quiet_try; auto. intros x. destruct (ign x); auto. apply quiet_lift. Qed.
Lemma quiet_broadcast_loop P (calls : list (IO W bool)) : Forall (Quiet P) calls -> Quiet P (broadcast_loop calls).
Proof.
  induction 1 as [|c r Hc _ IH]; cbn [broadcast_loop]; [apply quiet_lift|]. apply quiet_bind.
  - apply quiet_try; auto. intros x. destruct (net_ignored x); [apply quiet_ret|apply quiet_lift].
  - intros []; auto using quiet_ret.
Qed.

Lemma within_app n u r : Within n u -> Within n (u ++ r).
Proof. intros (p & t & I & ->). exists p, (t ++ r). rewrite app_assoc. auto. Qed.
Lemma within_intro n p rest : In p (endpoints n) -> Within n (str p ++ rest).
Proof. intros I. exists p, rest. auto. Qed.
Lemma within_blockchair n a : Within n (blockchair_address n a).
Proof.
  destruct n; [apply (within_intro Main "https://api.blockchair.com/bitcoin/dashboards/address/" a)
              |apply (within_intro Test "https://api.blockchair.com/bitcoin/testnet/" (str "dashboards/address/" ++ a))]; cbn; tauto.
Qed.
Lemma within_blockchair_raw n a : Within n (blockchair_endpoint n ++ str "raw/transaction/" ++ a).
Proof.
  destruct n; [apply (within_intro Main "https://api.blockchair.com/bitcoin/raw/transaction/" a)
              |apply (within_intro Test "https://api.blockchair.com/bitcoin/testnet/" (str "raw/transaction/" ++ a))]; cbn; tauto.
Qed.
Lemma within_blockchair_push n : Within n (blockchair_endpoint n ++ str "push/transaction").
Proof.
  destruct n; [apply (within_intro Main "https://api.blockchair.com/bitcoin/push/transaction" [])
              |apply (within_intro Test "https://api.blockchair.com/bitcoin/testnet/" (str "push/transaction"))]; cbn; tauto.
Qed.
Lemma within_blockstream n r : Within n (blockstream_endpoint n ++ r).
Proof. destruct n; [apply (within_intro Main "https://blockstream.info/api/")|apply (within_intro Test "https://blockstream.info/testnet/api/")]; cbn; tauto. Qed.
Lemma within_bitcore n r : Within n (bitcore_endpoint n ++ r).
Proof. destruct n; [apply (within_intro Main "https://api.bitcore.io/api/BTC/mainnet/")|apply (within_intro Test "https://api.bitcore.io/api/BTC/testnet/")]; cbn; tauto. Qed.
Lemma within_smartbit n r : Within n (smartbit_endpoint n ++ r).
Proof. destruct n; [apply (within_intro Main "https://api.smartbit.com.au/v1/blockchain/")|apply (within_intro Test "https://testnet-api.smartbit.com.au/v1/blockchain/")]; cbn; tauto. Qed.
Lemma within_info_address a : Within Main (blockchain_address a).
Proof. apply (within_intro Main "https://blockchain.info/address/" (a ++ str "?format=json")). cbn; tauto. Qed.
Lemma within_info_raw a : Within Main (blockchain_endpoint ++ str "rawtx/" ++ a).
Proof. apply (within_intro Main "https://blockchain.info/rawtx/" a). cbn; tauto. Qed.
Lemma within_info_unspent : Within Main (blockchain_endpoint ++ str "unspent").
Proof. apply (within_intro Main "https://blockchain.info/unspent" []). cbn; tauto. Qed.
Lemma within_info_push : Within Main (blockchain_endpoint ++ str "pushtx").
Proof. apply (within_intro Main "https://blockchain.info/pushtx" []). cbn; tauto. Qed.

(** Each service *)
Definition Site (n : net) (sv : service) (url : pystr) : Prop := match sv with Node u => url = u | _ => Within n url end.
Ltac within :=
  cbn [Site]; auto using within_blockchair, within_blockchair_raw, within_blockchair_push, within_blockstream, within_bitcore, within_smartbit, within_info_address,
    within_info_raw, within_info_unspent, within_info_push, within_app.
Ltac quiet :=
  repeat lazymatch goal with
  | |- Quiet _ (ibind _ _) => apply quiet_bind; [|intros ?]
  | |- Quiet _ (itry _ _) => apply quiet_try; [|intros ?]
  | |- Quiet _ (ilift _) => apply quiet_lift
  | |- Quiet _ (iret _) => apply quiet_ret
  | |- Quiet _ globals => apply quiet_globals
  | |- Quiet _ (modify_globals _) => apply quiet_modify
  | |- Quiet _ (outside o_time) => apply quiet_time
  | |- Quiet _ (http_get _ _) => apply quiet_get
  | |- Quiet _ (http_post _ _) => apply quiet_post
  | |- Quiet _ (get_untimed _) => apply quiet_untimed
  | |- Quiet _ (push _ _) => unfold push
  | |- Quiet _ (rpc _ _ _) => apply quiet_rpc
  | |- Quiet _ (match ?x with _ => _ end) => destruct x
  | |- Quiet _ (let _ := _ in _) => cbv zeta
  end.

Lemma quiet_blockchair_pages {A} (P : pystr -> Prop) k items url a : P url -> forall o r acc, Quiet P (@blockchair_pages _ LG A k items url a o r acc).
Proof. intros H. induction k; intros; cbn [blockchair_pages]; quiet; auto. Qed.
Lemma quiet_blockstream_pages n k a : forall r acc, Quiet (Within n) (blockstream_pages k n a r acc).
Proof. induction k; intros; cbn [blockstream_pages]; quiet; auto. unfold blockstream_address. within. Qed.
Lemma quiet_bitcore_pages n k url : Within n url -> forall r acc, Quiet (Within n) (bitcore_pages k url r acc).
Proof. intros H. induction k; intros; cbn [bitcore_pages]; quiet; auto. within. Qed.
Lemma quiet_blockchain_pages (P : pystr -> Prop) k url : P url -> forall o r acc, Quiet P (blockchain_pages k url o r acc).
Proof. intros H. induction k; intros; cbn [blockchain_pages]; quiet; auto. Qed.

(** A page of Smartbit gives its link. *)
Definition PageLink (j : json) (url : pystr) : Prop := exists p, jget "next_link" p = Ok (JStr url) /\
  (jget "paging" j = Ok p \/ exists a, jget "address" j = Ok a /\ jget "transaction_paging" a = Ok p).
Lemma txs_link j l url : smartbit_txs j = Ok (l, JStr url) -> PageLink j url.
Proof.
  unfold smartbit_txs. intros H. apply bind_ok in H as (a & EA & H). apply bind_ok in H as (x & _ & H). apply bind_ok in H as (ids & _ & H).
  apply bind_ok in H as (p & EP & H). apply bind_ok in H as (nx & EN & H). injection H as _ ->. exists p. split; [exact EN|]. right. eauto.
Qed.
Lemma utxos_link prec j l url : smartbit_utxos prec j = Ok (l, JStr url) -> PageLink j url.
Proof.
  unfold smartbit_utxos. intros H. apply bind_ok in H as (a & _ & H). apply bind_ok in H as (x & _ & H). apply bind_ok in H as (us & _ & H).
  apply bind_ok in H as (p & EP & H). apply bind_ok in H as (nx & EN & H). injection H as _ ->. exists p. split; [exact EN|]. auto.
Qed.
Lemma page_links r j url : r_json r = Ok j -> PageLink j url -> Links (Ok r) url.
Proof. intros EJ (p & H1 & H2). exists r, j, p. auto. Qed.
Lemma ask_smartbit_pages {A} P k (page : json -> result (list A * json)) ps :
  (forall j l url, page j = Ok (l, JStr url) -> PageLink j url) ->
  forall b next acc, (forall url, next = JStr url -> exists r0, b = Some r0 /\ Links r0 url) ->
  Ask P b (@smartbit_pages _ LG A k page ps next acc) (fun _ _ => True).
Proof.
  intros HP. induction k as [|k IH]; intros b next acc HN; cbn [smartbit_pages]; [apply quiet_lift|].
  destruct (negb (jtrue next)); [apply quiet_ret|].
  eapply ask_bind; [apply ask_lift|]. intros b1 url (-> & EU). assert (next = JStr url) by (destruct next; cbn in EU; congruence).
  eapply ask_bind; [apply ask_get; right; apply HN; auto|]. intros b2 r ->.
  eapply ask_bind; [apply ask_lift|]. intros b3 _ (-> & _).
  eapply ask_bind; [apply ask_lift|]. intros b4 (new & next') (-> & EP). apply IH. intros url' ->.
  apply bind_ok in EP as (j & EJ & EP). exists (Ok r). split; [reflexivity|]. eapply page_links; eauto.
Qed.
Lemma quiet_smartbit_transactions n a : Quiet (Within n) (smartbit_transactions rounds n a).
Proof.
  intros b. unfold smartbit_transactions. eapply ask_bind; [apply ask_get; left; unfold smartbit_address; within|]. intros b1 r ->.
  eapply ask_bind; [apply ask_lift|]. intros b2 _ (-> & _). eapply ask_bind; [apply ask_lift|]. intros b3 (first & next) (-> & EP).
  apply ask_smartbit_pages; [apply txs_link|]. intros url ->. apply bind_ok in EP as (j & EJ & EP). apply bind_ok in EP as (x & _ & EP). apply bind_ok in EP as (has & _ & EP).
  destruct has; [|discriminate]. exists (Ok r). split; [reflexivity|]. eapply page_links; eauto. eapply txs_link; eauto.
Qed.
Lemma quiet_smartbit_unspent n a : Quiet (Within n) (smartbit_unspent rounds n a).
Proof.
  intros b. unfold smartbit_unspent. eapply ask_bind; [apply ask_get; left; unfold smartbit_address; within|]. intros b1 r ->.
  eapply ask_bind; [apply ask_lift|]. intros b2 _ (-> & _). eapply ask_bind; [apply ask_globals|]. intros b2 g ->.
  eapply ask_bind; [apply ask_lift|]. intros b3 (first & next) (-> & EP).
  apply ask_smartbit_pages; [apply utxos_link|]. intros url ->. apply bind_ok in EP as (j & EJ & EP). apply bind_ok in EP as (has & _ & EP).
  destruct has; [|discriminate]. exists (Ok r). split; [reflexivity|]. eapply page_links; eauto. eapply utxos_link; eauto.
Qed.

Lemma quiet_call_balance n a sv : Quiet (Site n sv) (call_balance n a sv).
Proof.
  destruct sv, n; cbn [call_balance Site]; try apply quiet_lift;
    unfold node_balance, blockchair_balance, blockstream_balance, bitcore_balance, smartbit_balance, blockchain_balance, blockstream_address, smartbit_address; quiet; auto; within.
Qed.
Lemma quiet_call_transactions n a sv : Quiet (Site n sv) (call_transactions rounds n a sv).
Proof.
  destruct sv, n; cbn [call_transactions Site]; try apply quiet_lift; try apply quiet_smartbit_transactions;
    unfold node_transactions, blockchair_transactions, blockstream_transactions, blockchain_transactions; quiet;
    auto; try (apply quiet_blockstream_pages); try (apply quiet_blockchair_pages); try (apply quiet_blockchain_pages); try (unfold blockstream_address; within).
Qed.
Lemma quiet_call_by_id n a sv : Quiet (Site n sv) (call_by_id n a sv).
Proof.
  destruct sv, n; cbn [call_by_id Site]; try apply quiet_lift; unfold node_by_id, blockchair_by_id, blockstream_by_id, smartbit_by_id, blockchain_by_id; quiet; auto; within.
Qed.
Lemma quiet_call_unspent n a sv : Quiet (Site n sv) (call_unspent rounds n a sv).
Proof.
  destruct sv, n; cbn [call_unspent Site]; try apply quiet_lift; unfold node_unspent, blockchair_unspent, blockstream_unspent, bitcore_unspent, blockchain_unspent; quiet;
    auto; try (apply quiet_smartbit_unspent); try (apply quiet_blockchair_pages); try (apply quiet_bitcore_pages); try (unfold blockstream_address; within).
Qed.
Lemma quiet_call_broadcast n a sv : Quiet (Site n sv) (call_broadcast n a sv).
Proof.
  destruct sv, n; cbn [call_broadcast Site]; try apply quiet_lift;
    unfold node_broadcast, blockchair_broadcast, blockstream_broadcast, bitcore_broadcast, smartbit_broadcast, blockchain_broadcast; quiet; auto; within.
Qed.
Lemma quiet_weaken {A} (P Q : pystr -> Prop) (m : IO W A) : (forall u, P u -> Q u) -> Quiet P m -> Quiet Q m.
Proof. intros H HM b s. destruct (HM b s) as (l & E1 & F & C). exists l. split; [exact E1|]. split; [eapply follows_weaken; eauto|auto]. Qed.

(** ** Rates and fees *)
Lemma quiet_rate c : Quiet (RateUrl c) (exchange_rate c).
Proof.
  unfold exchange_rate. quiet. apply quiet_first. repeat constructor; [unfold bitpay_rate|unfold blockchain_rate]; quiet; unfold RateUrl; auto.
Qed.
Lemma quiet_to_satoshi a c : Quiet (RateUrl c) (currency_to_satoshi a c).
Proof. unfold currency_to_satoshi. quiet. apply quiet_rate. Qed.
Lemma quiet_from_satoshi x c : Quiet (RateUrl c) (satoshi_to_currency x c).
Proof. unfold satoshi_to_currency. quiet. apply quiet_rate. Qed.
Lemma quiet_to_cached a c : Quiet (RateUrl c) (currency_to_satoshi_cached a c).
Proof. unfold currency_to_satoshi_cached. quiet; apply quiet_rate. Qed.
Lemma quiet_from_cached x c : Quiet (RateUrl c) (satoshi_to_currency_cached x c).
Proof. unfold satoshi_to_currency_cached. quiet. apply quiet_to_cached. Qed.
Lemma quiet_fee f : Quiet FeeUrl (get_fee f).
Proof. unfold get_fee. quiet. reflexivity. Qed.
Lemma quiet_fee_cached f : Quiet FeeUrl (get_fee_cached f).
Proof. unfold get_fee_cached. quiet; reflexivity. Qed.

(** ** The services in force *)
Definition InForce (n : net) (node : option pystr) (w : W) : Prop := apis n (n_globals w) =
  match node with
  | Some url => mkApis [Node url] [Node url] [Node url] [Node url] [Node url]
  | None => match n with Main => initial_main | Test => initial_test end
  end.
Definition Adds (P : pystr -> Prop) (w w' : W) : Prop := exists l, asked w' = asked w ++ l /\ Only P l.
Lemma quiet_adds {A} P (m : IO W A) w : Quiet P m -> Adds P w (snd (m w)).
Proof. intros H. destruct (H None w) as (l & E1 & F & _). exists l. auto. Qed.
Lemma sites n node (w : W) sv : InForce n node w ->
  In sv (a_balance (apis n (n_globals w)) ++ a_transactions (apis n (n_globals w)) ++ a_by_id (apis n (n_globals w)) ++
         a_unspent (apis n (n_globals w)) ++ a_broadcast (apis n (n_globals w))) ->
  forall url, Site n sv url -> Serving n node url.
Proof.
  unfold InForce. intros ->. destruct node as [u|]; cbn; [intros H; assert (sv = Node u) by (repeat destruct H as [<-|H]; auto; destruct H); subst; auto|].
  destruct n; cbn; intros H; repeat destruct H as [<-|H]; auto; destruct H.
Qed.
Lemma forall_sites {A} n node (w : W) (call : service -> IO W A) l : InForce n node w -> (forall sv, Quiet (Site n sv) (call sv)) ->
  (forall sv, In sv l -> In sv (a_balance (apis n (n_globals w)) ++ a_transactions (apis n (n_globals w)) ++ a_by_id (apis n (n_globals w)) ++
         a_unspent (apis n (n_globals w)) ++ a_broadcast (apis n (n_globals w)))) ->
  Forall (Quiet (Serving n node)) (map call l).
Proof.
  intros IF HQ HI. apply Forall_forall. intros m I. apply in_map_iff in I as (sv & <- & I). eapply quiet_weaken; [|apply HQ]. eapply sites; eauto.
Qed.
Lemma adds_getters n node (w : W) x : InForce n node w ->
  Adds (Serving n node) w (snd (get_balance n x w)) /\ Adds (Serving n node) w (snd (get_transactions rounds n x w)) /\
  Adds (Serving n node) w (snd (get_transaction_by_id n x w)) /\ Adds (Serving n node) w (snd (get_unspent rounds n x w)) /\
  Adds (Serving n node) w (snd (broadcast_tx n x w)).
Proof.
  intros IF. repeat split.
  - unfold get_balance. change (Adds (Serving n node) w (snd (first_working net_ignored (map (call_balance n x) (a_balance (apis n (n_globals w)))) w))).
    apply quiet_adds, quiet_first. eapply forall_sites; eauto using quiet_call_balance. intros sv I. rewrite !in_app_iff. auto.
  - unfold get_transactions. change (Adds (Serving n node) w (snd (first_working net_ignored (map (call_transactions rounds n x) (a_transactions (apis n (n_globals w)))) w))).
    apply quiet_adds, quiet_first. eapply forall_sites; eauto using quiet_call_transactions. intros sv I. rewrite !in_app_iff. auto.
  - unfold get_transaction_by_id. change (Adds (Serving n node) w (snd (first_working net_ignored (map (call_by_id n x) (a_by_id (apis n (n_globals w)))) w))).
    apply quiet_adds, quiet_first. eapply forall_sites; eauto using quiet_call_by_id. intros sv I. rewrite !in_app_iff. auto.
  - unfold get_unspent. change (Adds (Serving n node) w (snd (first_working net_ignored (map (call_unspent rounds n x) (a_unspent (apis n (n_globals w)))) w))).
    apply quiet_adds, quiet_first. eapply forall_sites; eauto using quiet_call_unspent. intros sv I. rewrite !in_app_iff. auto.
  - unfold broadcast_tx. change (Adds (Serving n node) w (snd (broadcast_loop (map (call_broadcast n x) (a_broadcast (apis n (n_globals w)))) w))).
    apply quiet_adds, quiet_broadcast_loop. eapply forall_sites; eauto using quiet_call_broadcast. intros sv I. rewrite !in_app_iff. auto.
Qed.
Notation run := (S_History.run (E:=E * Log) rounds).
Notation step := (S_History.step (E:=E * Log) rounds).

(** In every history, a call asks only the services of its network (or its node),
    the pages that one of them links to, or for what it is about. *)
Theorem C78_calls ops t1 t2 e o : (forall f, o <> Meanwhile f) -> let s := run ops (start t1 t2 e) in
  exists l, asked (step o s) = asked s ++ l /\ Only (MayAsk ops o) l.
Proof.
  intros NM. cbv zeta. assert (IF : forall n, InForce n (connected n ops) (run ops (start t1 t2 e))) by (intros n; apply C61_services).
  generalize dependent (run ops (start t1 t2 e)). intros s IF. change (Adds (MayAsk ops o) s (step o s)).
  destruct o; cbn [MayAsk S_History.step]; try (apply adds_getters; apply IF).
  - exists []. rewrite app_nil_r. split; [reflexivity|exact I].
  - apply quiet_adds, quiet_fee.
  - apply quiet_adds, quiet_fee_cached.
  - apply quiet_adds, quiet_to_satoshi.
  - apply quiet_adds, quiet_to_cached.
  - apply quiet_adds, quiet_from_satoshi.
  - apply quiet_adds, quiet_from_cached.
  - exists []. rewrite app_nil_r. split; [reflexivity|exact I].
  - exists []. rewrite app_nil_r. split; [reflexivity|exact I].
  - exists []. rewrite app_nil_r. split; [reflexivity|exact I].
  - destruct (NM f eq_refl).
Qed.

(** ** Keys and wallets *)
Context {CH : Chance E}.
Local Instance LC : Chance (E * Log) := logged_chance CH.

(** What a method of a key or wallet of a network may ask for. *)
Definition WalletAsks (n : net) (node : option pystr) (url : pystr) : Prop :=
  Serving n node url \/ FeeUrl url \/ exists currency, RateUrl currency url.
Lemma in_force_step n node (w : W) o : connected n [o] = None -> InForce n node w -> InForce n node (step o w).
Proof. unfold InForce. intros HC <-. rewrite (change_apis o _ _ n (step_change rounds o w)), HC. reflexivity. Qed.
Definition Stays (n : net) (node : option pystr) (w w' : W) : Prop := InForce n node w -> InForce n node w' /\ Adds (WalletAsks n node) w w'.
Lemma adds_weaken (P Q : pystr -> Prop) w w' : (forall u, P u -> Q u) -> Adds P w w' -> Adds Q w w'.
Proof. intros H (l & E1 & F). exists l. split; [exact E1|]. eapply follows_weaken; eauto. Qed.
Lemma walk_stays n node : Walk rounds n (Stays n node).
Proof.
  constructor.
  - intros w IF. split; [exact IF|]. exists []. rewrite app_nil_r. split; [reflexivity|exact I].
  - intros a b c H1 H2 IF. destruct (H1 IF) as (IF1 & l1 & E1 & O1). destruct (H2 IF1) as (IF2 & l2 & E2 & O2). split; [exact IF2|].
    exists (l1 ++ l2). rewrite E2, E1, app_assoc. split; [reflexivity|apply only_app; auto].
  - intros a c w IF. split; [exact (in_force_step n node w (ToSatoshiCached a c) eq_refl IF)|].
    eapply adds_weaken; [|apply quiet_adds, quiet_to_cached]. unfold WalletAsks. eauto.
  - intros a c w IF. split; [exact (in_force_step n node w (FromSatoshiCached a c) eq_refl IF)|].
    eapply adds_weaken; [|apply quiet_adds, quiet_from_cached]. unfold WalletAsks. eauto.
  - intros w IF. split; [exact (in_force_step n node w (FeeCached true) eq_refl IF)|].
    eapply adds_weaken; [|apply quiet_adds, quiet_fee_cached]. unfold WalletAsks. eauto.
  - intros a w IF. assert (EW : snd (@w_unspent _ _ (network rounds) n a w) = step (Unspents n a) w).
    { cbn [network w_unspent S_History.step]. unfold ibind. destruct (get_unspent rounds n a w) as [[[us|]|x] w1]; reflexivity. }
    rewrite EW. split; [exact (in_force_step n node w (Unspents n a) eq_refl IF)|].
    eapply adds_weaken; [|apply adds_getters; exact IF]. unfold WalletAsks. auto.
  - intros a w IF. split; [exact (in_force_step n node w (Transactions n a) eq_refl IF)|].
    eapply adds_weaken; [|apply adds_getters; exact IF]. unfold WalletAsks. auto.
  - intros a w IF. split; [exact (in_force_step n node w (Broadcast n a) eq_refl IF)|].
    eapply adds_weaken; [|apply adds_getters; exact IF]. unfold WalletAsks. auto.
  - intros w IF. cbn. unfold outside, zoom. cbn. destruct (o_random (fst (n_outside w))) as [r e'] eqn:ER. split; [exact IF|].
    exists []. rewrite app_nil_r. split; [reflexivity|exact I].
Qed.
Theorem C78_wallets t1 t2 e calls n A (m : IO (@Wallet W) A) s : Reached rounds t1 t2 e calls (wl_world s) -> MethodOf rounds n A m ->
  exists l, asked (wl_world (snd (m s))) = asked (wl_world s) ++ l /\ Only (WalletAsks n (connected n calls)) l.
Proof.
  intros R M. destruct (C76_histories rounds _ _ _ _ _ R) as (ops & EW & HC & _).
  assert (IF : InForce n (connected n calls) (wl_world s)) by (rewrite EW, <- HC; apply C61_services).
  exact (proj2 (method_walk rounds n A m _ M (walk_stays n (connected n calls)) s IF)).
Qed.
End Log.

(** The networks are apart, and rates and fees are asked for elsewhere. *)
Fixpoint clash (a b : pystr) : bool := match a, b with x :: a, y :: b => if x =? y then clash a b else true | _, _ => false end.
Lemma clash_apart a b r r' : clash a b = true -> a ++ r <> b ++ r'.
Proof.
  revert b. induction a as [|x a IH]; intros [|y b]; cbn; try discriminate. destruct (Z.eqb_spec x y); intros H Q; [|congruence].
  injection Q as _ Q. exact (IH b H Q).
Qed.
Lemma clash_all l1 l2 : forallb (fun p => forallb (fun q => clash (str p) (str q)) l2) l1 = true ->
  forall p q r r', In p l1 -> In q l2 -> str p ++ r <> str q ++ r'.
Proof.
  intros H p q r r' I1 I2. rewrite forallb_forall in H. specialize (H p I1). cbv beta in H. rewrite forallb_forall in H. apply clash_apart, H, I2.
Qed.
Theorem C78_apart url : ~ (Within Main url /\ Within Test url).
Proof.
  intros ((p & r & I1 & E1) & (q & r' & I2 & E2)). revert E1. rewrite E2. intros E1. symmetry in E1. revert E1. apply (clash_all (endpoints Main) (endpoints Test)); auto.
Qed.
Theorem C78_elsewhere n url : FeeUrl url \/ (exists c, RateUrl c url) -> ~ Within n url.
Proof.
  intros H (p & r & I & E1). assert (Q : exists q r', In q ["https://mempool.space/"; "https://bitpay.com/"; "https://blockchain.info/tobtc?"]%string /\ url = str q ++ r').
  { destruct H as [-> | (c & [-> | ->])].
    - exists "https://mempool.space/"%string, (str "api/v1/fees/recommended"). split; [cbn; tauto|reflexivity].
    - exists "https://bitpay.com/"%string, (str "rates/BTC/" ++ c). split; [cbn; tauto|reflexivity].
    - exists "https://blockchain.info/tobtc?"%string, (str "currency=" ++ upper c ++ str "&value=1"). split; [cbn; tauto|reflexivity]. }
  destruct Q as (q & r' & I2 & E2). revert E1. rewrite E2. intros E1. symmetry in E1. revert E1.
  apply (clash_all (endpoints n) ["https://mempool.space/"; "https://bitpay.com/"; "https://blockchain.info/tobtc?"]%string); auto. destruct n; vm_compute; reflexivity.
Qed.

(** ** Examples *)
(** Blockchair is out of order; Blockstream knows two transactions and no others. *)
Definition raw_known : Outside Z := {|
  o_get := fun url ps _ e =>
    if list_eqb (firstn 26 url) (str "https://api.blockchair.com") then (Raise ReqTimeout, e + 1)
    else if list_eqb url (str "https://blockstream.info/api/tx/aa01/hex") then (Ok (mkResp 200 (str "0100") (Raise ValueError)), e + 1)
    else if list_eqb url (str "https://api.smartbit.com.au/v1/blockchain/tx/aa01/hex?limit=1000")
    then (Ok (mkResp 200 [] (Ok (obj [("success", JBool true); ("hex", JList [obj [("txid", jstr_ "aa01"); ("hex", jstr_ "0100")]])]%string))), e + 1)
    else if list_eqb url (str "https://blockchain.info/rawtx/aa01?limit=0&format=hex") then (Ok (mkResp 200 (str "0100") (Raise ValueError)), e + 1)
    else if list_eqb (firstn 23 url) (str "https://blockchain.info") then (Ok (mkResp 500 (str "Transaction not found") (Raise ValueError)), e + 1)
    else if list_eqb (firstn 23 url) (str "https://blockstream.inf") then (Ok (mkResp 404 (str "Transaction not found") (Raise ValueError)), e + 1)
    else (Ok (mkResp 400 [] (Raise ValueError)), e + 1);
  o_post := fun url ps _ e => (Raise ReqConnectionError, e + 1);
  o_rpc := fun url m a _ e => (Raise ReqConnectionError, e + 1);
  o_time := fun e => (Ok e, e + 1) |}.
Example C77_any_hypotheses (ops : list (op Z)) txid raw : connected Main ops = None ->
  In (txid, raw) [(str "aa01", Some (str "0100")); (str "bb07", None)] ->
  (forall sv, In sv (history_services Main ops) -> Down (@call_by_id Z raw_known Main txid sv) \/ ServesRaw (OU:=raw_known) Main txid raw sv) /\
  (exists sv, In sv (history_services Main ops) /\ ServesRaw (OU:=raw_known) Main txid raw sv).
Proof.
  intros NC I. assert (SR : forall sv, In sv [Blockstream; Smartbit; BlockchainInfo] -> ServesRaw (OU:=raw_known) Main txid raw sv).
  { intros sv IS. cbn in I. destruct I as [I|[I|[]]]; injection I as <- <-; cbn in IS; destruct IS as [<-|[<-|[<-|[]]]]; cbn [ServesRaw]; cbv zeta; try split; try reflexivity; intros e;
      try (eexists _, _; split; [reflexivity|]; split; [reflexivity|]; try exact I; reflexivity).
    eexists _, _, _. split; [reflexivity|]. split; [reflexivity|]. split; [reflexivity|]. eexists _, _.
    split; (eexists; split; [reflexivity|]; split; [repeat constructor; cbn; intuition discriminate|cbn; auto]). }
  unfold history_services, services_for. rewrite NC. split.
  - intros sv IS. cbn in IS. destruct IS as [<-|IS]; [|right; apply SR; exact IS]. left. intros [g e]. eexists _, _. split; [reflexivity|]. unfold Unusable. cbn. auto.
  - exists Smartbit. split; [cbn; auto|]. apply SR. cbn. auto.
Qed.
(** A node that knows nothing. *)
Definition blank_node : Outside Z := {|
  o_get := fun url ps _ e => (Raise ReqConnectionError, e); o_post := fun url ps _ e => (Raise ReqConnectionError, e);
  o_rpc := fun url m a _ e => (Ok (mkResp 500 [] (Ok (obj [("result", JNull); ("error", obj [("code", JInt (-5))]); ("id", JInt 1)]%string))), e + 1);
  o_time := fun e => (Ok e, e) |}.
Example C77_node_unknown_case : let ops := [Connect (str "u") (str "p") (str "h") 8332 false false []] in
  fst (@get_transaction_by_id Z blank_node Main (str "aa01") (@run toy Z blank_node 5 ops (start 0 0 0))) = Raise BitcoinNodeException /\
  Has "error" (obj [("code", JInt (-5))]%string) (obj [("result", JNull); ("error", obj [("code", JInt (-5))]); ("id", JInt 1)]%string).
Proof.
  split; [vm_compute; reflexivity|]. eexists. split; [reflexivity|]. split; [repeat constructor; cbn; intuition discriminate|cbn; auto].
Qed.
(** The requests for the transactions of an address: Blockchair fails, Blockstream is asked. *)
Example C78_case : map fst (asked (snd (@get_transactions _ (logged (OU:=known_to false)) 5 Main addr (start 0 0 (0, []))))) =
  [str "https://api.blockchair.com/bitcoin/dashboards/address/" ++ addr; str "https://blockstream.info/api/address/" ++ addr ++ str "/txs/mempool";
   str "https://blockstream.info/api/address/" ++ addr ++ str "/txs/chain/"; str "https://blockstream.info/api/address/" ++ addr ++ str "/txs/chain/aa02";
   str "https://blockstream.info/api/address/" ++ addr ++ str "/txs/chain/aa01"].
Proof. vm_compute. reflexivity. Qed.
(** Links are followed. *)
Example C78_links : map fst (asked (snd (@smartbit_transactions _ (logged (OU:=known_to true)) 5 Main addr (start 0 0 (0, []))))) =
  [str "https://api.smartbit.com.au/v1/blockchain/address/" ++ addr; str "https://next1"].
Proof. vm_compute. reflexivity. Qed.

Print Assumptions C60_requests.
Print Assumptions C60_all.
Print Assumptions C60_node.
Print Assumptions C61_connect.
Print Assumptions C77_any.
Print Assumptions C77_node_unknown.
Print Assumptions C78_calls.
Print Assumptions C78_wallets.
Print Assumptions C78_apart.
Print Assumptions C78_elsewhere.
