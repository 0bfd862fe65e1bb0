(** Services that are out of order, or refuse (C85). *)
From Coq Require Import String.
From Coq Require Import Permutation.
From Verif Require Import F_base M_services S_Decimal S_History S_Servers S_Failover S_Refusal S_Requests F_network F_servers P_network P_services P_failover P_anyservice P_requests X_toy X_net X_server.

Section WithOutside.
Context {CR : Crypto} {E : Type} {OU : Outside E} (rounds : nat).
Notation run := (run (E:=E) rounds).

Lemma out_get q n sv p : OutOfOrder (OU:=OU) q n sv -> site n sv = Some p -> forall rest ps s,
  exists x s', http_get (str p ++ rest) ps s = (x, s') /\
    ((exists e, x = Raise e /\ Unusable e) \/ exists r, x = Ok r /\ PassedOver q n sv r).
Proof.
  intros (p' & EP & H) EP' rest ps s. assert (p' = p) as -> by congruence. destruct (H rest ps (g_timeout (n_globals s)) (n_outside s)) as (x & e' & EX & HX).
  unfold http_get, outside, zoom. rewrite EX. eexists _, _. split; [reflexivity|]. unfold Unusable. cbn.
  destruct HX as [->|[->|(r & -> & HR)]]; eauto 8.
Qed.
Lemma out_down {A} q n sv p rest ps url (f : Response -> IO (Net E) A) : OutOfOrder (OU:=OU) q n sv -> site n sv = Some p -> url = str p ++ rest ->
  (forall r, PassedOver q n sv r -> Down (f r)) -> Down (ibind (http_get url ps) f).
Proof.
  intros HO EP -> HF s. destruct (out_get q n sv p HO EP rest ps s) as (x & s' & EX & HX). unfold ibind. rewrite EX.
  destruct HX as [(e & -> & U)|(r & -> & HR)]; [eauto|apply HF; auto].
Qed.
Lemma down_ok_status {A} r (f : unit -> IO (Net E) A) : r_status r <> 200 -> Down (ibind (ilift (ok_status r)) f).
Proof. intros H s. unfold ibind, ilift, ok_status. apply Z.eqb_neq in H. rewrite H. eexists _, _. split; [reflexivity|]. unfold Unusable. cbn. auto. Qed.
Lemma neqb a b : a <> b -> (a =? b) = false.
Proof. apply Z.eqb_neq. Qed.

Ltac site_url := match goal with
  | |- _ = str _ ++ _ => unfold blockchair_address, blockchair_endpoint, blockstream_address, blockstream_endpoint, bitcore_endpoint, smartbit_address, smartbit_endpoint, blockchain_address, blockchain_endpoint;
     rewrite <- ?app_assoc; reflexivity end.
Ltac out HO := eapply out_down; [exact HO|reflexivity|site_url|];
  let r := fresh "r" in let R := fresh "R" in let N := fresh "N" in intros r (R & N & _); cbn in N; cbv zeta; rewrite ?(neqb _ _ N).

(** ** Services out of order are passed over *)
Theorem C85_balance n a sv : OutOfOrder (OU:=OU) AskBalance n sv -> In sv (balance_services n (@nil (op E))) -> Down (call_balance n a sv).
Proof.
  intros HO IN. destruct n; cbn in IN; intuition subst; cbn [call_balance];
    unfold blockchair_balance, blockstream_balance, bitcore_balance, smartbit_balance, blockchain_balance;
    (eapply out_down; [exact HO|reflexivity|site_url|]; intros r (R & N & B); try (exfalso; apply B; auto; fail); apply down_ok_status; exact R).
Qed.
Theorem C85_transactions n a sv : OutOfOrder (OU:=OU) AskHistory n sv -> In sv (history_services n (@nil (op E))) -> Down (call_transactions rounds n a sv).
Proof.
  intros HO IN. destruct n; cbn in IN; intuition subst; cbn [call_transactions];
    unfold blockchair_transactions, blockstream_transactions, smartbit_transactions, blockchain_transactions.
  all: try (out HO; apply down_ok_status; exact R).
  - apply down_bind. out HO. apply down_ok_status. exact R.
Qed.
Theorem C85_by_id n a sv : OutOfOrder (OU:=OU) AskTransaction n sv -> In sv (history_services n (@nil (op E))) -> Down (call_by_id n a sv).
Proof.
  intros HO IN. destruct n; cbn in IN; intuition subst; cbn [call_by_id];
    unfold blockchair_by_id, blockstream_by_id, smartbit_by_id, blockchain_by_id.
  all: try (out HO; apply down_ok_status; exact R).
  eapply out_down; [exact HO|reflexivity|site_url|]. intros r (R & N & _). cbn in N.
  destruct (Z.eqb_spec (r_status r) 500) as [E5|]; cbn [andb]; [|apply down_ok_status; exact R].
  destruct (list_eqb (r_text r) (str "Transaction not found")) eqn:EL; [|apply down_ok_status; exact R].
  destruct N. split; [exact E5|]. apply list_eqb_eq. exact EL.
Qed.
Theorem C85_unspent n a sv : OutOfOrder (OU:=OU) AskCoins n sv -> In sv (unspent_services n (@nil (op E))) -> Down (call_unspent rounds n a sv).
Proof.
  intros HO IN. destruct n; cbn in IN; intuition subst; cbn [call_unspent];
    unfold blockchair_unspent, blockstream_unspent, bitcore_unspent, smartbit_unspent, blockchain_unspent.
  all: try apply (down_bind (blockchair_unspent _ a)).
  all: first [out HO; apply down_ok_status; exact R | apply down_bind; out HO; apply down_ok_status; exact R].
Qed.
Lemma no_node n main test (ops : list (op E)) sv : connected n ops = None ->
  In sv (services_for n main test ops) -> In sv (services_for n main test (@nil (op E))).
Proof. unfold services_for. intros ->. destruct n; exact (fun H => H). Qed.

(** So the answers come from the services that work (compare C62_any, C71_any,
    C72_any and C77_any, which say the same about services that fail in any way). *)
Section Any.
Context (n : net) (L : Ledger) (address : pystr) (ops : list (op E)) (NC : connected n ops = None) (t1 t2 : Z) (e : E).
Notation s := (run ops (start t1 t2 e)).
Notation Knows := (Knows rounds n L address).

Theorem C85_any_balance : (forall sv, In sv (balance_services n ops) -> OutOfOrder (OU:=OU) AskBalance n sv \/ Knows sv) ->
  (exists sv, In sv (balance_services n ops) /\ Knows sv) -> fst (get_balance n address s) = Ok (total L).
Proof.
  intros H K. destruct (C72_any rounds n L address ops t1 t2 e NC) as (r & e' & ER & _ & HR).
  - intros sv I. destruct (H sv I) as [O|K']; [left|right; auto]. apply C85_balance; [exact O|]. eapply no_node; eauto.
  - rewrite ER. apply HR. exact K.
Qed.
Theorem C85_any_transactions : (forall sv, In sv (history_services n ops) -> OutOfOrder (OU:=OU) AskHistory n sv \/ Knows sv) ->
  (exists sv, In sv (history_services n ops) /\ Knows sv /\ (sv = Blockstream -> n = Test \/ zlen (l_mempool L) < 50)) ->
  exists ids, fst (get_transactions rounds n address s) = Ok ids /\ AllTxids n L ids.
Proof.
  intros H K. destruct (C62_any rounds n L address ops t1 t2 e NC) as (r & e' & ER & _ & HR).
  - intros sv I. destruct (H sv I) as [O|K']; [left|right; auto]. apply C85_transactions; [exact O|]. eapply no_node; eauto.
  - rewrite ER. apply HR. exact K.
Qed.
Theorem C85_any_by_id txid raw : (forall sv, In sv (history_services n ops) -> OutOfOrder (OU:=OU) AskTransaction n sv \/ ServesRaw (OU:=OU) n txid raw sv) ->
  (exists sv, In sv (history_services n ops) /\ ServesRaw (OU:=OU) n txid raw sv) -> fst (get_transaction_by_id n txid s) = Ok raw.
Proof.
  intros H K. destruct (C77_any rounds n txid raw ops t1 t2 e) as (r & e' & ER & _ & HR).
  - intros sv I. destruct (H sv I) as [O|K']; [left|right; auto]. apply C85_by_id; [exact O|]. eapply no_node; eauto.
  - rewrite ER. apply HR. exact K.
Qed.
Theorem C85_any_unspent script : (forall sv, In sv (unspent_services n ops) -> OutOfOrder (OU:=OU) AskCoins n sv \/ Knows sv) ->
  address_to_scriptpubkey address = Ok (Some script) -> l_script L = bytes_to_hex script ->
  Forall (fun c => 0 <= c_value c < 10 ^ g_prec (n_globals s)) (l_coins L) -> (forall c h, In c (l_coins L) -> c_height c = Some h -> 0 <= h) ->
  (exists sv, In sv (unspent_services n ops) /\ Knows sv /\ (sv = BlockchainInfo -> zlen (l_coins L) < 1000)) ->
  exists us, fst (get_unspent rounds n address s) = Ok (Some us) /\ Coins L us.
Proof.
  intros H HA HS HV HH K. destruct (C71_any rounds n L address ops t1 t2 e script) as (r & e' & ER & _ & HR); auto.
  - intros sv I. destruct (H sv I) as [O|K']; [left|right; auto]. apply C85_unspent; [exact O|]. eapply no_node; eauto.
  - rewrite ER. apply HR. exact K.
Qed.
End Any.

(** ** Answers that say that there is nothing *)
Lemma below_get n sv p path P : AnswersBelow (OU:=OU) n sv path P -> site n sv = Some p -> forall rest ps (s : Net E),
  exists r s', http_get (str p ++ str path ++ rest) ps s = (Ok r, s') /\ P r.
Proof.
  intros (p' & EP & H) EP' rest ps s. assert (p' = p) as -> by congruence. destruct (H rest ps (g_timeout (n_globals s)) (n_outside s)) as (r & e' & EX & HX).
  unfold http_get, outside, zoom. rewrite EX. eauto.
Qed.
Definition Gives {A} (m : IO (Net E) A) (a : A) : Prop := forall s, fst (m s) = Ok a.
Lemma below_gives {A} n sv p path P rest ps url (f : Response -> IO (Net E) A) a : AnswersBelow (OU:=OU) n sv path P -> site n sv = Some p ->
  url = str p ++ str path ++ rest -> (forall r, P r -> Gives (f r) a) -> Gives (ibind (http_get url ps) f) a.
Proof.
  intros HB EP -> HF s. destruct (below_get n sv p path P HB EP rest ps s) as (r & s' & EX & HX). unfold ibind. rewrite EX. apply HF. exact HX.
Qed.
Ltac below HB := eapply below_gives; [exact HB|reflexivity|site_url|];
  let r := fresh "r" in let R := fresh "R" in intros r R; cbn in R.

Lemma never n sv path (P : Response -> Prop) (s : Net E) : AnswersBelow (OU:=OU) n sv path P -> (forall r, ~ P r) -> False.
Proof. intros HB N. pose proof HB as (p & EP & _). destruct (below_get n sv p path P HB EP [] [] s) as (r & _ & _ & H). exact (N r H). Qed.
Ltac nothing HB := try (intros s; exfalso; refine (never _ _ _ _ s HB _); intros ? H; cbn in H; exact H).

(** Then no transactions, no transaction or no coins are reported: nobody else is asked. *)
Theorem C85_no_transactions n a sv : AnswersBelow (OU:=OU) n sv "" (SaysNothing AskHistory n sv) -> Gives (call_transactions rounds n a sv) [].
Proof.
  intros HB. pose proof HB as (p & EP & _). destruct sv, n; try discriminate EP; nothing HB; cbn [call_transactions];
    unfold blockchair_transactions, blockstream_transactions.
  1-3: below HB; rewrite R; intros s; reflexivity.
  intros s. unfold ibind at 1. match goal with |- context [ibind ?m ?f] => assert (G : Gives (ibind m f) None) end.
  { below HB. rewrite R. intros s0. reflexivity. }
  specialize (G s). match type of G with fst ?x = _ => destruct x as [r s'] end. cbn in G. subst r. reflexivity.
Qed.
Theorem C85_no_transaction n x sv : AnswersBelow (OU:=OU) n sv "" (SaysNothing AskTransaction n sv) -> Gives (call_by_id n x sv) None.
Proof.
  intros HB. pose proof HB as (p & EP & _). destruct sv, n; try discriminate EP; nothing HB; cbn [call_by_id];
    unfold blockchair_by_id, blockstream_by_id, smartbit_by_id, blockchain_by_id.
  1-6: below HB; rewrite R; intros s; reflexivity.
  below HB. destruct R as [R T]. rewrite R, T. intros s. reflexivity.
Qed.
Theorem C85_no_coins n a sv : AnswersBelow (OU:=OU) n sv (match sv with Blockstream => "address/" | _ => "" end) (SaysNothing AskCoins n sv) ->
  (sv = Blockstream -> exists h, RepliesText (OU:=OU) (blockstream_url n "blocks/tip/height") (fun t => Digits h t /\ t <> [])) ->
  Gives (call_unspent rounds n a sv) (match sv with Blockchair => None | _ => Some [] end).
Proof.
  intros HB HT. pose proof HB as (p & EP & _).
  assert (SOME : forall (m : IO (Net E) (list Unspent)), Gives m [] -> Gives (l <~ m ;; iret (Some l)) (Some [])).
  { intros m H s. specialize (H s). unfold ibind. destruct (m s) as [r s']. cbn in H. subst r. reflexivity. }
  destruct sv, n; try discriminate EP; nothing HB; cbn [call_unspent]; try apply SOME; clear SOME;
    unfold blockchair_unspent, blockstream_unspent, blockchain_unspent.
  1, 2, 4: below HB; rewrite R; intros s; reflexivity.
  destruct (HT eq_refl) as (h & T). intros s. destruct (T (g_timeout (n_globals s)) (n_outside s)) as (r & e' & ER & ST & D & NE). unfold ibind at 1.
  change (http_get (blockstream_endpoint Test ++ str "blocks/tip/height") [] s) with (http_get (blockstream_url Test "blocks/tip/height") [] s).
  unfold http_get at 1, outside, zoom. rewrite ER. unfold ibind at 1, ilift at 1, ok_status at 1. rewrite ST. cbn [Z.eqb Pos.eqb].
  unfold ibind at 1, ilift at 1. rewrite (int_of_digits _ _ D NE). match goal with |- fst (?m ?x) = _ => assert (G : Gives m []) end; [|apply G].
  below HB. rewrite R. intros s0. reflexivity.
Qed.
(** A node that answers with another status than 200 and 500: the error is raised. *)
Theorem C85_node n ops url t1 t2 e x : let s := run ops (start t1 t2 e) in connected n ops = Some url ->
  (forall m args t e, exists r e', o_rpc url m args t e = (Ok r, e') /\ r_status r <> 200 /\ r_status r <> 500) ->
  fst (get_balance n x s) = Raise BitcoinNodeException /\ fst (get_transactions rounds n x s) = Raise BitcoinNodeException /\
  fst (get_transaction_by_id n x s) = Raise BitcoinNodeException /\ fst (get_unspent rounds n x s) = Raise BitcoinNodeException /\
  fst (broadcast_tx n x s) = Raise ConnectionError.
Proof.
  cbv zeta. intros HC HN. set (s := run ops (start t1 t2 e)).
  pose proof (lists rounds ops t1 t2 e n) as HL. cbv zeta in HL. fold s in HL.
  unfold balance_services, history_services, unspent_services, broadcast_services, services_for in HL. rewrite HC in HL.
  destruct HL as (H1 & H2 & H3 & H4 & H5).
  assert (RPC : forall m args s0, exists s1, rpc url m args s0 = (Raise BitcoinNodeException, s1)).
  { intros m args s0. destruct (HN (str m) args None (n_outside s0)) as (r & e' & ER & S2 & S5). unfold rpc, itry, ibind, outside, zoom. rewrite ER.
    rewrite (neqb _ _ S2), (neqb _ _ S5). cbn [orb negb]. eexists. reflexivity. }
  assert (FW : forall A (m : IO (Net E) A) s0 s1, m s0 = (Raise BitcoinNodeException, s1) -> fst (first_working net_ignored [m] s0) = Raise BitcoinNodeException).
  { intros A m s0 s1 EM. cbn [first_working]. unfold itry. rewrite EM. reflexivity. }
  repeat split.
  - unfold get_balance, globals, iget, iret. unfold ibind at 1 2. cbv beta iota. rewrite H1. cbn [map].
    assert (EC : call_balance n x (Node url) = node_balance url x) by (destruct n; reflexivity). rewrite EC. unfold node_balance, modify_globals.
    match goal with |- context [first_working _ [?m] ?s0] => assert (G : exists s1, m s0 = (Raise BitcoinNodeException, s1)) end.
    { unfold ibind at 1 2, iget, iput. match goal with |- context [ibind _ _ ?s1] => destruct (RPC "getreceivedbyaddress"%string [JStr x; JInt 0] s1) as (s2 & ER) end.
      unfold ibind at 1. rewrite ER. eauto. }
    destruct G as (s1 & G). exact (FW _ _ _ _ G).
  - unfold get_transactions, globals, iget, iret. unfold ibind at 1 2. cbv beta iota. rewrite H2. cbn [map].
    assert (EC : call_transactions rounds n x (Node url) = node_transactions url x) by (destruct n; reflexivity). rewrite EC.
    destruct (RPC "listreceivedbyaddress"%string [JInt 0; JBool true; JBool true; JStr x] s) as (s2 & ER). eapply FW. unfold node_transactions, ibind. rewrite ER. reflexivity.
  - unfold get_transaction_by_id, globals, iget, iret. unfold ibind at 1 2. cbv beta iota. rewrite H3. cbn [map].
    assert (EC : call_by_id n x (Node url) = node_by_id url x) by (destruct n; reflexivity). rewrite EC.
    destruct (RPC "getrawtransaction"%string [JStr x; JBool false] s) as (s2 & ER). eapply FW. unfold node_by_id, ibind. rewrite ER. reflexivity.
  - unfold get_unspent, globals, iget, iret. unfold ibind at 1 2. cbv beta iota. rewrite H4. cbn [map].
    assert (EC : call_unspent rounds n x (Node url) = (l <~ node_unspent url x ;; iret (Some l))) by (destruct n; reflexivity). rewrite EC.
    destruct (RPC "listunspent"%string [JInt 0; JInt 9999999; JList [JStr x]] s) as (s2 & ER). eapply FW. unfold node_unspent, ibind. rewrite ER. reflexivity.
  - unfold broadcast_tx, globals, iget, iret. unfold ibind at 1 2. cbv beta iota. rewrite H5. cbn [map broadcast_loop].
    assert (EC : call_broadcast n x (Node url) = node_broadcast url x) by (destruct n; reflexivity). rewrite EC.
    destruct (RPC "sendrawtransaction"%string [JStr x] s) as (s2 & ER). unfold node_broadcast, ibind, itry. rewrite ER. reflexivity.
Qed.
End WithOutside.

(** ** What a user may expect *)
(** One could expect that an address has no coins if none are reported.  Blockstream
    refuses to list the coins of busy addresses; on the test network that becomes
    the answer that there are none, although the next service would list them. *)
Theorem C85_refused_refuted : exists (s s' : Net script) u,
  @get_unspent toy script scripted 5 Test addr s = (Ok (Some []), s') /\
  In (Ok (mkResp 400 (str "Too many history entries") (Raise ValueError))) (fst (n_outside s)) /\
  fst (@blockchair_unspent script scripted Test addr s') = Ok (Some [u]).
Proof.
  pose (page := obj [("data", JObj [(addr, obj [("address", obj [("script_hex", JStr addr_script); ("unspent_output_count", JInt 1)]); ("utxo", JList [blockchair_json coin1])])]);
                     ("context", obj [("state", JInt 700000)])]%string).
  exists (fails [Ok (mkResp 200 (str "700000") (Raise ValueError)); Ok (mkResp 400 (str "Too many history entries") (Raise ValueError)); reply page; reply page]),
         (fails [reply page; reply page]). eexists.
  split; [vm_compute; reflexivity|]. split; [right; left; reflexivity|]. vm_compute. reflexivity.
Qed.
(** On the main network the same answer is passed over, but not if it is about transactions. *)
Theorem C85_refused_history_refuted : exists s : Net script,
  fst (@get_transactions script scripted 5 Main addr s) = Ok [] /\
  fst (n_outside s) = [Raise ReqTimeout; Ok (mkResp 400 (str "Too many history entries") (Raise ValueError)); smartbit_says 7].
Proof. eexists (fails _). split; [|reflexivity]. vm_compute. reflexivity. Qed.
(** Later pages are not looked at like this: an error in JSON in place of the second
    page raises TypeError, and an empty list ends the history. *)
Theorem C85_later_page_refuted : exists s : Net script,
  fst (@blockstream_transactions script scripted 5 Test addr s) = Ok [str "aa01"] /\
  fst (n_outside s) = [reply (JList [txid_json (str "aa01")]); Ok (mkResp 429 [] (Ok (JList [])))].
Proof. eexists (fails _). split; [|reflexivity]. vm_compute. reflexivity. Qed.

(** ** Examples *)
(** Blockchair answers 503, the others know the address. *)
Lemma ailing q : OutOfOrder (OU:=known_to false) q Main Blockchair.
Proof.
  eexists. split; [reflexivity|]. intros rest ps t e. exists (Ok (mkResp 503 [] (Raise ValueError))), (e + 1). split.
  - cbn [o_get known_to]. assert (A : answer_json false (str "https://api.blockchair.com/bitcoin/" ++ rest) ps = None).
    { unfold answer_json. destruct (list_eqb (str "https://api.blockchair.com/bitcoin/" ++ rest) (str "https://api.blockchair.com/bitcoin/dashboards/address/" ++ addr)); reflexivity. }
    rewrite A. reflexivity.
  - right. right. eexists. split; [reflexivity|]. split; [discriminate|]. split; [|intros [_ H]; discriminate]. destruct q; cbn; intros H; (discriminate || exact H).
Qed.
Example C85_any_hypotheses (ops : list (op Z)) q : connected Main ops = None ->
  (forall sv, In sv [Blockchair; Blockstream; Bitcore; Smartbit; BlockchainInfo] -> OutOfOrder (OU:=known_to false) q Main sv \/ Knows (OU:=known_to false) 5 Main known addr sv) /\
  fst (@get_unspent toy Z (known_to false) 5 Main addr (start 0 0 0)) = fst (@get_unspent toy Z (known_to true) 5 Main addr (start 0 0 0)).
Proof.
  intros _. split; [|vm_compute; reflexivity]. intros sv _. destruct sv; try (right; apply known_knows; discriminate). left. apply ailing.
Qed.
(** Everybody answers 404: what this says depends on the service. *)
Definition all_404 : Outside unit := {|
  o_get := fun _ _ _ e => (Ok (mkResp 404 [] (Raise ValueError)), e); o_post := fun _ _ _ e => (Raise ReqTimeout, e);
  o_rpc := fun _ _ _ _ e => (Ok (mkResp 404 [] (Raise ValueError)), e); o_time := fun e => (Ok 0, e) |}.
Example C85_no_hypotheses :
  AnswersBelow (OU:=all_404) Main Blockchair "" (SaysNothing AskHistory Main Blockchair) /\
  AnswersBelow (OU:=all_404) Test Blockstream "" (SaysNothing AskTransaction Test Blockstream) /\
  AnswersBelow (OU:=all_404) Test Blockchair "" (SaysNothing AskCoins Test Blockchair) /\
  OutOfOrder (OU:=all_404) AskHistory Main Smartbit /\ OutOfOrder (OU:=all_404) AskCoins Test Blockstream.
Proof.
  do 3 (split; [eexists; split; [reflexivity|]; intros; eexists _, _; split; reflexivity|]).
  split; (eexists; split; [reflexivity|]; intros; eexists _, _; split; [reflexivity|]; right; right; eexists; split; [reflexivity|]; split; [discriminate|]; split; [cbn; first [intros H; exact H | discriminate]|intros [H _]; discriminate]).
Qed.
(** The test network's Blockstream as in C85_refused_refuted. *)
Definition busy : Outside unit := {|
  o_get := fun url _ _ e => (if list_eqb url (str "https://blockstream.info/testnet/api/blocks/tip/height") then Ok (mkResp 200 (str "700000") (Raise ValueError))
                           else Ok (mkResp 400 (str "Too many history entries") (Raise ValueError)), e);
  o_post := fun _ _ _ e => (Raise ReqTimeout, e); o_rpc := fun _ _ _ _ e => (Ok (mkResp 401 [] (Raise ValueError)), e); o_time := fun e => (Ok 0, e) |}.
Example C85_no_coins_hypotheses : AnswersBelow (OU:=busy) Test Blockstream "address/" (SaysNothing AskCoins Test Blockstream) /\
  RepliesText (OU:=busy) (blockstream_url Test "blocks/tip/height") (fun t => Digits 700000 t /\ t <> []).
Proof.
  split; [eexists; split; [reflexivity|]; intros; eexists _, _; split; reflexivity|].
  intros e. eexists _, _. split; [reflexivity|]. split; [reflexivity|]. split; [apply (digits_of (str "700000")); reflexivity|discriminate].
Qed.
Example C85_node_hypotheses m args t e : exists r e', @o_rpc unit busy (str "http://u:p@h:8332/") m args t e = (Ok r, e') /\ r_status r <> 200 /\ r_status r <> 500.
Proof. eexists _, _. split; [reflexivity|]. split; discriminate. Qed.

Print Assumptions C85_balance.
Print Assumptions C85_transactions.
Print Assumptions C85_by_id.
Print Assumptions C85_unspent.
Print Assumptions C85_any_balance.
Print Assumptions C85_any_transactions.
Print Assumptions C85_any_by_id.
Print Assumptions C85_any_unspent.
Print Assumptions C85_no_transactions.
Print Assumptions C85_no_transaction.
Print Assumptions C85_no_coins.
Print Assumptions C85_node.
Print Assumptions C85_refused_refuted.
Print Assumptions C85_refused_history_refuted.
Print Assumptions C85_later_page_refuted.
