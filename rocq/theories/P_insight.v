(** C104: servers with the Insight interface. *)
From Coq Require Import String.
From Verif Require Import F_base F_decimal M_insight S_Decimal S_Servers S_Requests S_Insight F_network F_servers P_rates P_services X_toy X_net X_server.

(** ** The address in the template *)
Lemma fmt_braceless used s arg r : Braceless s -> fmt used (s ++ r) arg = (x <- fmt used r arg ;; Ok (s ++ x)).
Proof.
  induction s as [|c s IH]; intros [A B]; cbn [app]; [destruct (fmt used r arg); reflexivity|]. cbn [fmt].
  destruct (Z.eqb_spec c 123) as [->|]; [destruct A; left; reflexivity|]. destruct (Z.eqb_spec c 125) as [->|]; [destruct B; left; reflexivity|].
  rewrite IH by (split; intros I; [apply A|apply B]; right; exact I). destruct (fmt used r arg); reflexivity.
Qed.
Lemma put_format arg t url : Put arg t url -> format1 t arg = Ok url.
Proof.
  intros [before after B A]. unfold format1. rewrite fmt_braceless by exact B. change (str "{}" ++ after) with (123 :: 125 :: after). cbn [fmt Z.eqb Pos.eqb].
  rewrite <- (app_nil_r after), fmt_braceless by exact A. cbn [fmt bind]. rewrite !app_nil_r. reflexivity.
Qed.

Section WithOutside.
Context {CR : Crypto} {E : Type} {OU : Outside E} (g : Globals).
Ltac get := eapply yields_bind; [apply yields_get; eassumption|].
Ltac field H := rewrite (has _ _ _ H); cbn [bind].
Ltac lift x := eapply yields_bind; [eapply (yields_lift _ _ x (eq x)); auto|intros ? <-].

Theorem C104_balance I L address : ServesInsight (OU:=OU) I L address -> Yields g (insight_balance I address) (eq (JInt (total L))).
Proof.
  intros ((url & P & R) & _). unfold insight_balance. rewrite (put_format _ _ _ P). lift url. get. intros r (HS & j & EJ & <-).
  eapply yields_bind; [apply yields_ok_status; auto|]. intros _ _. apply (yields_lift _ _ (JInt (total L))); auto.
Qed.
Theorem C104_transactions I L address : ServesInsight (OU:=OU) I L address ->
  Yields g (insight_transactions I address) (eq (JList (map JStr (l_mempool L ++ l_confirmed L)))).
Proof.
  intros (_ & R & _). unfold insight_transactions. get. intros r (HS & j & EJ & H).
  eapply yields_bind; [apply yields_ok_status; auto|]. intros _ _. eapply yields_lift; [|reflexivity]. rewrite EJ. cbn [bind]. apply has. exact H.
Qed.
Theorem C104_coins I L address : ServesInsight (OU:=OU) I L address -> 1 <= g_prec g <= 90000 ->
  Forall (fun c => Readable g (c_value c)) (l_coins L) -> Yields g (insight_unspent I address) (Forall2 (Holds L) (l_coins L)).
Proof.
  intros (_ & _ & (url & P & R)) HP HV. unfold insight_unspent. rewrite (put_format _ _ _ P). lift url. get. intros r (HS & j & EJ & js & -> & HJ).
  eapply yields_bind; [apply yields_ok_status; auto|]. intros _ _. rewrite EJ. lift (JList js). lift js.
  eapply yields_bind; [apply yields_globals|]. intros ? <-.
  destruct (mapM_Forall2 (node_coin L) (insight_utxo (g_prec g)) (Holds L) (l_coins L) js) as (us & EM & HU); auto.
  { intros c jc IN (repr & x & A1 & (d & k & AM & EV & HL & HK) & A2 & A3 & A4 & A5). eexists. split; [|apply (plain_holds L)]. unfold insight_utxo, unit_to_satoshi.
    rewrite Forall_forall in HV. specialize (HV c IN).
    assert (HD : 0 <= d /\ 0 <= k).
    { destruct AM as [d k s A|d k s x' xs A DX _].
      - pose proof (Signed_len false d k s (S_plain _ _ _ A)) as [? ?]. lia.
      - pose proof (Signed_len false d k s (S_plain _ _ _ A)) as [? ?]. pose proof (Digits_nonneg _ _ DX). lia. }
    field A1. cbn [jtext]. rewrite (amount_read (g_prec g) (c_value c) d k repr); auto; try lia. cbn [bind].
    field A2. cbn [jint bind]. field A3. cbn [jstr bind]. field A4. cbn [jstr bind]. field A5. reflexivity. }
  apply (yields_lift _ _ us); auto.
Qed.
Lemma yields_answers url k Q : Answers (OU:=OU) url k Q -> Yields g (http_get url []) (fun r => r_status r = k /\ Q r).
Proof. intros H e. destruct (H (g_timeout g) e) as (r & e' & A & B & C). exists r, e'. split; [|auto]. unfold http_get, outside, zoom. cbn [n_outside n_globals]. rewrite A. reflexivity. Qed.
Theorem C104_by_id I txid raw : ServesInsightRaw (OU:=OU) I txid raw -> Yields g (insight_by_id I txid) (eq (option_map JStr raw)).
Proof.
  intros R. unfold insight_by_id. destruct raw as [h|]; cbn [ServesInsightRaw option_map] in *.
  - get. intros r (HS & j & EJ & H). rewrite HS. cbn [Z.eqb Pos.eqb]. eapply yields_bind; [apply yields_ok_status; auto|]. intros _ _. eapply yields_lift; [|reflexivity]. rewrite EJ. cbn [bind]. field H. reflexivity.
  - eapply yields_bind; [apply yields_answers; eassumption|]. intros r (HS & _). rewrite HS. apply yields_ret. reflexivity.
Qed.
(** Refusals are errors, never empty answers. *)
Theorem C104_refused I a k url : k <> 200 -> Answers (OU:=OU) url k (fun _ => True) -> forall e, exists e',
  (Put a (i_balance I) url -> insight_balance I a (mkNet g e) = (Raise ConnectionError, mkNet g e')) /\
  (Put a (i_unspent I) url -> insight_unspent I a (mkNet g e) = (Raise ConnectionError, mkNet g e')) /\
  (url = i_address I ++ a -> insight_transactions I a (mkNet g e) = (Raise ConnectionError, mkNet g e')) /\
  (url = i_tx I ++ a -> k <> 404 -> insight_by_id I a (mkNet g e) = (Raise ConnectionError, mkNet g e')).
Proof.
  intros NK A e. destruct (yields_answers _ _ _ A e) as (r & e' & EG & HS & _). exists e'.
  assert (OK : ok_status r = Raise ConnectionError) by (unfold ok_status; rewrite HS; destruct (Z.eqb_spec k 200); [contradiction|reflexivity]).
  repeat split; intros P.
  - unfold insight_balance. rewrite (put_format _ _ _ P). unfold ibind at 1. cbn [ilift]. unfold ibind at 1. rewrite EG, OK. reflexivity.
  - unfold insight_unspent. rewrite (put_format _ _ _ P). unfold ibind at 1. cbn [ilift]. unfold ibind at 1. rewrite EG, OK. reflexivity.
  - subst url. unfold insight_transactions. unfold ibind at 1. rewrite EG, OK. reflexivity.
  - intros N4. subst url. unfold insight_by_id. unfold ibind at 1. rewrite EG, HS. destruct (Z.eqb_spec k 404); [contradiction|]. rewrite OK. reflexivity.
Qed.
(** The transaction, and nothing else, is posted; accepted exactly if the status is 200. *)
Theorem C104_broadcast I tx e r e' : o_post (i_push I) (Form [(i_param I, tx)]) (g_timeout g) e = (Ok r, e') ->
  exists b, insight_broadcast I tx (mkNet g e) = (Ok b, mkNet g e') /\ (b = true <-> r_status r = 200).
Proof.
  intros H. exists (r_status r =? 200). split; [|apply Z.eqb_eq]. unfold insight_broadcast, ibind, http_post, outside, zoom. cbn [n_outside n_globals]. rewrite H. reflexivity.
Qed.
(** BitcoreAPI is the same service as the one that NetworkAPI asks to broadcast. *)
Theorem C104_bitcore_broadcast tx s : insight_broadcast bitcore tx s = bitcore_broadcast Main tx s.
Proof. reflexivity. Qed.
(** What BitcoreAPI inherits otherwise is of no use: it puts the address behind the
    braces.  Every transaction is reported as unknown, and asking for any history is an
    error. *)
Theorem C104_bitcore_refuted : BitcorePages (OU:=OU) -> forall x,
  Yields g (insight_by_id bitcore x) (eq None) /\
  forall e, exists e', insight_transactions bitcore x (mkNet g e) = (Raise ConnectionError, mkNet g e').
Proof.
  intros B x. split.
  - apply (C104_by_id bitcore x None). cbn [ServesInsightRaw]. apply B. apply in_or_app. left. vm_compute. tauto.
  - intros e. assert (I : In 123 (i_address bitcore ++ x)) by (apply in_or_app; left; vm_compute; tauto).
    destruct (C104_refused bitcore x 404 _ ltac:(discriminate) (B _ I) e) as (e' & _ & _ & H & _). exists e'. apply H. reflexivity.
Qed.
End WithOutside.
Print Assumptions C104_balance.
Print Assumptions C104_transactions.
Print Assumptions C104_coins.
Print Assumptions C104_by_id.
Print Assumptions C104_refused.
Print Assumptions C104_broadcast.
Print Assumptions C104_bitcore_broadcast.
Print Assumptions C104_bitcore_refuted.

(** ** A server *)
Definition local : Insight := mkInsight (str "http://localhost/api/txs/") (str "http://localhost/api/addr/{}/balance") (str "http://localhost/api/addr/{}/utxo")
  (str "http://localhost/api/tx/send") (str "http://localhost/api/rawtx/") (str "rawtx").
Definition insight_pages : list (pystr * json) :=
  [(str "http://localhost/api/txs/" ++ addr, obj [("transactions", JList (map JStr (l_mempool known ++ l_confirmed known)))]%string);
   (str "http://localhost/api/addr/" ++ addr ++ str "/balance", JInt 123609289);
   (str "http://localhost/api/addr/" ++ addr ++ str "/utxo", JList [node_json coin1 "0.0015"; node_json coin2 "2.5e-05"; node_json coin3 "1.23456789"]);
   (str "http://localhost/api/rawtx/aa01", obj [("rawtx", JStr (str "0200"))]%string)].
Definition insight_server : Outside unit := {|
  o_get url _ _ e := (Ok (match find (fun p => list_eqb (fst p) url) insight_pages with Some (_, j) => mkResp 200 [] (Ok j) | None => mkResp 404 [] (Raise ValueError) end), e);
  o_post _ _ _ e := (Ok (mkResp 200 [] (Raise ValueError)), e);
  o_rpc _ _ _ _ e := (Raise ReqConnectionError, e);
  o_time e := (Ok 0, e) |}.
Example C104_hypotheses : ServesInsight (OU:=insight_server) local known addr /\ ServesInsightRaw (OU:=insight_server) local (str "aa01") (Some (str "0200")) /\
  ServesInsightRaw (OU:=insight_server) local (str "bb") None.
Proof.
  assert (C : forall c r d k, Scientific d k (str r) -> d * 10 ^ 8 = c_value c * 10 ^ k -> zlen (str r) < 1000 -> k < 1000 -> node_coin known c (node_json c r)).
  { intros c r d k H1 H2 H3 H4. unfold node_json. eexists _, _. split; [hask|]. split; [exists d, k; auto|]. repeat split; hask. }
  assert (BL : forall s, forallb (fun c => negb ((c =? 123) || (c =? 125))) s = true -> Braceless s).
  { intros s F. rewrite forallb_forall in F. split; intros I; apply F in I; discriminate. }
  split; [|split].
  - split; [|split].
    + exists (str "http://localhost/api/addr/" ++ addr ++ str "/balance"). split; [|intros t e; eexists _, _, _; repeat split; reflexivity].
      apply (P_braces addr (str "http://localhost/api/addr/") (str "/balance")); apply BL; reflexivity.
    + intros t e. eexists _, _, _. split; [reflexivity|]. split; [reflexivity|]. split; [reflexivity|]. hask.
    + exists (str "http://localhost/api/addr/" ++ addr ++ str "/utxo"). split.
      { apply (P_braces addr (str "http://localhost/api/addr/") (str "/utxo")); apply BL; reflexivity. }
      intros t e. eexists _, _, _. split; [reflexivity|]. split; [reflexivity|]. split; [reflexivity|]. eexists. split; [reflexivity|]. all2.
      * apply (C coin1 _ 15 4); try reflexivity. constructor. apply (amount_of (str "0") (str "0015")); (reflexivity || discriminate).
      * apply (C coin2 _ 25 (1 + 5)); try reflexivity. apply (Sc_exp 25 1 (str "2.5") 5 (str "05")); [apply (amount_of (str "2") (str "5")); (reflexivity || discriminate)|apply (digits_of (str "05")); reflexivity|discriminate].
      * apply (C coin3 _ 123456789 8); try reflexivity. constructor. apply (amount_of (str "1") (str "23456789")); (reflexivity || discriminate).
  - intros t e. eexists _, _, _. split; [reflexivity|]. split; [reflexivity|]. split; [reflexivity|]. hask.
  - intros t e. eexists _, _. repeat split; reflexivity.
Qed.
(** A server with a page for the transaction, at the address that the template means. *)
Definition bitcore_server : Outside unit := {|
  o_get url _ _ e := (Ok (if existsb (Z.eqb 123) url then mkResp 404 [] (Raise ValueError) else mkResp 200 [] (Ok (obj [("rawtx", JStr (str "0200"))]%string))), e);
  o_post _ _ _ e := (Ok (mkResp 200 [] (Raise ValueError)), e);
  o_rpc _ _ _ _ e := (Raise ReqConnectionError, e);
  o_time e := (Ok 0, e) |}.
Example C104_bitcore_hypotheses : BitcorePages (OU:=bitcore_server) /\ exists url, Put (str "aa01") (i_tx bitcore) url /\ Replies (OU:=bitcore_server) url [] (Has "rawtx" (JStr (str "0200"))).
Proof.
  split.
  - intros url I t e. eexists _, _. split; [cbn; replace (existsb (Z.eqb 123) url) with true; [reflexivity|]|repeat split; reflexivity].
    symmetry. apply existsb_exists. exists 123. auto.
  - exists (str "https://api.bitcore.io/api/BTC/mainnet/tx/" ++ str "aa01" ++ []). split.
    + apply (P_braces (str "aa01") (str "https://api.bitcore.io/api/BTC/mainnet/tx/") []); split; vm_compute; intuition discriminate.
    + intros t e. eexists _, _, _. split; [reflexivity|]. split; [reflexivity|]. split; [reflexivity|]. hask.
Qed.
