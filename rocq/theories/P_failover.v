(** Which service answers (C59, C60). *)
From Coq Require Import String.
From Verif Require Import M_services S_History S_Failover F_network P_network X_net X_toy F_base.

Section WithOutside.
Context {CR : Crypto} {E : Type} {OU : Outside E} (rounds : nat).
Notation run := (run (E:=E) rounds).

Lemma ignored_unusable e : net_ignored e = true <-> Unusable e.
Proof.
  unfold Unusable. split.
  - destruct e; cbn; try discriminate; tauto.
  - cbn. intros [<- | [<- | [<- | [<- | []]]]]; reflexivity.
Qed.

Lemma first_working_answer {A} (ask : service -> IO (Net E) A) l s res s' :
  first_working net_ignored (map ask l) s = (res, s') <-> Answer ask l s res s'.
Proof.
  split.
  - revert s. induction l as [|sv l IH]; intros s; cbn [map first_working].
    + intros [= <- <-]. apply An_none. constructor.
    + unfold itry. destruct (ask sv s) as [[a|e] s1] eqn:EA.
      * intros [= <- <-]. eapply (An_first _ _ _ [] sv l s); [reflexivity|constructor|exact EA|discriminate].
      * destruct (net_ignored e) eqn:EI.
        -- intros H. destruct (IH _ H) as [pre sv' post s2 res' s3 EL NW EC NU|s3 NW].
           ++ eapply (An_first _ _ _ (sv :: pre) sv' post s2); [rewrite EL; reflexivity| |exact EC|exact NU].
              econstructor; [exact EA|apply ignored_unusable; exact EI|exact NW].
           ++ apply An_none. econstructor; [exact EA|apply ignored_unusable; exact EI|exact NW].
        -- intros [= <- <-]. eapply (An_first _ _ _ [] sv l s); [reflexivity|constructor|exact EA|].
           intros e' [= <-] U. apply ignored_unusable in U. congruence.
  - assert (NWS : forall pre post s s1, NoneWorks ask pre s s1 ->
      first_working net_ignored (map ask (pre ++ post)) s = first_working net_ignored (map ask post) s1).
    { intros pre post s0 s1 NW. induction NW as [|sv l' s0 s1 s2 e EA U _ IH]; [reflexivity|]. cbn [map app first_working]. unfold itry at 1. rewrite EA.
      apply ignored_unusable in U. rewrite U. exact IH. }
    intros [pre sv post s1 res' s2 EL NW EC NU|s2 NW].
    + rewrite EL, (NWS _ _ _ _ NW). cbn [map first_working]. unfold itry. rewrite EC. destruct res' as [a|e]; [reflexivity|].
      destruct (net_ignored e) eqn:EI; [|reflexivity]. destruct (NU e eq_refl). apply ignored_unusable. exact EI.
    + rewrite <- (app_nil_r l). rewrite (NWS _ _ _ _ NW). reflexivity.
Qed.

Lemma broadcast_submitted (ask : service -> IO (Net E) bool) l s res s' :
  broadcast_loop (map ask l) s = (res, s') <-> Submitted ask l s res s'.
Proof.
  split.
  - revert s. induction l as [|sv l IH]; intros s; cbn [map broadcast_loop].
    + intros [= <- <-]. apply Su_refused. constructor.
    + unfold ibind at 1. unfold itry. destruct (ask sv s) as [[[|]|e] s1] eqn:EA.
      * intros [= <- <-]. eapply (Su_accepted _ _ _ [] sv l s); [reflexivity|constructor|exact EA].
      * intros H. destruct (IH _ H) as [pre sv' post s2 s3 EL NW EC|pre sv' post s2 s3 e EL NW EC NU|s3 NW].
        -- eapply (Su_accepted _ _ _ (sv :: pre) sv' post s2); [rewrite EL; reflexivity|econstructor; eauto|exact EC].
        -- eapply (Su_error _ _ _ (sv :: pre) sv' post s2); [rewrite EL; reflexivity|econstructor; eauto|exact EC|exact NU].
        -- apply Su_refused. econstructor; eauto.
      * destruct (net_ignored e) eqn:EI; unfold iret, ilift.
        -- apply ignored_unusable in EI. intros H. destruct (IH _ H) as [pre sv' post s2 s3 EL NW EC|pre sv' post s2 s3 e' EL NW EC NU|s3 NW].
           ++ eapply (Su_accepted _ _ _ (sv :: pre) sv' post s2); [rewrite EL; reflexivity|econstructor; eauto|exact EC].
           ++ eapply (Su_error _ _ _ (sv :: pre) sv' post s2); [rewrite EL; reflexivity|econstructor; eauto|exact EC|exact NU].
           ++ apply Su_refused. econstructor; eauto.
        -- intros [= <- <-]. eapply (Su_error _ _ _ [] sv l s); [reflexivity|constructor|exact EA|].
           intros U. apply ignored_unusable in U. congruence.
  - assert (NWS : forall pre post s s1, AllRefuse ask pre s s1 ->
      broadcast_loop (map ask (pre ++ post)) s = broadcast_loop (map ask post) s1).
    { intros pre post s0 s1 NW. induction NW as [|sv l' s0 s1 s2 r EA U _ IH]; [reflexivity|]. cbn [map app broadcast_loop].
      unfold ibind at 1. unfold itry. rewrite EA. destruct U as [-> | (e & -> & U)]; [exact IH|].
      apply ignored_unusable in U. rewrite U. exact IH. }
    intros [pre sv post s1 s2 EL NW EC|pre sv post s1 s2 e EL NW EC NU|s2 NW].
    + rewrite EL, (NWS _ _ _ _ NW). cbn [map broadcast_loop]. unfold ibind, itry. rewrite EC. reflexivity.
    + rewrite EL, (NWS _ _ _ _ NW). cbn [map broadcast_loop]. unfold ibind, itry. rewrite EC.
      destruct (net_ignored e) eqn:EI; [|reflexivity]. destruct NU. apply ignored_unusable. exact EI.
    + rewrite <- (app_nil_r l). rewrite (NWS _ _ _ _ NW). reflexivity.
Qed.

(** The lists in force after a history. *)
Lemma lists ops t1 t2 e n : let a := apis n (n_globals (run ops (start t1 t2 e))) in
  a_balance a = balance_services n ops /\ a_transactions a = history_services n ops /\ a_by_id a = history_services n ops /\
  a_unspent a = unspent_services n ops /\ a_broadcast a = broadcast_services n ops.
Proof.
  cbv zeta. rewrite C61_services. unfold balance_services, history_services, unspent_services, broadcast_services, services_for.
  destruct (connected n ops); [cbn; auto|]. destruct n; cbn; auto.
Qed.

Theorem C59_balance ops t1 t2 e n address res s' : let s := run ops (start t1 t2 e) in
  get_balance n address s = (res, s') <-> Answer (call_balance n address) (balance_services n ops) s res s'.
Proof. cbv zeta. destruct (lists ops t1 t2 e n) as (H & _). rewrite <- H. apply first_working_answer. Qed.
Theorem C59_transactions ops t1 t2 e n address res s' : let s := run ops (start t1 t2 e) in
  get_transactions rounds n address s = (res, s') <-> Answer (call_transactions rounds n address) (history_services n ops) s res s'.
Proof. cbv zeta. destruct (lists ops t1 t2 e n) as (_ & H & _). rewrite <- H. apply first_working_answer. Qed.
Theorem C59_by_id ops t1 t2 e n txid res s' : let s := run ops (start t1 t2 e) in
  get_transaction_by_id n txid s = (res, s') <-> Answer (call_by_id n txid) (history_services n ops) s res s'.
Proof. cbv zeta. destruct (lists ops t1 t2 e n) as (_ & _ & H & _). rewrite <- H. apply first_working_answer. Qed.
Theorem C59_unspent ops t1 t2 e n address res s' : let s := run ops (start t1 t2 e) in
  get_unspent rounds n address s = (res, s') <-> Answer (call_unspent rounds n address) (unspent_services n ops) s res s'.
Proof. cbv zeta. destruct (lists ops t1 t2 e n) as (_ & _ & _ & H & _). rewrite <- H. apply first_working_answer. Qed.

Theorem C60_broadcast ops t1 t2 e n tx res s' : let s := run ops (start t1 t2 e) in
  broadcast_tx n tx s = (res, s') <-> Submitted (call_broadcast n tx) (broadcast_services n ops) s res s'.
Proof. cbv zeta. destruct (lists ops t1 t2 e n) as (_ & _ & _ & _ & H). rewrite <- H. apply broadcast_submitted. Qed.

(** Without a connection every getter and the broadcast raise ConnectionError. *)
Definition Offline : Prop :=
  (forall url ps t e, exists x e', o_get url ps t e = (Raise x, e') /\ (x = ReqConnectionError \/ x = ReqTimeout)) /\
  (forall url ps t e, exists x e', o_post url ps t e = (Raise x, e') /\ (x = ReqConnectionError \/ x = ReqTimeout)) /\
  (forall url m ps t e, exists x e', o_rpc url m ps t e = (Raise x, e') /\ (x = ReqConnectionError \/ x = ReqTimeout)).
Definition Down {A} (m : IO (Net E) A) : Prop := forall s, exists x s', m s = (Raise x, s') /\ Unusable x.
Lemma down_bind {A B} (m : IO (Net E) A) (f : A -> IO (Net E) B) : Down m -> Down (ibind m f).
Proof. intros H s. destruct (H s) as (x & s' & EM & U). exists x, s'. unfold ibind. rewrite EM. auto. Qed.
Lemma down_get : Offline -> forall url ps, Down (http_get url ps).
Proof.
  intros (H & _) url ps s. destruct (H url ps (g_timeout (n_globals s)) (n_outside s)) as (x & e' & EM & HX). unfold http_get, outside, zoom. rewrite EM.
  eexists _, _. split; [reflexivity|]. unfold Unusable. cbn. intuition.
Qed.
Lemma down_post : Offline -> forall url ps, Down (http_post url ps).
Proof.
  intros (_ & H & _) url ps s. destruct (H url ps (g_timeout (n_globals s)) (n_outside s)) as (x & e' & EM & HX). unfold http_post, outside, zoom. rewrite EM.
  eexists _, _. split; [reflexivity|]. unfold Unusable. cbn. intuition.
Qed.
Lemma down_rpc : Offline -> forall url m ps, Down (rpc url m ps).
Proof.
  intros (_ & _ & H) url m ps. unfold rpc. apply down_bind. intros s. destruct (H url (str m) ps None (n_outside s)) as (x & e' & EM & HX). unfold itry, outside, zoom.
  rewrite EM. destruct HX as [-> | ->]; eexists _, _; (split; [reflexivity|]); unfold Unusable; cbn; auto.
Qed.
Lemma none_works {A} (ask : service -> IO (Net E) A) l : (forall sv, In sv l -> Down (ask sv)) -> forall s, exists s', NoneWorks ask l s s'.
Proof.
  induction l as [|sv l IH]; intros H s; [exists s; constructor|]. destruct (H sv (or_introl eq_refl) s) as (x & s1 & EM & U).
  destruct (IH (fun sv' I => H sv' (or_intror I)) s1) as (s' & NW). exists s'. econstructor; eauto.
Qed.
Lemma all_refuse (ask : service -> IO (Net E) bool) l : (forall sv, In sv l -> Down (ask sv)) -> forall s, exists s', AllRefuse ask l s s'.
Proof.
  induction l as [|sv l IH]; intros H s; [exists s; constructor|]. destruct (H sv (or_introl eq_refl) s) as (x & s1 & EM & U).
  destruct (IH (fun sv' I => H sv' (or_intror I)) s1) as (s' & NW). exists s'. econstructor; eauto.
Qed.
Definition listed (n : net) (sv : service) : Prop := match n with Main => True | Test => sv <> BlockchainInfo end.
Lemma listed_in n main test ops sv : ~ In BlockchainInfo test -> In sv (services_for (E:=E) n main test ops) -> listed n sv.
Proof.
  unfold services_for, listed. intros H. destruct n; [trivial|]. destruct (connected Test ops); cbn.
  - intros [<- | []]. discriminate.
  - intros I ->. tauto.
Qed.
Ltac not_in := cbn; intuition discriminate.
Ltac down := repeat first [apply down_get; assumption | apply down_post; assumption | apply down_rpc; assumption | apply down_bind].
Lemma down_node_balance : Offline -> forall url a, Down (node_balance url a).
Proof.
  intros OFF url a s. unfold node_balance. unfold ibind at 1. unfold modify_globals, ibind at 1, iget, iput.
  apply down_bind. down.
Qed.
Theorem C59_offline : Offline -> forall ops t1 t2 e n a, let s := run ops (start t1 t2 e) in
  fst (get_balance n a s) = Raise ConnectionError /\ fst (get_transactions rounds n a s) = Raise ConnectionError /\
  fst (get_transaction_by_id n a s) = Raise ConnectionError /\ fst (get_unspent rounds n a s) = Raise ConnectionError.
Proof.
  intros OFF ops t1 t2 e n a. cbv zeta. set (s := run ops (start t1 t2 e)).
  repeat split.
  - destruct (none_works (call_balance n a) (balance_services n ops)) with (s := s) as (s' & NW).
    + intros sv I. apply listed_in in I; [|not_in]. destruct sv, n; cbn in *; try congruence; unfold blockchair_balance, blockstream_balance, bitcore_balance, smartbit_balance, blockchain_balance; first [apply down_node_balance; assumption | down].
    + apply An_none in NW. apply C59_balance in NW. fold s in NW. rewrite NW. reflexivity.
  - destruct (none_works (call_transactions rounds n a) (history_services n ops)) with (s := s) as (s' & NW).
    + intros sv I. unfold history_services, services_for in I. destruct (connected n ops) as [u|].
      * destruct I as [<- | []]. cbn. destruct n; unfold node_transactions; down.
      * destruct n; cbn in I; intuition subst; cbn; unfold blockchair_transactions, blockstream_transactions, smartbit_transactions, blockchain_transactions; down.
    + apply An_none in NW. apply C59_transactions in NW. fold s in NW. rewrite NW. reflexivity.
  - destruct (none_works (call_by_id n a) (history_services n ops)) with (s := s) as (s' & NW).
    + intros sv I. unfold history_services, services_for in I. destruct (connected n ops) as [u|].
      * destruct I as [<- | []]. cbn. destruct n; unfold node_by_id; down.
      * destruct n; cbn in I; intuition subst; cbn; unfold blockchair_by_id, blockstream_by_id, smartbit_by_id, blockchain_by_id; down.
    + apply An_none in NW. apply C59_by_id in NW. fold s in NW. rewrite NW. reflexivity.
  - destruct (none_works (call_unspent rounds n a) (unspent_services n ops)) with (s := s) as (s' & NW).
    + intros sv I. apply listed_in in I; [|not_in]. destruct sv, n; cbn in *; try congruence; unfold node_unspent, blockchair_unspent, blockstream_unspent, bitcore_unspent, smartbit_unspent, blockchain_unspent; down.
    + apply An_none in NW. apply C59_unspent in NW. fold s in NW. rewrite NW. reflexivity.
Qed.
Theorem C60_offline : Offline -> forall ops t1 t2 e n tx, fst (broadcast_tx n tx (run ops (start t1 t2 e))) = Raise ConnectionError.
Proof.
  intros OFF ops t1 t2 e n tx. set (s := run ops (start t1 t2 e)).
  destruct (all_refuse (call_broadcast n tx) (broadcast_services n ops)) with (s := s) as (s' & NW).
  - intros sv I. apply listed_in in I; [|not_in]. destruct sv, n; cbn in *; try congruence; unfold blockchair_broadcast, blockstream_broadcast, bitcore_broadcast, smartbit_broadcast, blockchain_broadcast, push; down.
    all: unfold node_broadcast, itry; intros s0; unfold ibind; destruct (down_rpc OFF url "sendrawtransaction" [JStr tx] s0) as (x & s1 & -> & U).
    all: unfold Unusable in U; cbn in U; destruct U as [<- | [<- | [<- | [<- | []]]]]; eexists _, _; (split; [reflexivity|]); unfold Unusable; cbn; tauto.
  - apply Su_refused in NW. apply C60_broadcast in NW. fold s in NW. rewrite NW. reflexivity.
Qed.
End WithOutside.

(** ** Examples *)
Definition status (n : Z) : result Response := Ok (mkResp n [] (Raise ValueError)).
Definition fails : list (result Response) -> Net script := fun l => start 0 0 (l, 5).
Definition smartbit_says (b : Z) : result Response :=
  reply (JObj [(str "address", JObj [(str "total", JObj [(str "balance_int", JInt b)])])]).

(** Two services fail, the third answers. *)
Example C59_case : fst (@get_balance script scripted Test (str "a") (fails [Raise ReqTimeout; status 503; reply (JObj [(str "balance", JInt 7)])])) = Ok 7.
Proof. vm_compute. reflexivity. Qed.
(** One could expect that a service out of order is passed over.  Bitcore's answer
    503 is not, although the next service would answer. *)
Theorem C59_out_of_order_refuted : exists s : Net script,
  @get_balance script scripted Main (str "a") s = (Raise HTTPError, fails [smartbit_says 7]) /\
  fst (smartbit_balance Main (str "a") (fails [smartbit_says 7])) = Ok 7.
Proof. exists (fails [Raise ReqTimeout; Raise ReqTimeout; status 503; smartbit_says 7]). vm_compute. auto. Qed.
(** Nor is an answer that is not JSON. *)
Theorem C59_not_json_refuted : exists s : Net script,
  fst (@get_balance script scripted Main (str "a") s) = Raise ValueError /\ n_outside s = ([status 200; smartbit_says 7], 5).
Proof. exists (fails [status 200; smartbit_says 7]). vm_compute. auto. Qed.
(** An address that is unknown to Blockchair: no list at all. *)
Theorem C59_unknown_address_refuted : exists s : Net script,
  fst (@get_unspent toy script scripted 5 Main (str "a") s) = Ok None.
Proof. exists (fails [Raise ReqTimeout; status 404]). vm_compute. reflexivity. Qed.
(** blockchain.info answers 500 for an address without coins, and so out of order it reports no coins. *)
Theorem C59_no_coins_refuted : exists s : Net script,
  fst (@get_unspent toy script scripted 5 Main (str "a") s) = Ok (Some []) /\ fst (n_outside s) = [Raise ReqTimeout; Raise ReqTimeout; Raise ReqTimeout; status 500].
Proof. exists (fails [Raise ReqTimeout; Raise ReqTimeout; Raise ReqTimeout; status 500]). vm_compute. auto. Qed.

Example C60_case : fst (@broadcast_tx script scripted Main (str "00") (fails [Raise ReqTimeout; status 400; status 200])) = Ok tt /\
  fst (@broadcast_tx script scripted Main (str "00") (fails [status 400; status 400; status 400; status 400; status 400])) = Raise ConnectionError /\
  fst (@broadcast_tx script scripted Main (str "00") (fails [status 400; Raise (OtherError 3)])) = Raise (OtherError 3).
Proof. vm_compute. auto. Qed.

Definition no_network : Outside unit := {|
  o_get := fun _ _ _ e => (Raise ReqConnectionError, e); o_post := fun _ _ _ e => (Raise ReqTimeout, e);
  o_rpc := fun _ _ _ _ e => (Raise ReqConnectionError, e); o_time := fun e => (Ok 0, e) |}.
Example C59_offline_hypotheses : @Offline unit no_network.
Proof. repeat split; intros; eexists _, _; (split; [reflexivity|]); auto. Qed.

Print Assumptions C59_balance.
Print Assumptions C59_transactions.
Print Assumptions C59_by_id.
Print Assumptions C59_unspent.
Print Assumptions C59_offline.
Print Assumptions C59_out_of_order_refuted.
Print Assumptions C59_not_json_refuted.
Print Assumptions C59_unknown_address_refuted.
Print Assumptions C59_no_coins_refuted.
Print Assumptions C60_broadcast.
Print Assumptions C60_offline.
