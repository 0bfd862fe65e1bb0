(** C97: what is reported is what the services said, whatever they answer.
    C98: answers that lack something. *)
From Coq Require Import String.
From Verif Require P_numeral.
From Verif Require Import F_utils F_servers M_services S_Decimal S_History S_Failover S_Requests S_Numeral S_Answers F_network X_toy X_net P_network P_failover P_requests.

(** ** Following names *)
Lemma find_first {A} (k : pystr) (fs : list (pystr * A)) : match find (fun p => list_eqb (fst p) k) fs with
  | Some (k', v) => k' = k /\ exists before after, fs = before ++ (k, v) :: after /\ forall x, ~ In (k, x) before
  | None => forall x, ~ In (k, x) fs end.
Proof.
  induction fs as [|[k' v] fs IH]; [intros x []|]. cbn [find fst]. destruct (list_eqb k' k) eqn:EK.
  - apply list_eqb_eq in EK. subst k'. split; [reflexivity|]. exists [], fs. split; [reflexivity|intros x []].
  - assert (NK : k' <> k) by (intros ->; rewrite (proj2 (list_eqb_eq k k) eq_refl) in EK; discriminate).
    match goal with |- context [find ?f fs] => destruct (find f fs) as [[k2 v2]|] end.
    + destruct IH as (-> & before & after & -> & NB). split; [reflexivity|]. exists ((k', v) :: before), after. split; [reflexivity|].
      intros x [I|I]; [congruence|]. exact (NB x I).
    + intros x [I|I]; [congruence|]. exact (IH x I).
Qed.
Lemma find_at {A} (k : pystr) (v : A) before after : (forall x, ~ In (k, x) before) ->
  find (fun p => list_eqb (fst p) k) (before ++ (k, v) :: after) = Some (k, v).
Proof.
  induction before as [|[k' v'] b IH]; intros NB; cbn [app find fst].
  - rewrite (proj2 (list_eqb_eq k k) eq_refl). reflexivity.
  - destruct (list_eqb k' k) eqn:EK; [apply list_eqb_eq in EK; subst; destruct (NB v'); left; reflexivity|].
    apply IH. intros x I. apply (NB x). right. exact I.
Qed.
Fixpoint follow (path : list pystr) (j : json) : result json :=
  match path with [] => Ok j | k :: r => v <- jget_key k j ;; follow r v end.
Lemma jget_as_key k j : jget k j = jget_key (str k) j.
Proof. destruct j; reflexivity. Qed.
Lemma get_key_cases k j : match j with
  | JObj fs => (exists before v after, fs = before ++ (k, v) :: after /\ (forall x, ~ In (k, x) before) /\ jget_key k j = Ok v) \/
               ((forall x, ~ In (k, x) fs) /\ jget_key k j = Raise KeyError)
  | _ => jget_key k j = Raise TypeError end.
Proof.
  destruct j as [| | | | | |fs]; try reflexivity. cbn [jget_key]. pose proof (find_first k fs) as F.
  match goal with |- context [find ?f fs] => destruct (find f fs) as [[k' v]|] end; [left|right; auto]. destruct F as (-> & before & after & -> & NB). exists before, v, after. auto.
Qed.
Lemma walk_follow path j w : Walk path j w -> follow path j = Ok w.
Proof.
  induction 1 as [j|k path before v after w NB WK IH]; [reflexivity|]. cbn [follow jget_key]. rewrite (find_at k v before after NB). exact IH.
Qed.
Lemma missing_cons k path j v : jget_key k j = Ok v -> Missing path v -> Missing (k :: path) j.
Proof.
  intros EV (front & k' & back & fields & -> & WK & NF). exists (k :: front), k', back, fields. split; [reflexivity|]. split; [|exact NF].
  pose proof (get_key_cases k j) as G. destruct j as [| | | | | |fs]; try congruence.
  destruct G as [(before & v' & after & -> & NB & EV')|(_ & EV')]; [|congruence]. replace v' with v in * by congruence. constructor; auto.
Qed.
Lemma nameless_cons k path j v : jget_key k j = Ok v -> Nameless path v -> Nameless (k :: path) j.
Proof.
  intros EV (front & k' & back & w & -> & WK & NF). exists (k :: front), k', back, w. split; [reflexivity|]. split; [|exact NF].
  pose proof (get_key_cases k j) as G. destruct j as [| | | | | |fs]; try congruence.
  destruct G as [(before & v' & after & -> & NB & EV')|(_ & EV')]; [|congruence]. replace v' with v in * by congruence. constructor; auto.
Qed.
(** Exactly one of the three cases. *)
Lemma follow_cases path : forall j,
  (exists w, follow path j = Ok w /\ Walk path j w) \/ (follow path j = Raise KeyError /\ Missing path j) \/
  (follow path j = Raise TypeError /\ Nameless path j).
Proof.
  induction path as [|k path IH]; intros j; [left; exists j; split; [reflexivity|constructor]|].
  pose proof (get_key_cases k j) as G. cbn [follow].
  assert (NM : (forall fs, j <> JObj fs) -> jget_key k j = Raise TypeError ->
    (v <- jget_key k j ;; follow path v) = Raise TypeError /\ Nameless (k :: path) j).
  { intros NJ ->. split; [reflexivity|]. exists [], k, path, j. split; [reflexivity|]. split; [constructor|exact NJ]. }
  destruct j as [| | | | | |fs]; try (right; right; apply NM; [intros fs; discriminate|exact G]).
  destruct G as [(before & v & after & EF & NB & EV)|(NF & EV)].
  - rewrite EV. cbn [bind]. destruct (IH v) as [(w & EW & WK)|[(EW & M)|(EW & M)]].
    + left. exists w. split; [exact EW|]. rewrite EF. constructor; auto.
    + right. left. split; [exact EW|]. eapply missing_cons; eauto.
    + right. right. split; [exact EW|]. eapply nameless_cons; eauto.
  - rewrite EV. right. left. split; [reflexivity|]. exists [], k, path, fs. split; [reflexivity|]. split; [constructor|exact NF].
Qed.
Lemma follow_app p q j : follow (p ++ q) j = (w <- follow p j ;; follow q w).
Proof. revert j. induction p as [|k p IH]; intros j; [reflexivity|]. cbn. destruct (jget_key k j); cbn; auto. Qed.
Lemma follow_walk path j w : follow path j = Ok w -> Walk path j w.
Proof. destruct (follow_cases path j) as [(w' & E1 & WK)|[(E1 & _)|(E1 & _)]]; congruence. Qed.
Lemma follow_missing path j : Missing path j -> follow path j = Raise KeyError.
Proof.
  intros (front & k & back & fields & -> & WK & NF). rewrite follow_app, (walk_follow _ _ _ WK). cbn [bind follow].
  pose proof (get_key_cases k (JObj fields)) as [(before & v & after & -> & _ & _)|(_ & ->)]; [|reflexivity].
  destruct (NF v). apply in_or_app. right. left. reflexivity.
Qed.
Lemma follow_nameless path j : Nameless path j -> follow path j = Raise TypeError.
Proof.
  intros (front & k & back & w & -> & WK & NF). rewrite follow_app, (walk_follow _ _ _ WK). cbn [bind follow].
  pose proof (get_key_cases k w) as G. destruct w as [| | | | | |fs]; try (rewrite G; reflexivity). destruct (NF fs eq_refl).
Qed.
Lemma get_walk k j v p w : jget k j = Ok v -> Walk p v w -> Walk (str k :: p) j w.
Proof. rewrite jget_as_key. intros EV WK. apply follow_walk. cbn [follow]. rewrite EV. apply walk_follow. exact WK. Qed.
Lemma key_walk k j v p w : jget_key k j = Ok v -> Walk p v w -> Walk (k :: p) j w.
Proof. intros EV WK. apply follow_walk. cbn [follow]. rewrite EV. apply walk_follow. exact WK. Qed.

(** ** C97: provenance *)
Section Log.
Context {CR : Crypto} {E : Type} {OU : Outside E} (rounds : nat).
Local Instance LGA : Outside (E * Log) := logged.
Notation W := (Net (E * Log)).

(** With the module state g and at least the answers l0 so far, whatever m returns has Q in view of all answers. *)
Definition Told {A} (g : Globals) (l0 : Log) (m : IO W A) (Q : Log -> A -> Prop) : Prop :=
  forall s pre cur, n_globals s = g -> asked s = pre ++ cur -> incl l0 cur -> forall a s', m s = (Ok a, s') ->
    n_globals s' = g /\ exists l, asked s' = pre ++ l /\ incl cur l /\ Q l a.
Lemma told_bind {A B} g l0 (m : IO W A) (f : A -> IO W B) Q Q' : Told g l0 m Q ->
  (forall l a, incl l0 l -> Q l a -> Told g l (f a) Q') -> Told g l0 (ibind m f) Q'.
Proof.
  intros HM HF s pre cur EG EL IL b s' EB. unfold ibind in EB. destruct (m s) as [[a|x] s1] eqn:EM; [|discriminate].
  destruct (HM s pre cur EG EL IL a s1 EM) as (EG1 & l1 & EL1 & IL1 & HQ).
  destruct (HF l1 a (incl_tran IL IL1) HQ s1 pre l1 EG1 EL1 (incl_refl _) b s' EB) as (EG2 & l2 & EL2 & IL2 & HQ').
  split; [exact EG2|]. exists l2. eauto using incl_tran.
Qed.
Lemma told_weaken {A} g l0 (m : IO W A) (Q Q' : Log -> A -> Prop) : Told g l0 m Q -> (forall l a, incl l0 l -> Q l a -> Q' l a) -> Told g l0 m Q'.
Proof.
  intros HM HQ s pre cur EG EL IL a s' EM. destruct (HM s pre cur EG EL IL a s' EM) as (EG1 & l1 & EL1 & IL1 & HA).
  split; [exact EG1|]. exists l1. eauto using incl_tran.
Qed.
Lemma told_lift {A} g l0 (r : result A) : Told g l0 (ilift r) (fun _ a => r = Ok a).
Proof. intros s pre cur EG EL IL a s' EM. injection EM as -> <-. split; [exact EG|]. exists cur. auto using incl_refl. Qed.
Lemma told_ret {A} g l0 (a : A) (Q : Log -> A -> Prop) : (forall l, incl l0 l -> Q l a) -> Told g l0 (iret a) Q.
Proof. intros HQ s pre cur EG EL IL b s' EM. injection EM as <- <-. split; [exact EG|]. exists cur. auto using incl_refl. Qed.
Lemma told_raise {A} g l0 x (Q : Log -> A -> Prop) : Told g l0 (ilift (Raise x)) Q.
Proof. intros s pre cur EG EL IL b s' EM. discriminate EM. Qed.
Lemma told_globals g l0 : Told g l0 globals (fun _ g' => g' = g).
Proof. intros s pre cur EG EL IL a s' EM. injection EM as <- <-. split; [exact EG|]. exists cur. auto using incl_refl. Qed.
Lemma told_note g l0 url (m : IO E Response) : Told g l0 (outside (note url m)) (fun l r => Got l r).
Proof.
  intros s pre cur EG EL IL a s' EM. unfold outside, zoom, note in EM. destruct (m (fst (n_outside s))) as [r e'] eqn:ER. injection EM as -> <-.
  unfold asked in *. cbn. split; [exact EG|]. exists (cur ++ [(url, Ok a)]). rewrite EL, <- app_assoc. split; [reflexivity|].
  split; [apply incl_appl, incl_refl|]. exists url. apply in_or_app. right. left. reflexivity.
Qed.
Lemma told_get g l0 url ps : Told g l0 (http_get url ps) (fun l r => Got l r).
Proof. intros s pre cur EG EL IL a s' EM. exact (told_note g l0 url (o_get url ps (g_timeout (n_globals s))) s pre cur EG EL IL a s' EM). Qed.
Lemma seen_mono l l' j : incl l l' -> Seen l j -> Seen l' j.
Proof. intros IL (r & (url & I) & EJ). exists r. split; [exists url; auto|exact EJ]. Qed.
Lemma got_mono l l' r : incl l l' -> Got l r -> Got l' r.
Proof. intros IL (url & I). exists url. auto. Qed.
Lemma told_rpc g l0 url m args : Told g l0 (rpc url m args) (fun l v => exists j, Seen l j /\ Walk (names ["result"]%string) j v).
Proof.
  unfold rpc. eapply told_bind with (Q := fun l r => Got l r).
  - intros s pre cur EG EL IL a s' EM. unfold itry in EM. destruct (outside (o_rpc url (str m) args None) s) as [[b|x] s1] eqn:EO; [|destruct x; discriminate EM].
    injection EM as <- <-. exact (told_note g l0 url (o_rpc url (str m) args None) s pre cur EG EL IL b s1 EO).
  - intros l r IL GR. destruct (negb _); [apply told_raise|]. eapply told_weaken; [apply told_lift|]. intros l' v IL' EV.
    destruct (r_json r) as [j|] eqn:EJ; [|discriminate]. cbn [bind] in EV. exists j. split; [exists r; split; [eapply got_mono; eauto|exact EJ]|].
    destruct (jhas "error" j) as [h|]; [|discriminate]. cbn [bind] in EV.
    match type of EV with bind ?x _ = _ => destruct x as [b|]; [|discriminate] end. cbn [bind] in EV. destruct b; [discriminate|].
    eapply get_walk; [exact EV|constructor].
Qed.

Lemma mapM_each {A B} (f : A -> result B) l : forall bs, mapM f l = Ok bs -> Forall (fun b => exists a, In a l /\ f a = Ok b) bs.
Proof.
  induction l as [|a l IH]; intros bs EB; cbn [mapM] in EB; [injection EB as <-; constructor|].
  destruct (f a) as [b|] eqn:EA; [|discriminate]. cbn [bind] in EB. destruct (mapM f l) as [r|]; [|discriminate]. injection EB as <-.
  constructor; [exists a; split; [left; reflexivity|auto]|]. eapply Forall_impl; [|apply IH; reflexivity]. intros b' (a' & I & Qa). exists a'. split; [right; exact I|exact Qa].
Qed.
Lemma jstr_inv j t : jstr j = Ok t -> j = JStr t.
Proof. destruct j; cbn; congruence. Qed.
Lemma jint_inv j t : jint j = Ok t -> j = JInt t.
Proof. destruct j; cbn; congruence. Qed.
Lemma jlist_inv j t : jlist j = Ok t -> j = JList t.
Proof. destruct j; cbn; congruence. Qed.
Lemma falsy j : jtrue j = false <-> Falsy j.
Proof.
  unfold Falsy. split.
  - destruct j as [|[]|n|r d|s|l|fs]; cbn [jtrue]; try discriminate; intros H; cbn [In]; auto 10.
    + destruct n; try discriminate. auto 10.
    + destruct d as [neg [] e| |]; try discriminate. eauto.
    + destruct s; try discriminate. auto 10.
    + destruct l; try discriminate. auto 10.
    + destruct fs; try discriminate. auto 10.
  - intros [H|(r & neg & e & ->)]; [|reflexivity]. cbn [In] in H. repeat (destruct H as [<-|H]; [reflexivity|]). destruct H.
Qed.

(** Take apart a computation that went well. *)
Ltac got H :=
  repeat (let x := fresh "x" in let EX := fresh "EX" in
    match type of H with
    | bind ?r _ = Ok _ => destruct r as [x|] eqn:EX; [cbn [bind] in H|discriminate H]
    end);
  repeat match goal with
  | E1 : jstr _ = Ok _ |- _ => apply jstr_inv in E1; subst
  | E1 : jint _ = Ok _ |- _ => apply jint_inv in E1; subst
  | E1 : jlist _ = Ok _ |- _ => apply jlist_inv in E1; subst
  end.
Ltac walks := repeat first [eassumption | constructor | eapply get_walk; [eassumption|] | eapply key_walk; [eassumption|]].

Lemma forall_mono {A} (Q : Log -> A -> Prop) l l' xs : (forall l l' x, incl l l' -> Q l x -> Q l' x) -> incl l l' -> Forall (Q l) xs -> Forall (Q l') xs.
Proof. intros M IL F. eapply Forall_impl; [|exact F]. intros a. apply M. exact IL. Qed.
Lemma amount_mono g ad sv l l' u : incl l l' -> CoinSaid (E := E) g ad sv l u -> CoinSaid (E := E) g ad sv l' u.
Proof.
  intros IL (j & coins & x & v & HJ & HC & I & HT & HX & HV & HA & HS & HK & HR). exists j, coins, x, v.
  split; [eapply seen_mono; eauto|]. do 6 (split; [assumption|]). split.
  - destruct sv; auto. destruct HS as (j0 & S0 & W0). exists j0. eauto using seen_mono.
  - split; [|exact HR]. destruct sv; auto.
    + destruct HK as (j0 & h & b & S0 & HK). exists j0, h, b. eauto using seen_mono.
    + destruct HK as (c & WC & [HK|(NF & r & h & b & G0 & HK)]); exists c; split; auto. right. split; [exact NF|]. exists r, h, b. eauto using got_mono.
Qed.
Lemma txid_mono ad sv l l' t : incl l l' -> TxidSaid ad sv l t -> TxidSaid ad sv l' t.
Proof. intros IL (j & txs & HJ & H). exists j, txs. split; [eapply seen_mono; eauto|exact H]. Qed.

(** Blockchair *)
Lemma told_blockchair_pages {A} g k (items : json -> result (list A)) url ad (Q : Log -> A -> Prop) :
  (forall l l' x, incl l l' -> Q l x -> Q l' x) -> forall l0,
  (forall l j d new, incl l0 l -> Seen l j -> Walk [str "data"; ad] j d -> items d = Ok new -> Forall (Q l) new) ->
  forall offset j d acc, Seen l0 j -> Walk [str "data"; ad] j d -> Forall (Q l0) acc ->
  Told g l0 (@blockchair_pages _ LGA A k items url ad offset d acc) (fun l r => Forall (Q l) r).
Proof.
  intros M. induction k as [|k IH]; intros l0 HI offset j d acc SJ WD FA; cbn [blockchair_pages].
  - apply told_ret. intros l IL. eapply forall_mono; eauto.
  - eapply told_bind; [apply told_lift|]. cbv beta. intros l1 new I1 EN. eapply told_bind; [apply told_get|]. intros l2 r I2 GR.
    eapply told_bind; [apply told_lift|]. cbv beta. intros l3 [] I3 _. eapply told_bind; [apply told_lift|]. cbv beta. intros l4 d' I4 ED.
    got ED. assert (I04 : incl l0 l4) by (eauto using incl_tran).
    apply IH with (j := x).
    + intros l j' d2 new' IL. apply HI. eauto using incl_tran.
    + exists r. split; [|exact EX]. eapply got_mono; [|exact GR]. eauto using incl_tran.
    + walks.
    + apply Forall_app. split; [eapply forall_mono; eauto|]. apply (HI l4 j d new); auto. eapply seen_mono; eauto.
Qed.
Lemma said_blockchair_coins g n ad l0 : Told g l0 (blockchair_unspent n ad) (fun l r => forall us, r = Some us -> Forall (CoinSaid (E := E) g ad Blockchair l) us).
Proof.
  unfold blockchair_unspent. eapply told_bind; [apply told_get|]. intros l1 r I1 GR. destruct (r_status r =? 404); [apply told_ret; discriminate|].
  eapply told_bind; [apply told_lift|]. cbv beta. intros l2 [] I2 _. eapply told_bind; [apply told_lift|]. cbv beta.
  intros l3 [[[d h] sc] t] I3 EQ. got EQ. injection EQ as <- <- <- <-.
  assert (SJ : Seen l3 x) by (exists r; split; [eapply got_mono; [|exact GR]; eauto using incl_tran|exact EX]).
  eapply told_bind with (Q := fun l us => Forall (CoinSaid (E := E) g ad Blockchair l) us).
  - eapply told_blockchair_pages with (j := x); [intros; eapply amount_mono; eauto| |exact SJ|walks|constructor].
    intros l j dd new IL SJ' WD EN. got EN. eapply Forall_impl; [|exact (mapM_each _ _ _ EN)].
    intros u (c & IC & EU). unfold blockchair_utxo in EU. got EU. injection EU as <-.
    eexists j, _, c, _. split; [exact SJ'|]. split; [|split; [exact IC|]].
    + cbn [coin_list]. apply follow_walk. change ([str "data"; ad; str "utxo"]) with ([str "data"; ad] ++ [str "utxo"]).
      rewrite follow_app, (walk_follow _ _ _ WD). cbn [bind follow]. rewrite <- jget_as_key. match goal with H : jget "utxo" _ = Ok _ |- _ => rewrite H end. reflexivity.
    + cbn [txid_field index_field amount_field names map u_txid u_txindex u_amount u_script u_confirmations plain_unspent new_unspent].
      split; [walks|]. split; [walks|]. split; [walks|]. split; [reflexivity|]. split; [exists x; split; [eapply seen_mono; eauto|walks]|].
      split; [|auto]. exists x. do 2 eexists. split; [eapply seen_mono; eauto|]. split; [walks|]. split; [walks|].
      match goal with |- context [?b =? -1] => destruct (b =? -1); reflexivity end.
  - intros l us IL F. apply told_ret. intros l' IL' us' EU. injection EU as <-. eapply forall_mono; [|exact IL'|exact F]. intros; eapply amount_mono; eauto.
Qed.
Lemma said_blockchair_txids g n ad l0 : Told g l0 (blockchair_transactions n ad) (fun l r => Forall (TxidSaid ad Blockchair l) r).
Proof.
  unfold blockchair_transactions. eapply told_bind; [apply told_get|]. intros l1 r I1 GR. destruct (r_status r =? 404); [apply told_ret; constructor|].
  eapply told_bind; [apply told_lift|]. cbv beta. intros l2 [] I2 _. eapply told_bind; [apply told_lift|]. cbv beta.
  intros l3 [d t] I3 EQ. got EQ. injection EQ as <- <-.
  assert (SJ : Seen l3 x) by (exists r; split; [eapply got_mono; [|exact GR]; eauto using incl_tran|exact EX]).
  eapply told_blockchair_pages with (j := x); [intros; eapply txid_mono; eauto| |exact SJ|walks|constructor].
  intros l j dd new IL SJ' WD EN. got EN. eapply Forall_impl; [|exact (mapM_each _ _ _ EN)].
  intros t (c & IC & EU). apply jstr_inv in EU. subst c. eexists j, _. split; [exact SJ'|]. split; [|exact IC].
  apply follow_walk. change ([str "data"; ad; str "transactions"]) with ([str "data"; ad] ++ [str "transactions"]).
  rewrite follow_app, (walk_follow _ _ _ WD). cbn [bind follow]. rewrite <- jget_as_key. match goal with H : jget "transactions" _ = Ok _ |- _ => rewrite H end. reflexivity.
Qed.
Lemma said_blockchair_raw g n txid l0 : Told g l0 (blockchair_by_id n txid) (fun l r => forall raw, r = Some raw -> RawSaid txid Blockchair l raw).
Proof.
  unfold blockchair_by_id. eapply told_bind; [apply told_get|]. intros l1 r I1 GR. destruct (r_status r =? 404); [apply told_ret; discriminate|].
  eapply told_bind; [apply told_lift|]. cbv beta. intros l2 [] I2 _. eapply told_weaken; [apply told_lift|]. cbv beta.
  intros l3 o I3 EQ raw ->. got EQ. destruct (negb (jtrue x0)); [discriminate|]. got EQ. destruct x2; cbn in EQ; try discriminate. injection EQ as ->.
  exists r. split; [eapply got_mono; [|exact GR]; eauto using incl_tran|]. exists x. split; [exact EX|]. walks.
Qed.

(** Blockstream *)
Lemma txids_each j ids : txids_of j = Ok ids -> exists txs, j = JList txs /\
  Forall (fun t => exists x, In x txs /\ Walk (names ["txid"]%string) x (JStr t)) ids.
Proof.
  unfold txids_of. intros H. got H. exists x. split; [reflexivity|]. eapply Forall_impl; [|exact (mapM_each _ _ _ H)].
  intros t (c & IC & EU). got EU. exists c. split; [exact IC|]. cbn [names map]. walks.
Qed.
Lemma said_blockstream_page l r j ids ad : Got l r -> r_json r = Ok j -> txids_of j = Ok ids -> Forall (TxidSaid ad Blockstream l) ids.
Proof.
  intros GR EJ EI. destruct (txids_each _ _ EI) as (txs & -> & F). eapply Forall_impl; [|exact F]. intros t (x & I & WX).
  exists (JList txs), txs. split; [exists r; auto|]. eauto.
Qed.
Lemma told_blockstream_pages g n ad k : forall l0 r j acc, Got l0 r -> r_json r = Ok j -> Forall (TxidSaid ad Blockstream l0) acc ->
  Told g l0 (blockstream_pages k n ad j acc) (fun l ids => Forall (TxidSaid ad Blockstream l) ids).
Proof.
  induction k as [|k IH]; intros l0 r j acc GR EJ FA; cbn [blockstream_pages]; [apply told_raise|].
  eapply told_bind; [apply told_lift|]. cbv beta. intros l1 items I1 EI. destruct items as [|x items].
  - apply told_ret. intros l IL. eapply forall_mono; [intros; eapply txid_mono; eauto| |exact FA]. eauto using incl_tran.
  - eapply told_bind; [apply told_lift|]. cbv beta. intros l2 new I2 EN. eapply told_bind; [apply told_get|]. intros l3 r' I3 GR'.
    eapply told_bind; [apply told_lift|]. cbv beta. intros l4 j' I4 EJ'. assert (I04 : incl l0 l4) by (eauto 6 using incl_tran).
    apply IH with (r := r'); [eapply got_mono; [|exact GR']; eauto using incl_tran|exact EJ'|]. apply Forall_app. split.
    + eapply forall_mono; [intros; eapply txid_mono; eauto|exact I04|exact FA].
    + eapply said_blockstream_page; [eapply got_mono; [exact I04|exact GR]|exact EJ|exact EN].
Qed.
Lemma said_blockstream_txids g n ad l0 : Told g l0 (blockstream_transactions rounds n ad) (fun l r => Forall (TxidSaid ad Blockstream l) r).
Proof.
  unfold blockstream_transactions. cbv zeta.
  assert (C : forall l1, incl l0 l1 -> Told g l1 (
    r <~ http_get (blockstream_address n ad ++ str "/txs/chain/") [] ;;
    if r_status r =? 400 then iret None
    else _ <~ ilift (ok_status r) ;; response <~ ilift (r_json r) ;; l <~ blockstream_pages rounds n ad response [] ;; iret (Some l))
    (fun l o => forall ids, o = Some ids -> Forall (TxidSaid ad Blockstream l) ids)).
  { intros l1 I1. eapply told_bind; [apply told_get|]. intros l2 r I2 GR. destruct (r_status r =? 400); [apply told_ret; discriminate|].
    eapply told_bind; [apply told_lift|]. cbv beta. intros l3 [] I3 _. eapply told_bind; [apply told_lift|]. cbv beta. intros l4 j I4 EJ.
    eapply told_bind; [eapply told_blockstream_pages; [eapply got_mono; [|exact GR]; eauto using incl_tran|exact EJ|constructor]|].
    cbv beta. intros l5 ids I5 F. apply told_ret. intros l6 I6 ids' EI. injection EI as <-. eapply forall_mono; [intros; eapply txid_mono; eauto|exact I6|exact F]. }
  destruct n.
  - eapply told_bind; [apply told_get|]. intros l1 r I1 GR. destruct (r_status r =? 400); [apply told_ret; constructor|].
    eapply told_bind; [apply told_lift|]. cbv beta. intros l2 [] I2 _. eapply told_bind; [apply told_lift|]. cbv beta. intros l3 un I3 EU. got EU.
    destruct (zlen un =? 50); [apply told_raise|]. assert (I03 : incl l0 l3) by (eauto using incl_tran).
    eapply told_bind; [apply C; exact I03|]. cbv beta. intros l4 o I4 HO. apply told_ret. intros l5 I5. destruct o as [ids|]; [|constructor].
    apply Forall_app. split; [eapply forall_mono; [intros; eapply txid_mono; eauto|exact I5|apply HO; reflexivity]|].
    eapply said_blockstream_page; [eapply got_mono; [|exact GR]; eauto 6 using incl_tran|exact EX|exact EU].
  - eapply told_bind; [apply C; apply incl_refl|]. cbv beta. intros l4 o I4 HO. apply told_ret. intros l5 I5. destruct o as [ids|]; [|constructor].
    eapply forall_mono; [intros; eapply txid_mono; eauto|exact I5|apply HO; reflexivity].
Qed.
Lemma said_blockstream_raw g n txid l0 : Told g l0 (blockstream_by_id n txid) (fun l r => forall raw, r = Some raw -> RawSaid txid Blockstream l raw).
Proof.
  unfold blockstream_by_id. eapply told_bind; [apply told_get|]. intros l1 r I1 GR. destruct (r_status r =? 404); [apply told_ret; discriminate|].
  eapply told_bind; [apply told_lift|]. cbv beta. intros l2 [] I2 _. apply told_ret. intros l3 I3 raw EQ. injection EQ as <-.
  exists r. split; [eapply got_mono; [|exact GR]; eauto using incl_tran|reflexivity].
Qed.
Lemma insert_conf_in u v l : In v (insert_conf u l) -> v = u \/ In v l.
Proof.
  induction l as [|w l IH]; cbn [insert_conf]; [intros [<-|[]]; auto|]. destruct (_ <=? _); cbn [In]; [intuition|]. intros [<-|I]; [auto|]. destruct (IH I); auto.
Qed.
Lemma sort_conf_in v l : In v (sort_conf l) -> In v l.
Proof. unfold sort_conf. induction l as [|w l IH]; cbn [fold_right]; [auto|]. intros I. apply insert_conf_in in I as [->|I]; cbn; auto. Qed.
Lemma said_blockstream_coins g n ad l0 : Told g l0 (blockstream_unspent n ad) (fun l us => Forall (CoinSaid (E := E) g ad Blockstream l) us).
Proof.
  unfold blockstream_unspent. cbv zeta. eapply told_bind; [apply told_get|]. intros l1 b I1 GB.
  eapply told_bind; [apply told_lift|]. cbv beta. intros l2 [] I2 _. eapply told_bind; [apply told_lift|]. cbv beta. intros l3 h I3 EH.
  eapply told_bind; [apply told_get|]. intros l4 r I4 GR.
  assert (C : Told g l4 (_ <~ ilift (ok_status r) ;;
    ilift (o <- address_to_scriptpubkey ad ;;
           script <- (match o with Some b => Ok (bytes_to_hex b) | None => Raise AttributeError end) ;;
           j <- r_json r ;; l <- jlist j ;; us <- mapM (blockstream_utxo h script) l ;;
           Ok (match n with Main => sort_conf us | Test => us end))) (fun l us => Forall (CoinSaid (E := E) g ad Blockstream l) us)).
  { eapply told_bind; [apply told_lift|]. cbv beta. intros l5 [] I5 _. eapply told_weaken; [apply told_lift|]. cbv beta. intros l6 us I6 EU. got EU. injection EU as <-.
    destruct x as [sc|]; [|discriminate]. injection EX0 as <-.
    assert (F : Forall (CoinSaid (E := E) g ad Blockstream l6) x3).
    { eapply Forall_impl; [|exact (mapM_each _ _ _ EX3)]. intros u (c & IC & EU). unfold blockstream_utxo in EU. got EU. injection EU as <-.
      eexists _, _, c, _. split; [exists r; split; [eapply got_mono; [|exact GR]; eauto using incl_tran|exact EX1]|]. split; [constructor|]. split; [exact IC|].
      cbn [txid_field index_field amount_field names map u_txid u_txindex u_amount u_script u_confirmations plain_unspent new_unspent].
      split; [walks|]. split; [walks|]. split; [walks|]. split; [reflexivity|]. split; [exists sc; auto|]. split; [|auto].
      eexists. split; [walks|]. cbn [u_confirmations].
      match goal with H : (if jtrue ?c then _ else _) = Ok _ |- _ => destruct (jtrue c) eqn:ET; [got H; injection H as <-|injection H as <-; left; split; [apply falsy; exact ET|reflexivity]] end.
      right. split; [rewrite <- falsy; congruence|]. exists b, h. eexists. split; [eapply got_mono; [|exact GB]; eauto 6 using incl_tran|]. split; [exact (proj1 (P_numeral.reads_int _ _) EH)|].
      split; [walks|reflexivity]. }
    destruct n; [|exact F]. rewrite Forall_forall in F |- *. intros u I. apply F, sort_conf_in, I. }
  destruct n; [destruct (_ && _); [apply told_raise|exact C]|destruct (_ =? 400); [apply told_ret; constructor|exact C]].
Qed.

Lemma satoshi_said g v amount : unit_to_satoshi (g_prec g) v SATOSHI = Ok amount ->
  forall e : E, currency_to_satoshi (jtext v) (str "satoshi") (mkNet g e) = (Ok amount, mkNet g e).
Proof.
  intros H e. unfold currency_to_satoshi, ibind. change (exchange_rate (str "satoshi") (mkNet g e)) with (@Ok Z SATOSHI, mkNet g e). cbv beta iota.
  unfold ilift, globals, ibind, iget. cbn [n_globals iret]. rewrite <- H. reflexivity.
Qed.
Lemma btc_said g v amount : unit_to_satoshi (g_prec g) v BTC = Ok amount ->
  forall e : E, currency_to_satoshi (jtext v) (str "btc") (mkNet g e) = (Ok amount, mkNet g e).
Proof.
  intros H e. unfold currency_to_satoshi, ibind. change (exchange_rate (str "btc") (mkNet g e)) with (@Ok Z BTC, mkNet g e). cbv beta iota.
  unfold ilift, globals, ibind, iget. cbn [n_globals iret]. rewrite <- H. reflexivity.
Qed.
(** What a service says of its coins with the coin. *)
Ltac coin :=
  cbn [txid_field index_field amount_field script_field names map u_txid u_txindex u_amount u_script u_confirmations plain_unspent new_unspent];
  split; [walks|]; split; [walks|]; split; [walks|]; split; [cbn [AmountSaid]; first [reflexivity | apply satoshi_said; eassumption | apply btc_said; eassumption]|];
  split; [cbn [ScriptSaid script_field names map]; walks|]; split; [cbn [ConfirmationsSaid names map]; walks|auto].

(** Bitcore *)
Lemma told_bitcore_pages g url ad k : forall l0 r j acc, Got l0 r -> r_json r = Ok j -> Forall (CoinSaid (E := E) g ad Bitcore l0) acc ->
  Told g l0 (bitcore_pages k url j acc) (fun l us => Forall (CoinSaid (E := E) g ad Bitcore l) us).
Proof.
  induction k as [|k IH]; intros l0 r j acc GR EJ FA; cbn [bitcore_pages]; [apply told_raise|].
  eapply told_bind; [apply told_lift|]. cbv beta. intros l1 items I1 EI. apply jlist_inv in EI. subst j. destruct items as [|x items].
  - apply told_ret. intros l IL. eapply forall_mono; [intros; eapply amount_mono; eauto| |exact FA]. eauto using incl_tran.
  - eapply told_bind; [apply told_globals|]. cbv beta. intros l2 g' I2 ->. eapply told_bind; [apply told_lift|]. cbv beta. intros l3 new I3 EN.
    eapply told_bind; [apply told_lift|]. cbv beta. intros l4 id I4 _. eapply told_bind; [apply told_get|]. intros l5 r' I5 GR'.
    eapply told_bind; [apply told_lift|]. cbv beta. intros l6 j' I6 EJ'. assert (I06 : incl l0 l6) by (eauto 8 using incl_tran).
    apply IH with (r := r'); [eapply got_mono; [|exact GR']; eauto using incl_tran|exact EJ'|]. apply Forall_app. split.
    + eapply forall_mono; [intros; eapply amount_mono; eauto|exact I06|exact FA].
    + eapply Forall_impl; [|exact (mapM_each _ _ _ EN)]. intros u (c & IC & EU). unfold bitcore_utxo in EU. got EU. injection EU as <-.
      eexists _, _, c, _. split; [exists r; split; [eapply got_mono; [exact I06|exact GR]|exact EJ]|]. split; [constructor|]. split; [exact IC|]. coin.
Qed.
Lemma said_bitcore_coins g n ad l0 : Told g l0 (bitcore_unspent rounds n ad) (fun l us => Forall (CoinSaid (E := E) g ad Bitcore l) us).
Proof.
  unfold bitcore_unspent. cbv zeta. eapply told_bind; [apply told_get|]. intros l1 r I1 GR.
  eapply told_bind; [apply told_lift|]. cbv beta. intros l2 [] I2 _. eapply told_bind; [apply told_lift|]. cbv beta. intros l3 j I3 EJ.
  eapply told_bitcore_pages; [eapply got_mono; [|exact GR]; eauto using incl_tran|exact EJ|constructor].
Qed.

(** Smartbit *)
Lemma told_smartbit_pages {A} g k (page : json -> result (list A * json)) ps (Q : Log -> A -> Prop) :
  (forall l l' x, incl l l' -> Q l x -> Q l' x) ->
  (forall l r j new next, Got l r -> r_json r = Ok j -> page j = Ok (new, next) -> Forall (Q l) new) -> forall l0 next acc, Forall (Q l0) acc ->
  Told g l0 (@smartbit_pages _ LGA A k page ps next acc) (fun l r => Forall (Q l) r).
Proof.
  intros M HP. induction k as [|k IH]; intros l0 next acc FA; cbn [smartbit_pages]; [apply told_raise|].
  destruct (negb _); [apply told_ret; intros l IL; eapply forall_mono; eauto|].
  eapply told_bind; [apply told_lift|]. cbv beta. intros l1 url I1 _. eapply told_bind; [apply told_get|]. intros l2 r I2 GR.
  eapply told_bind; [apply told_lift|]. cbv beta. intros l3 [] I3 _. eapply told_bind; [apply told_lift|]. cbv beta. intros l4 [new next'] I4 EQ. got EQ.
  apply IH. apply Forall_app. split; [eapply forall_mono; [exact M| |exact FA]; eauto 6 using incl_tran|].
  eapply HP; [eapply got_mono; [|exact GR]; eauto using incl_tran|exact EX|exact EQ].
Qed.
Lemma said_smartbit_page l ad r j ids next : Got l r -> r_json r = Ok j -> smartbit_txs j = Ok (ids, next) -> Forall (TxidSaid ad Smartbit l) ids.
Proof.
  intros GR EJ EQ. unfold smartbit_txs in EQ. got EQ. injection EQ as <- <-. destruct (txids_each _ _ EX1) as (txs & -> & F).
  eapply Forall_impl; [|exact F]. intros t (c & I & WX). exists j, txs. split; [exists r; auto|]. split; [cbn [names map]; walks|eauto].
Qed.
Lemma said_smartbit_txids g n ad l0 : Told g l0 (smartbit_transactions rounds n ad) (fun l r => Forall (TxidSaid ad Smartbit l) r).
Proof.
  unfold smartbit_transactions. eapply told_bind; [apply told_get|]. intros l1 r I1 GR. eapply told_bind; [apply told_lift|]. cbv beta. intros l2 [] I2 _.
  eapply told_bind; [apply told_lift|]. cbv beta. intros l3 [first next] I3 EQ. got EQ.
  apply told_smartbit_pages; [intros; eapply txid_mono; eauto|intros; eapply said_smartbit_page; eauto|].
  destruct x1; [|injection EQ as <- <-; constructor]. eapply said_smartbit_page; [eapply got_mono; [|exact GR]; eauto using incl_tran|exact EX|exact EQ].
Qed.
Lemma said_smartbit_raw g n txid l0 : Told g l0 (smartbit_by_id n txid) (fun l r => forall raw, r = Some raw -> RawSaid txid Smartbit l raw).
Proof.
  unfold smartbit_by_id. eapply told_bind; [apply told_get|]. intros l1 r I1 GR. destruct (r_status r =? 400); [apply told_ret; discriminate|].
  eapply told_bind; [apply told_lift|]. cbv beta. intros l2 [] I2 _. eapply told_weaken; [apply told_lift|]. cbv beta.
  intros l3 o I3 EQ raw ->. got EQ. destruct x3; cbn in EQ; try discriminate. injection EQ as ->.
  exists r. split; [eapply got_mono; [|exact GR]; eauto using incl_tran|]. destruct x1 as [|c rest]; [discriminate|].
  assert (c = x2) by (cbn in EX2; congruence). subst c. exists x, x2, rest. split; [exact EX|]. split; cbn [names map]; walks.
Qed.
Lemma said_smartbit_utxos g l ad r j us next : Got l r -> r_json r = Ok j -> smartbit_utxos (g_prec g) j = Ok (us, next) -> Forall (CoinSaid (E := E) g ad Smartbit l) us.
Proof.
  intros GR EJ EQ. unfold smartbit_utxos in EQ. got EQ. injection EQ as <- <-.
  eapply Forall_impl; [|match goal with H : mapM _ _ = Ok _ |- _ => exact (mapM_each _ _ _ H) end]. intros u (c & IC & EU). unfold smartbit_utxo in EU. got EU. injection EU as <-.
  eexists _, _, c, _. split; [exists r; split; [exact GR|exact EJ]|]. split; [cbn [coin_list names map]; walks|]. split; [exact IC|]. coin.
Qed.
Lemma said_smartbit_coins g n ad l0 : Told g l0 (smartbit_unspent rounds n ad) (fun l r => Forall (CoinSaid (E := E) g ad Smartbit l) r).
Proof.
  unfold smartbit_unspent. eapply told_bind; [apply told_get|]. intros l1 r I1 GR. eapply told_bind; [apply told_lift|]. cbv beta. intros l2 [] I2 _.
  eapply told_bind; [apply told_globals|]. cbv beta. intros l3 g' I3 ->. eapply told_bind; [apply told_lift|]. cbv beta. intros l4 [first next] I4 EQ. got EQ.
  apply told_smartbit_pages; [intros; eapply amount_mono; eauto|intros; eapply said_smartbit_utxos; eauto|].
  destruct x0; [|injection EQ as <- <-; constructor]. eapply said_smartbit_utxos; [eapply got_mono; [|exact GR]; eauto using incl_tran|exact EX|exact EQ].
Qed.

(** blockchain.info *)
Lemma told_blockchain_pages g url ad k : forall l0 offset r j acc, Got l0 r -> r_json r = Ok j -> Forall (TxidSaid ad BlockchainInfo l0) acc ->
  Told g l0 (blockchain_pages k url offset j acc) (fun l ids => Forall (TxidSaid ad BlockchainInfo l) ids).
Proof.
  induction k as [|k IH]; intros l0 offset r j acc GR EJ FA; cbn [blockchain_pages].
  - apply told_ret. intros l IL. eapply forall_mono; [intros; eapply txid_mono; eauto|exact IL|exact FA].
  - eapply told_bind; [apply told_lift|]. cbv beta. intros l1 new I1 EN. eapply told_bind; [apply told_get|]. intros l2 r' I2 GR'.
    eapply told_bind; [apply told_lift|]. cbv beta. intros l3 j' I3 EJ'. assert (I03 : incl l0 l3) by (eauto 6 using incl_tran).
    apply IH with (r := r'); [eapply got_mono; [|exact GR']; eauto using incl_tran|exact EJ'|]. apply Forall_app. split.
    + eapply forall_mono; [intros; eapply txid_mono; eauto|exact I03|exact FA].
    + got EN. eapply Forall_impl; [|exact (mapM_each _ _ _ EN)]. intros t (c & IC & EU). got EU.
      eexists j, _. split; [exists r; split; [eapply got_mono; [exact I03|exact GR]|exact EJ]|]. split; [cbn [names map]; walks|].
      exists c. split; [exact IC|]. cbn [names map]. walks.
Qed.
Lemma said_blockchain_txids g ad l0 : Told g l0 (blockchain_transactions ad) (fun l r => Forall (TxidSaid ad BlockchainInfo l) r).
Proof.
  unfold blockchain_transactions. eapply told_bind; [apply told_get|]. intros l1 r I1 GR. eapply told_bind; [apply told_lift|]. cbv beta. intros l2 [] I2 _.
  eapply told_bind; [apply told_lift|]. cbv beta. intros l3 [j t] I3 EQ. got EQ. injection EQ as <- <-.
  eapply told_blockchain_pages; [eapply got_mono; [|exact GR]; eauto using incl_tran|exact EX|constructor].
Qed.
Lemma said_blockchain_raw g txid l0 : Told g l0 (blockchain_by_id txid) (fun l r => forall raw, r = Some raw -> RawSaid txid BlockchainInfo l raw).
Proof.
  unfold blockchain_by_id. eapply told_bind; [apply told_get|]. intros l1 r I1 GR. destruct (_ && _); [apply told_ret; discriminate|].
  eapply told_bind; [apply told_lift|]. cbv beta. intros l2 [] I2 _. apply told_ret. intros l3 I3 raw EQ. injection EQ as <-.
  exists r. split; [eapply got_mono; [|exact GR]; eauto using incl_tran|reflexivity].
Qed.
Lemma said_blockchain_coins g ad l0 : Told g l0 (blockchain_unspent ad) (fun l r => Forall (CoinSaid (E := E) g ad BlockchainInfo l) r).
Proof.
  unfold blockchain_unspent. eapply told_bind; [apply told_get|]. intros l1 r I1 GR. destruct (_ =? 500); [apply told_ret; constructor|].
  eapply told_bind; [apply told_lift|]. cbv beta. intros l2 [] I2 _. eapply told_bind; [apply told_lift|]. cbv beta. intros l3 us I3 EQ. got EQ.
  destruct (_ =? 1000); [apply told_raise|]. apply told_ret. intros l4 I4. apply Forall_rev.
  eapply Forall_impl; [|exact (mapM_each _ _ _ EQ)]. intros u (c & IC & EU). unfold blockchain_utxo in EU. got EU. injection EU as <-.
  eexists _, _, c, _. split; [exists r; split; [eapply got_mono; [|exact GR]; eauto using incl_tran|exact EX]|].
  split; [cbn [coin_list names map]; walks|]. split; [exact IC|]. coin.
Qed.

(** A node *)
Lemma said_node_txids g url ad l0 : Told g l0 (node_transactions url ad) (fun l r => Forall (TxidSaid ad (Node url) l) r).
Proof.
  unfold node_transactions. eapply told_bind; [apply told_rpc|]. intros l1 v I1 (j & SJ & WJ). eapply told_weaken; [apply told_lift|]. cbv beta.
  intros l2 ids I2 EQ. destruct v as [| | | | |items|]; try discriminate. cbn [jlist bind] in EQ. destruct items as [|x rest]; [injection EQ as <-; constructor|]. got EQ.
  eapply Forall_impl; [|exact (mapM_each _ _ _ EQ)]. intros t (c & IC & EU). apply jstr_inv in EU. subst c.
  eexists j, _. split; [eapply seen_mono; [exact I2|exact SJ]|]. exists x, rest. split; [exact WJ|]. split; [cbn [names map]; walks|exact IC].
Qed.
Lemma said_node_raw g url txid l0 : Told g l0 (node_by_id url txid) (fun l r => forall raw, r = Some raw -> RawSaid txid (Node url) l raw).
Proof.
  unfold node_by_id. eapply told_bind; [apply told_rpc|]. intros l1 v I1 (j & (r & GR & EJ) & WJ). eapply told_weaken; [apply told_lift|]. cbv beta.
  intros l2 o I2 EQ raw ->. assert (EV : v = JStr raw) by (destruct v; cbn in EQ; congruence). subst v.
  exists r. split; [eapply got_mono; [exact I2|exact GR]|]. exists j. auto.
Qed.
Lemma said_node_coins g url ad l0 : Told g l0 (node_unspent url ad) (fun l r => Forall (CoinSaid (E := E) g ad (Node url) l) r).
Proof.
  unfold node_unspent. eapply told_bind; [apply told_rpc|]. intros l1 v I1 (j & SJ & WJ). eapply told_bind; [apply told_globals|]. cbv beta. intros l2 g' I2 ->.
  eapply told_weaken; [apply told_lift|]. cbv beta. intros l3 us I3 EQ. got EQ.
  eapply Forall_impl; [|exact (mapM_each _ _ _ EQ)]. intros u (c & IC & EU). unfold node_utxo in EU. got EU. injection EU as <-.
  eexists j, _, c, _. split; [eapply seen_mono; [|exact SJ]; eauto using incl_tran|]. split; [exact WJ|]. split; [exact IC|]. coin.
Qed.

Lemma said_coins g n ad sv l0 : Told g l0 (call_unspent rounds n ad sv) (fun l r => forall us, r = Some us -> Forall (CoinSaid (E := E) g ad sv l) us).
Proof.
  assert (S1 : forall m : IO W (list Unspent), Told g l0 m (fun l us => Forall (CoinSaid (E := E) g ad sv l) us) ->
    Told g l0 (l <~ m ;; iret (Some l)) (fun l r => forall us, r = Some us -> Forall (CoinSaid (E := E) g ad sv l) us)).
  { intros m HM. eapply told_bind; [exact HM|]. cbv beta. intros l us IL F. apply told_ret. intros l' IL' us' EU. injection EU as <-.
    eapply forall_mono; [intros; eapply amount_mono; eauto|exact IL'|exact F]. }
  destruct sv as [| | | | |url]; cbn [call_unspent].
  - apply said_blockchair_coins.
  - apply S1, said_blockstream_coins.
  - apply S1, said_bitcore_coins.
  - apply S1, said_smartbit_coins.
  - destruct n; [apply S1, said_blockchain_coins|apply told_raise].
  - apply S1, said_node_coins.
Qed.
Lemma said_txids g n ad sv l0 : Told g l0 (call_transactions rounds n ad sv) (fun l r => Forall (TxidSaid ad sv l) r).
Proof.
  destruct sv as [| | | | |url]; cbn [call_transactions].
  - apply said_blockchair_txids.
  - apply said_blockstream_txids.
  - apply told_raise.
  - apply said_smartbit_txids.
  - destruct n; [apply said_blockchain_txids|apply told_raise].
  - apply said_node_txids.
Qed.
Lemma said_raw g n txid sv l0 : Told g l0 (call_by_id n txid sv) (fun l r => forall raw, r = Some raw -> RawSaid txid sv l raw).
Proof.
  destruct sv as [| | | | |url]; cbn [call_by_id].
  - apply said_blockchair_raw.
  - apply said_blockstream_raw.
  - apply told_raise.
  - apply said_smartbit_raw.
  - destruct n; [apply said_blockchain_raw|apply told_raise].
  - apply said_node_raw.
Qed.

(** The service that answers, after those that could not be used. *)
Lemma told_first {A} (ask : service -> IO W A) (Q : service -> Log -> A -> Prop) l s a s' :
  (forall sv, Frame (ask sv)) -> (forall sv, exists P, Quiet P (ask sv)) -> (forall sv, Told (n_globals s) [] (ask sv) (Q sv)) ->
  Answer ask l s (Ok a) s' -> exists sv earlier new, In sv l /\ asked s' = asked s ++ earlier ++ new /\ Q sv new a.
Proof.
  intros HF HQ HT AN. inversion AN as [pre sv post s1 res s2 EL NW EC NU|]; subst.
  assert (NWL : forall svs s0 s1, NoneWorks ask svs s0 s1 -> n_globals s1 = n_globals s0 /\ exists earlier, asked s1 = asked s0 ++ earlier).
  { clear -HF HQ. intros svs s0 s1 NW. induction NW as [s|sv l s s1 s2 e EA U _ (IG & earlier & IH)]; [split; [reflexivity|]; exists []; rewrite app_nil_r; reflexivity|].
    destruct (HQ sv) as (P & HP). destruct (HP None s) as (l1 & E1 & _). pose proof (HF sv s) as FG. rewrite EA in E1, FG. cbn [snd] in E1, FG.
    split; [congruence|]. exists (l1 ++ earlier). rewrite IH, E1, app_assoc. reflexivity. }
  destruct (NWL _ _ _ NW) as (EG & earlier & EE).
  destruct (HT sv s1 (asked s1) [] EG ltac:(rewrite app_nil_r; reflexivity) (incl_refl _) a s' EC) as (_ & new & EN & _ & HA).
  exists sv, earlier, new. split; [apply in_or_app; right; left; reflexivity|]. split; [|exact HA]. rewrite EN, EE, app_assoc. reflexivity.
Qed.

Theorem C97_coins ops t1 t2 e n address us s' : let s := run rounds ops (start t1 t2 e) in
  get_unspent rounds n address s = (Ok (Some us), s') ->
  exists sv earlier new, In sv (unspent_services n ops) /\ asked s' = asked s ++ earlier ++ new /\
    Forall (CoinSaid (E := E) (n_globals s) address sv new) us.
Proof.
  cbv zeta. intros H. apply C59_unspent in H.
  destruct (told_first _ (fun sv l r => forall us, r = Some us -> Forall (CoinSaid (E := E) (n_globals (run rounds ops (start t1 t2 e))) address sv l) us) _ _ _ _
    (Frame_call_unspent rounds n address) (fun sv => ex_intro (fun P => Quiet P _) _ (quiet_call_unspent rounds n address sv)) (fun sv => said_coins _ n address sv []) H)
    as (sv & earlier & new & I & EN & F). exists sv, earlier, new. auto.
Qed.
Theorem C97_history ops t1 t2 e n address ids s' : let s := run rounds ops (start t1 t2 e) in
  M_services.get_transactions rounds n address s = (Ok ids, s') ->
  exists sv earlier new, In sv (history_services n ops) /\ asked s' = asked s ++ earlier ++ new /\ Forall (TxidSaid address sv new) ids.
Proof.
  cbv zeta. intros H. apply C59_transactions in H.
  exact (told_first _ (fun sv l r => Forall (TxidSaid address sv l) r) _ _ _ _
    (Frame_call_transactions rounds n address) (fun sv => ex_intro (fun P => Quiet P _) _ (quiet_call_transactions rounds n address sv)) (fun sv => said_txids _ n address sv []) H).
Qed.
Theorem C97_by_id ops t1 t2 e n txid raw s' : let s := run rounds ops (start t1 t2 e) in
  get_transaction_by_id n txid s = (Ok (Some raw), s') ->
  exists sv earlier new, In sv (history_services n ops) /\ asked s' = asked s ++ earlier ++ new /\ RawSaid txid sv new raw.
Proof.
  cbv zeta. intros H. apply C59_by_id in H.
  destruct (told_first _ (fun sv l r => forall raw, r = Some raw -> RawSaid txid sv l raw) _ _ _ _
    (Frame_call_by_id n txid) (fun sv => ex_intro (fun P => Quiet P _) _ (quiet_call_by_id n txid sv)) (fun sv => said_raw _ n txid sv []) H)
    as (sv & earlier & new & I & EN & F). exists sv, earlier, new. auto.
Qed.
End Log.

(** ** Balances *)
Section Balance.
Context {CR : Crypto} {E : Type} {OU : Outside E} (rounds : nat).

Fixpoint read_ints (paths : list (list pystr)) (j : json) : result (list Z) :=
  match paths with [] => Ok [] | p :: r => w <- follow p j ;; v <- jint w ;; vs <- read_ints r j ;; Ok (v :: vs) end.
Lemma read_ok paths j vs : read_ints paths j = Ok vs <-> Forall2 (fun p v => Walk p j (JInt v)) paths vs.
Proof.
  revert vs. induction paths as [|p paths IH]; intros vs; cbn [read_ints].
  - split; [intros [= <-]; constructor|intros F; inversion F; reflexivity].
  - split.
    + intros H. destruct (follow p j) as [w|] eqn:EW; [|discriminate]. cbn [bind] in H. destruct (jint w) as [v|] eqn:EV; [|discriminate]. cbn [bind] in H.
      destruct (read_ints paths j) as [r|]; [|discriminate]. injection H as <-. apply jint_inv in EV. subst w.
      constructor; [apply follow_walk; exact EW|]. apply IH. reflexivity.
    + intros F. inversion F as [|? v ? vs' WV F']; subst. rewrite (walk_follow _ _ _ WV). cbn [bind jint]. apply IH in F'. rewrite F'. reflexivity.
Qed.
Lemma read_fails front p back j vs x : Forall2 (fun p v => Walk p j (JInt v)) front vs -> follow p j = Raise x -> read_ints (front ++ p :: back) j = Raise x.
Proof.
  intros F EX. induction F as [|q v front vs WV F IH]; cbn [app read_ints]; [rewrite EX; reflexivity|].
  rewrite (walk_follow _ _ _ WV). cbn [bind jint]. rewrite IH. reflexivity.
Qed.
Ltac chain := repeat (
  try reflexivity; cbn [bind];
  match goal with
  | |- context [bind (jget ?k ?x) _] => rewrite (jget_as_key k x)
  | |- context [bind (jget_key ?k ?x) _] => destruct (jget_key k x)
  | |- context [bind (jint ?x) _] => destruct (jint x)
  end).
Lemma balance_reads n ad sv (s : Net E) r e' j : (forall url, sv <> Node url) -> (sv = BlockchainInfo -> n = Main) ->
  o_get (fst (balance_request n ad sv)) (snd (balance_request n ad sv)) (g_timeout (n_globals s)) (n_outside s) = (Ok r, e') ->
  r_status r = 200 -> r_json r = Ok j ->
  call_balance n ad sv s = (rmap balance_value (read_ints (balance_fields ad sv) j), mkNet (n_globals s) e').
Proof.
  intros NN NI EO ST EJ.
  assert (HG : forall A url ps (k : Response -> IO (Net E) A), o_get url ps (g_timeout (n_globals s)) (n_outside s) = (Ok r, e') ->
    (r <~ http_get url ps ;; k r) s = k r (mkNet (n_globals s) e')).
  { intros A url ps k H. unfold ibind at 1, http_get, outside, zoom. rewrite H. reflexivity. }
  assert (HS : ok_status r = Ok tt) by (unfold ok_status; rewrite ST; reflexivity).
  assert (HR : raise_for_status r = Ok tt) by (unfold raise_for_status; rewrite ST; reflexivity).
  assert (ONE : forall path, rmap balance_value (read_ints [path] j) = (w <- follow path j ;; jint w)).
  { intros path. cbn [read_ints]. destruct (follow path j) as [w|]; [|reflexivity]. cbn [bind]. destruct (jint w); reflexivity. }
  assert (LT : forall A (k : unit -> IO (Net E) A) s0, (u <~ ilift (Ok tt) ;; k u) s0 = k tt s0) by reflexivity.
  assert (PR : forall m1 m2 : result Z, m1 = m2 -> ilift m1 (mkNet (n_globals s) e') = (m2, mkNet (n_globals s) e')) by (intros m1 m2 ->; reflexivity).
  destruct sv as [| | | | |url]; [| | | | |destruct (NN url eq_refl)].
  - cbn [call_balance]. unfold blockchair_balance. rewrite HG by (destruct n; exact EO). rewrite HS, LT. apply PR. cbn [balance_fields]. rewrite ONE, EJ. cbn [follow bind]. chain.
  - cbn [call_balance]. unfold blockstream_balance. rewrite HG by (destruct n; exact EO). rewrite HS, LT. apply PR. cbn [balance_fields map names read_ints]. rewrite EJ. cbn [follow bind].
    chain. cbn [rmap bind balance_value]. f_equal. lia.
  - cbn [call_balance]. unfold bitcore_balance. rewrite HG by (destruct n; exact EO). rewrite HR, LT. apply PR. cbn [balance_fields names map]. rewrite ONE, EJ. cbn [follow bind]. chain.
  - cbn [call_balance]. unfold smartbit_balance. rewrite HG by (destruct n; exact EO). rewrite HS, LT. apply PR. cbn [balance_fields names map]. rewrite ONE, EJ. cbn [follow bind]. chain.
  - rewrite (NI eq_refl) in *. cbn [call_balance]. unfold blockchain_balance. rewrite HG by (unfold blockchain_address; rewrite <- !app_assoc; exact EO). rewrite HS, LT. apply PR.
    cbn [balance_fields names map]. rewrite ONE, EJ. cbn [follow bind]. chain.
Qed.

(** ** C97: the balance; C98: answers without it *)
Lemma after_unusable {A} (ask : service -> IO (Net E) A) l pre sv post s s1 res s' : l = pre ++ sv :: post -> NoneWorks ask pre s s1 -> ask sv s1 = (res, s') ->
  (forall x, res = Raise x -> x = KeyError \/ x = TypeError \/ x = BitcoinNodeException \/ x = ValueError) -> Answer ask l s res s'.
Proof.
  intros EL NW EA HX. eapply An_first; eauto. intros x EX U. destruct (HX x EX) as [->|[->|[->| ->]]]; cbn in U; intuition discriminate.
Qed.
Lemma public_net n ops pre sv post : balance_services (E := E) n ops = pre ++ sv :: post -> sv = BlockchainInfo -> n = Main.
Proof.
  intros EL ->. destruct n; [reflexivity|]. exfalso. assert (I : In BlockchainInfo (balance_services (E := E) Test ops)) by (rewrite EL; apply in_or_app; right; left; reflexivity).
  unfold balance_services, services_for in I. destruct (connected Test ops); cbn in I; intuition discriminate.
Qed.
(** A public service is asked after others that cannot be used, and answers with
    status 200 and the JSON value j. *)
Definition Replied n ad (ops : list (op E)) (s : Net E) sv j s' : Prop := exists pre post s1 r e',
  balance_services n ops = pre ++ sv :: post /\ (forall url, sv <> Node url) /\ NoneWorks (call_balance n ad) pre s s1 /\
  o_get (fst (balance_request n ad sv)) (snd (balance_request n ad sv)) (g_timeout (n_globals s1)) (n_outside s1) = (Ok r, e') /\
  r_status r = 200 /\ r_json r = Ok j /\ s' = mkNet (n_globals s1) e'.
Theorem C98_balance ops t1 t2 e n ad sv j s' : let s := run rounds ops (start t1 t2 e) in Replied n ad ops s sv j s' ->
  (forall vs, Forall2 (fun p v => Walk p j (JInt v)) (balance_fields ad sv) vs -> get_balance n ad s = (Ok (balance_value vs), s')) /\
  (forall front p back vs, balance_fields ad sv = front ++ p :: back -> Forall2 (fun p v => Walk p j (JInt v)) front vs ->
    (Missing p j -> get_balance n ad s = (Raise KeyError, s')) /\ (Nameless p j -> get_balance n ad s = (Raise TypeError, s'))).
Proof.
  cbv zeta. intros (pre & post & s1 & r & e' & EL & NN & NW & EO & ST & EJ & ->).
  pose proof (balance_reads n ad sv s1 r e' j NN (public_net _ _ _ _ _ EL) EO ST EJ) as EB. split.
  - intros vs F. apply read_ok in F. rewrite F in EB. apply C59_balance. eapply after_unusable; eauto. discriminate.
  - intros front p back vs EF F. rewrite EF in EB. split; intros M.
    + rewrite (read_fails front p back j vs KeyError F (follow_missing _ _ M)) in EB. apply C59_balance. eapply after_unusable; eauto. intros x [= <-]. auto.
    + rewrite (read_fails front p back j vs TypeError F (follow_nameless _ _ M)) in EB. apply C59_balance. eapply after_unusable; eauto. intros x [= <-]. auto.
Qed.
Theorem C97_balance ops t1 t2 e n ad sv j s' b : let s := run rounds ops (start t1 t2 e) in Replied n ad ops s sv j s' -> fst (get_balance n ad s) = Ok b ->
  exists vs, Forall2 (fun p v => Walk p j (JInt v)) (balance_fields ad sv) vs /\ b = balance_value vs.
Proof.
  cbv zeta. intros (pre & post & s1 & r & e' & EL & NN & NW & EO & ST & EJ & ->) EB.
  pose proof (balance_reads n ad sv s1 r e' j NN (public_net _ _ _ _ _ EL) EO ST EJ) as EC.
  assert (RX : forall ps x, read_ints ps j = Raise x -> x = KeyError \/ x = TypeError).
  { clear. intros ps. induction ps as [|p ps IH]; intros x; cbn [read_ints]; [discriminate|].
    destruct (follow_cases p j) as [(w & -> & _)|[(-> & _)|(-> & _)]]; cbn [bind]; [|intros [= <-]; auto|intros [= <-]; auto].
    destruct (jint w) as [v|y] eqn:EV; cbn [bind]; [|intros [= <-]; destruct w; cbn in EV; try discriminate; injection EV as <-; auto].
    destruct (read_ints ps j) as [vs|y]; cbn [bind]; [discriminate|]. intros [= <-]. apply IH. reflexivity. }
  assert (EG : get_balance n ad (run rounds ops (start t1 t2 e)) = (rmap balance_value (read_ints (balance_fields ad sv) j), mkNet (n_globals s1) e')).
  { apply C59_balance. eapply after_unusable; eauto. intros x EX. destruct (read_ints (balance_fields ad sv) j) as [vs|y] eqn:ER; [discriminate|].
    injection EX as <-. destruct (RX _ _ ER); auto. }
  rewrite EG in EB. destruct (read_ints (balance_fields ad sv) j) as [vs|y] eqn:ER; [|discriminate]. injection EB as <-.
  exists vs. split; [apply read_ok; exact ER|reflexivity].
Qed.

(** ** C98: a node *)
Lemma missing1 k j : Missing [k] j -> exists fs, j = JObj fs /\ forall x, ~ In (k, x) fs.
Proof.
  intros (front & k' & back & fs & EF & WK & NF). destruct front as [|a front]; [|destruct front; discriminate EF]. injection EF as <- <-.
  inversion WK; subst. eauto.
Qed.
Lemma walk1 k j v : Walk [k] j v -> exists before after, j = JObj (before ++ (k, v) :: after) /\ forall x, ~ In (k, x) before.
Proof. intros WK. inversion WK as [|? ? before v' after w NB WV]; subst. inversion WV; subst. eauto. Qed.
Lemma has_walk k j v : Walk (names [k]) j v -> jhas k j = Ok true.
Proof.
  intros WK. destruct (walk1 _ _ _ WK) as (before & after & -> & NB). cbn [jhas]. f_equal. apply existsb_exists. exists (str k, v).
  split; [apply in_or_app; right; left; reflexivity|]. apply list_eqb_eq. reflexivity.
Qed.
Lemma lacks_missing k j : Missing (names [k]) j -> jhas k j = Ok false.
Proof.
  intros M. destruct (missing1 _ _ M) as (fs & -> & NF). cbn [jhas]. f_equal. match goal with |- ?b = false => destruct b eqn:EX; [|reflexivity] end.
  apply existsb_exists in EX as ((k' & v) & I & EK). apply list_eqb_eq in EK. cbn in EK. subst k'. destruct (NF v I).
Qed.
Lemma rpc_fails url m args (s : Net E) r e' j x : o_rpc url (str m) args None (n_outside s) = (Ok r, e') -> r_status r = 200 \/ r_status r = 500 ->
  r_json r = Ok j -> NodeFails j x -> rpc url m args s = (Raise x, mkNet (n_globals s) e').
Proof.
  intros EO ST EJ NF. unfold rpc, ibind, itry, outside, zoom. rewrite EO.
  replace (negb ((r_status r =? 200) || (r_status r =? 500))) with false by (destruct ST as [->| ->]; reflexivity).
  unfold ilift. f_equal. rewrite EJ. cbn [bind]. destruct NF as [v WE NV|WE M|NO].
  - rewrite (has_walk _ _ _ WE). cbn [bind]. pose proof (walk_follow _ _ _ WE) as FE. cbn [names map follow] in FE. rewrite <- jget_as_key in FE.
    destruct (jget "error" j) as [v'|]; [|discriminate]. cbn [bind] in FE |- *. injection FE as ->. destruct v; try congruence; reflexivity.
  - assert (EE : (has <- jhas "error" j ;; (if has then e <- jget "error" j ;; Ok (match e with JNull => false | _ => true end) else Ok false)) = Ok false).
    { destruct WE as [WE|WE]; [rewrite (lacks_missing _ _ WE); reflexivity|]. rewrite (has_walk _ _ _ WE). cbn [bind].
      pose proof (walk_follow _ _ _ WE) as FE. cbn [names map follow] in FE. rewrite <- jget_as_key in FE.
      destruct (jget "error" j) as [v'|]; [|discriminate]. cbn [bind] in FE |- *. injection FE as ->. reflexivity. }
    destruct (jhas "error" j) as [h|]; [|discriminate]. cbn [bind] in EE |- *. rewrite EE. cbn [bind].
    pose proof (follow_missing _ _ M) as FM. cbn [names map follow] in FM. rewrite <- jget_as_key in FM. destruct (jget "result" j); cbn [bind follow] in FM; congruence.
  - destruct j as [| | | |t|l|fs]; try reflexivity; [| |destruct (NO fs eq_refl)]; cbn [jhas bind]; match goal with |- context [if ?b then _ else _] => destruct b end; reflexivity.
Qed.
(** All four getters through a node raise what the node's answer amounts to. *)
Theorem C98_node ops t1 t2 e n url ad x : let s := run rounds ops (start t1 t2 e) in connected n ops = Some url ->
  let ask m args e' := exists r j, o_rpc url (str m) args None (n_outside s) = (Ok r, e') /\ (r_status r = 200 \/ r_status r = 500) /\ r_json r = Ok j /\ NodeFails j x in
  (forall e', ask "getreceivedbyaddress" [JStr ad; JInt 0] e' -> fst (get_balance n ad s) = Raise x)%string /\
  (forall e', ask "listunspent" [JInt 0; JInt 9999999; JList [JStr ad]] e' -> get_unspent rounds n ad s = (Raise x, mkNet (n_globals s) e'))%string /\
  (forall e', ask "listreceivedbyaddress" [JInt 0; JBool true; JBool true; JStr ad] e' -> M_services.get_transactions rounds n ad s = (Raise x, mkNet (n_globals s) e'))%string /\
  (forall e', ask "getrawtransaction" [JStr ad; JBool false] e' -> get_transaction_by_id n ad s = (Raise x, mkNet (n_globals s) e'))%string.
Proof.
  cbv zeta. intros EC. set (s := run rounds ops (start t1 t2 e)).
  assert (NX : forall j, NodeFails j x -> forall (A : Type) y, @Raise A x = Raise y -> y = KeyError \/ y = TypeError \/ y = BitcoinNodeException \/ y = ValueError).
  { intros j NF A y [= <-]. destruct NF; auto. }
  assert (SV : balance_services n ops = [Node url] /\ unspent_services n ops = [Node url] /\ history_services n ops = [Node url]).
  { unfold balance_services, unspent_services, history_services, services_for. rewrite EC. auto. }
  destruct SV as (S1 & S2 & S3).
  split; [|split; [|split]]; intros e' (r & j & EO & ST & EJ & NF).
  - assert (R : call_balance n ad (Node url) s = (Raise x, mkNet (set_prec 9 (n_globals s)) e')).
    { destruct n; cbn [call_balance]; unfold node_balance; unfold ibind at 1; unfold modify_globals, ibind at 1, iget, iput; cbv beta iota;
        unfold ibind at 1; rewrite (rpc_fails url "getreceivedbyaddress" _ _ r e' j x); try assumption; reflexivity. }
    assert (G : get_balance n ad s = (Raise x, mkNet (set_prec 9 (n_globals s)) e')); [|rewrite G; reflexivity].
    apply C59_balance. rewrite S1. apply (after_unusable _ _ [] (Node url) [] s s); [reflexivity|constructor|exact R|]. intros y. apply (NX j NF).
  - assert (R : call_unspent rounds n ad (Node url) s = (Raise x, mkNet (n_globals s) e')).
    { destruct n; cbn [call_unspent]; unfold node_unspent; unfold ibind at 1; unfold ibind at 1; rewrite (rpc_fails url "listunspent" _ _ r e' j x); try assumption; reflexivity. }
    apply C59_unspent. rewrite S2. apply (after_unusable _ _ [] (Node url) [] s s); [reflexivity|constructor|exact R|]. intros y. apply (NX j NF).
  - assert (R : call_transactions rounds n ad (Node url) s = (Raise x, mkNet (n_globals s) e')).
    { destruct n; cbn [call_transactions]; unfold node_transactions; unfold ibind at 1; rewrite (rpc_fails url "listreceivedbyaddress" _ _ r e' j x); try assumption; reflexivity. }
    apply C59_transactions. rewrite S3. apply (after_unusable _ _ [] (Node url) [] s s); [reflexivity|constructor|exact R|]. intros y. apply (NX j NF).
  - assert (R : call_by_id n ad (Node url) s = (Raise x, mkNet (n_globals s) e')).
    { destruct n; cbn [call_by_id]; unfold node_by_id; unfold ibind at 1; rewrite (rpc_fails url "getrawtransaction" _ _ r e' j x); try assumption; reflexivity. }
    apply C59_by_id. rewrite S3. apply (after_unusable _ _ [] (Node url) [] s s); [reflexivity|constructor|exact R|]. intros y. apply (NX j NF).
Qed.
End Balance.

Section Rest.
Context {CR : Crypto} {E : Type} {OU : Outside E} (rounds : nat).

(** ** C98: Smartbit; what it does not mention does not exist *)
Lemma begins_spec p s : begins p s = true <-> exists r, s = p ++ r.
Proof.
  revert s. induction p as [|c p IH]; intros s; cbn [begins]; [split; [intros _; exists s; reflexivity|reflexivity]|]. destruct s as [|d s]; [split; [discriminate|intros (r & H); discriminate]|].
  rewrite andb_true_iff, Z.eqb_eq, IH. split; [intros (-> & r & ->); exists r; reflexivity|intros (r & H)]. injection H as -> ->. eauto.
Qed.
Lemma contains_spec p s : contains p s = true <-> exists a b, s = a ++ p ++ b.
Proof.
  induction s as [|d s IH]; cbn [contains]; rewrite orb_true_iff, begins_spec.
  - split; [intros [(r & H)|H]; [exists [], r; exact H|discriminate]|]. intros (a & b & H). left. destruct a; [exists b; exact H|discriminate].
  - rewrite IH. split; [intros [(r & H)|(a & b & ->)]; [exists [], r; exact H|exists (d :: a), b; reflexivity]|].
    intros (a & b & H). destruct a as [|d' a]; [left; exists b; exact H|]. injection H as -> ->. right. eauto.
Qed.
Lemma unmentioned k j : Unmentioned k j -> jhas k j = Ok false.
Proof.
  destruct j as [| | | |s|l|fs]; cbn [Unmentioned jhas]; try contradiction; intros U; f_equal;
    match goal with |- ?b = false => destruct b eqn:EX; [exfalso|reflexivity] end.
  - apply contains_spec in EX as (a & b & H). exact (U a b H).
  - apply existsb_exists in EX as (x & I & EK). destruct x; try discriminate. apply list_eqb_eq in EK. subst. exact (U I).
  - apply existsb_exists in EX as ((k' & v) & I & EK). apply list_eqb_eq in EK. cbn in EK. subst k'. exact (U v I).
Qed.
Definition smartbit_site (n : net) : pystr :=
  match n with Main => str "https://api.smartbit.com.au/v1/blockchain/address/" | Test => str "https://testnet-api.smartbit.com.au/v1/blockchain/address/" end.
Theorem C98_smartbit_unmentioned n ad (s : Net E) r e' j : (0 < rounds)%nat -> r_status r = 200 -> r_json r = Ok j ->
  (o_get (smartbit_site n ++ ad ++ str "/unspent") [(str "limit", str "1000")] (g_timeout (n_globals s)) (n_outside s) = (Ok r, e') -> Unmentioned "unspent" j ->
   call_unspent rounds n ad Smartbit s = (Ok (Some []), mkNet (n_globals s) e')) /\
  (forall a, o_get (smartbit_site n ++ ad) [(str "limit", str "1000")] (g_timeout (n_globals s)) (n_outside s) = (Ok r, e') ->
   Walk (names ["address"]%string) j a -> Unmentioned "transactions" a ->
   call_transactions rounds n ad Smartbit s = (Ok [], mkNet (n_globals s) e')).
Proof.
  intros HR ST EJ. assert (HS : ok_status r = Ok tt) by (unfold ok_status; rewrite ST; reflexivity). destruct rounds as [|k]; [lia|]. split.
  - intros EO U. assert (EG : http_get (smartbit_address n ad ++ str "/unspent") limit1000 s = (Ok r, mkNet (n_globals s) e')).
    { unfold http_get, outside, zoom, smartbit_address, smartbit_endpoint. replace (o_get _ limit1000 _ _) with (@Ok Response r, e'); [reflexivity|].
      rewrite <- EO. destruct n; rewrite <- !app_assoc; reflexivity. }
    cbn [call_unspent]. destruct n; unfold smartbit_unspent; unfold ibind at 1; unfold ibind at 1; rewrite EG; unfold ibind at 1, ilift at 1; rewrite HS;
      unfold ibind at 1; unfold globals, ibind at 1, iget, iret at 1; unfold ibind at 1, ilift at 1; rewrite EJ; cbn [bind]; rewrite (unmentioned _ _ U); reflexivity.
  - intros a EO WA U. assert (EG : http_get (smartbit_address n ad) limit1000 s = (Ok r, mkNet (n_globals s) e')).
    { unfold http_get, outside, zoom, smartbit_address, smartbit_endpoint. replace (o_get _ limit1000 _ _) with (@Ok Response r, e'); [reflexivity|].
      rewrite <- EO. destruct n; reflexivity. }
    pose proof (walk_follow _ _ _ WA) as FA. cbn [names map follow] in FA. rewrite <- jget_as_key in FA.
    destruct (jget "address" j) as [a'|] eqn:EA; [|discriminate]. cbn [bind] in FA. injection FA as ->.
    cbn [call_transactions]. destruct n; unfold smartbit_transactions; unfold ibind at 1; rewrite EG; unfold ibind at 1, ilift at 1; rewrite HS;
      unfold ibind at 1, ilift at 1; rewrite EJ; cbn [bind]; rewrite EA; cbn [bind]; rewrite (unmentioned _ _ U); reflexivity.
Qed.

(** ** C98: Blockstream, asked for coins *)
(** Blockstream names a last block whose height is not a number: ValueError, and
    nobody else is asked for coins. *)
Theorem C98_height ops t1 t2 e n ad r e' : let s := run rounds ops (start t1 t2 e) in connected n ops = None ->
  o_get (match n with Main => str "https://blockstream.info/api/blocks/tip/height" | Test => str "https://blockstream.info/testnet/api/blocks/tip/height" end)
    [] (g_timeout (n_globals s)) (n_outside s) = (Ok r, e') -> r_status r = 200 -> (forall z, ~ ReadsInt z (r_text r)) ->
  get_unspent rounds n ad s = (Raise ValueError, mkNet (n_globals s) e').
Proof.
  cbv zeta. intros EC EO ST NI. set (s := run rounds ops (start t1 t2 e)) in *. assert (HS : ok_status r = Ok tt) by (unfold ok_status; rewrite ST; reflexivity).
  assert (EG : http_get (blockstream_endpoint n ++ str "blocks/tip/height") [] s = (Ok r, mkNet (n_globals s) e')).
  { unfold http_get, outside, zoom, blockstream_endpoint. replace (o_get _ [] _ _) with (@Ok Response r, e'); [reflexivity|]. rewrite <- EO. destruct n; reflexivity. }
  assert (EB : call_unspent rounds n ad Blockstream s = (Raise ValueError, mkNet (n_globals s) e')).
  { destruct n; cbn [call_unspent]; unfold blockstream_unspent; repeat unfold ibind at 1; rewrite EG; unfold ilift at 1; rewrite HS; repeat unfold ibind at 1; unfold ilift at 1;
      rewrite (P_numeral.refuses_int _ NI); reflexivity. }
  apply C59_unspent. unfold unspent_services, services_for. rewrite EC.
  destruct n; (eapply (after_unusable _ _ [] Blockstream); [reflexivity|constructor|exact EB|]); intros x [= <-]; auto.
Qed.

(** ** C98: Blockchair, asked for a transaction *)
Theorem C98_raw n txid (s : Net E) r e' j d :
  o_get (match n with Main => str "https://api.blockchair.com/bitcoin/raw/transaction/" | Test => str "https://api.blockchair.com/bitcoin/testnet/raw/transaction/" end ++ txid)
    [] (g_timeout (n_globals s)) (n_outside s) = (Ok r, e') -> r_status r = 200 -> r_json r = Ok j -> Walk (names ["data"]%string) j d ->
  (Falsy d -> call_by_id n txid Blockchair s = (Ok None, mkNet (n_globals s) e')) /\
  (~ Falsy d -> Missing [txid; str "raw_transaction"] d -> call_by_id n txid Blockchair s = (Raise KeyError, mkNet (n_globals s) e')) /\
  (~ Falsy d -> Nameless [txid; str "raw_transaction"] d -> call_by_id n txid Blockchair s = (Raise TypeError, mkNet (n_globals s) e')).
Proof.
  intros EO ST EJ WD. assert (HS : ok_status r = Ok tt) by (unfold ok_status; rewrite ST; reflexivity).
  assert (EG : http_get (blockchair_endpoint n ++ str "raw/transaction/" ++ txid) [] s = (Ok r, mkNet (n_globals s) e')).
  { unfold http_get, outside, zoom, blockchair_endpoint. replace (o_get _ [] _ _) with (@Ok Response r, e'); [reflexivity|]. rewrite <- EO. destruct n; reflexivity. }
  pose proof (walk_follow _ _ _ WD) as FD. cbn [names map follow] in FD. rewrite <- jget_as_key in FD.
  destruct (jget "data" j) as [d'|] eqn:ED; [|discriminate]. cbn [bind] in FD. injection FD as ->.
  assert (EC : call_by_id n txid Blockchair s = ((if negb (jtrue d) then Ok None else w <- follow [txid; str "raw_transaction"] d ;; rmap Some (jstr w)), mkNet (n_globals s) e')).
  { cbn [call_by_id]. unfold blockchair_by_id. unfold ibind at 1. rewrite EG, ST. cbn [Z.eqb Pos.eqb]. unfold ibind, ilift. rewrite HS, EJ. cbn [bind]. rewrite ED. cbn [bind].
    destruct (negb (jtrue d)); [reflexivity|]. cbn [follow]. destruct (jget_key txid d) as [t|]; [|reflexivity]. cbn [bind]. rewrite <- jget_as_key. destruct (jget "raw_transaction" t); reflexivity. }
  rewrite EC. split; [|split].
  - intros F. apply falsy in F. rewrite F. reflexivity.
  - intros NF M. destruct (jtrue d) eqn:ET; [|destruct NF; apply falsy; exact ET]. rewrite (follow_missing _ _ M). reflexivity.
  - intros NF M. destruct (jtrue d) eqn:ET; [|destruct NF; apply falsy; exact ET]. rewrite (follow_nameless _ _ M). reflexivity.
Qed.

(** ** C98: exchange rates *)
Lemma list_eqb_false a b : list_eqb a b = false <-> a <> b.
Proof. rewrite <- list_eqb_eq. destruct (list_eqb a b); intuition congruence. Qed.
Lemma known k : In k (map fst CURRENCY_PRECISION) -> In k (map fst currencies).
Proof.
  intros I. assert (A : forallb (fun x => existsb (list_eqb x) (map fst currencies)) (map fst CURRENCY_PRECISION) = true) by (vm_compute; reflexivity).
  rewrite forallb_forall in A. apply A, existsb_exists in I as (x & IX & EX). apply list_eqb_eq in EX. subst x. exact IX.
Qed.
Lemma unknown_precision cur : ~ In cur (map fst currencies) -> precision_of cur = Raise KeyError.
Proof.
  intros NI. unfold precision_of. match goal with |- context [find ?f ?l] => destruct (find f l) as [p|] eqn:EF end; [|reflexivity].
  apply find_some in EF as (I & EK). apply list_eqb_eq in EK. destruct NI. rewrite <- EK.
  apply known, in_map. exact I.
Qed.
Lemma unknown_rate cur (s : Net E) : ~ In cur (map fst currencies) -> exchange_rate cur s = (Raise KeyError, s).
Proof.
  intros NI. unfold exchange_rate.
  assert (NQ : forall k z, In (str k, z) currencies -> list_eqb cur (str k) = false) by (intros k z IK; apply list_eqb_false; intros ->; apply NI; exact (in_map fst _ _ IK)).
  rewrite (NQ "satoshi"%string 0), (NQ "ubtc"%string 2), (NQ "mbtc"%string 5), (NQ "btc"%string 8) by (unfold currencies; cbn [In]; auto 10).
  unfold ibind, ilift. rewrite (unknown_precision _ NI). reflexivity.
Qed.
Lemma unsupported_cached cur t1 t2 e ops : ~ In cur (map fst currencies) -> lookup cur (g_rates (n_globals (run rounds ops (start t1 t2 e)))) = None.
Proof.
  intros NI. assert (G : forall s : Net E, lookup cur (g_rates (n_globals s)) = None -> lookup cur (g_rates (n_globals (run rounds ops s))) = None).
  { induction ops as [|o ops IH]; intros s H; [exact H|]. cbn [S_History.run]. apply IH. destruct (step_rate rounds o s cur) as [->|(N & _)]; [exact H|contradiction]. }
  apply G. unfold start, n_globals, initial_globals, g_rates, lookup. match goal with |- context [find ?f ?l] => destruct (find f l) as [p|] eqn:EF end; [|reflexivity].
  apply find_some in EF as (I & EK). apply list_eqb_eq in EK. destruct NI. rewrite <- EK. apply in_map_iff in I as (q & <- & I). cbn [fst]. apply known. exact (in_map fst _ _ I).
Qed.
(** A currency that is not known: KeyError, and nobody is asked. *)
Theorem C98_unknown_currency ops t1 t2 e cur amount num : let s := run rounds ops (start t1 t2 e) in ~ In cur (map fst currencies) ->
  currency_to_satoshi amount cur s = (Raise KeyError, s) /\ satoshi_to_currency num cur s = (Raise KeyError, s) /\
  (forall now e', o_time (n_outside s) = (Ok now, e') ->
     currency_to_satoshi_cached amount cur s = (Raise KeyError, mkNet (n_globals s) e') /\
     satoshi_to_currency_cached num cur s = (Raise KeyError, mkNet (n_globals s) e')).
Proof.
  cbv zeta. intros NI. set (s := run rounds ops (start t1 t2 e)).
  split; [unfold currency_to_satoshi, ibind; rewrite (unknown_rate _ _ NI); reflexivity|].
  split; [unfold satoshi_to_currency, ibind; rewrite (unknown_rate _ _ NI); reflexivity|]. intros now e' EO.
  assert (EC : forall amount, currency_to_satoshi_cached amount cur s = (Raise KeyError, mkNet (n_globals s) e')).
  { intros a. rewrite cached_eq. cbv zeta. rewrite EO. unfold s. rewrite unsupported_cached by exact NI. reflexivity. }
  split; [apply EC|]. unfold satoshi_to_currency_cached. unfold ibind at 1. rewrite EC. reflexivity.
Qed.

(** BitPay answers without the rate: KeyError, and blockchain.info is not asked. *)
Theorem C98_rate cur (s : Net E) r e' j amount : In cur (map fst currencies) -> ~ In cur (names ["satoshi"; "ubtc"; "mbtc"; "btc"]%string) ->
  o_get (str "https://bitpay.com/rates/BTC/" ++ cur) [] None (n_outside s) = (Ok r, e') -> r_status r = 200 -> r_json r = Ok j ->
  (Missing (names ["data"; "rate"]%string) j -> currency_to_satoshi amount cur s = (Raise KeyError, mkNet (n_globals s) e')) /\
  (Nameless (names ["data"; "rate"]%string) j -> currency_to_satoshi amount cur s = (Raise TypeError, mkNet (n_globals s) e')).
Proof.
  intros IC NU EO ST EJ.
  assert (NQ : forall k, In k ["satoshi"; "ubtc"; "mbtc"; "btc"]%string -> list_eqb cur (str k) = false) by (intros k IK; apply list_eqb_false; intros ->; apply NU, in_map, IK).
  assert (EP : exists p, precision_of cur = Ok p).
  { unfold precision_of. match goal with |- context [find ?f ?l] => destruct (find f l) as [p|] eqn:EF end; [eauto|]. exfalso.
    assert (A : forallb (fun x => existsb (fun p => list_eqb (fst p) x) CURRENCY_PRECISION) (map fst currencies) = true) by (vm_compute; reflexivity).
    rewrite forallb_forall in A. apply A, existsb_exists in IC as (q & IQ & EQ). pose proof (find_none _ _ EF q IQ) as EN. cbv beta in EN. congruence. }
  destruct EP as (pl & EP).
  assert (ER : forall x, follow (names ["data"; "rate"]%string) j = Raise x -> rates_ignored x = false -> currency_to_satoshi amount cur s = (Raise x, mkNet (n_globals s) e')).
  { intros x EX NI. unfold currency_to_satoshi, exchange_rate. rewrite (NQ "satoshi"%string), (NQ "ubtc"%string), (NQ "mbtc"%string), (NQ "btc"%string) by (cbn; auto 6).
    cbn [first_working]. unfold ibind at 1. unfold ibind at 1. unfold ilift at 1. rewrite EP.
    assert (EB : bitpay_rate cur s = (Raise x, mkNet (n_globals s) e')).
    { unfold bitpay_rate. unfold ibind at 1, get_untimed, outside, zoom. rewrite EO. unfold ibind at 1, ilift at 1, raise_for_status. rewrite ST. cbn [Z.leb Z.ltb Z.compare Pos.compare Pos.compare_cont andb].
      unfold ibind at 1. change (globals ?q) with (@Ok Globals (n_globals q), q). cbv beta iota. unfold ilift. rewrite EJ. cbn [bind]. cbn [names map follow] in EX. rewrite <- jget_as_key in EX.
      destruct (jget "data" j) as [d|]; [|cbn [bind] in *; congruence]. cbn [bind] in EX |- *. rewrite <- jget_as_key in EX. destruct (jget "rate" d); cbn [bind] in *; congruence. }
    unfold itry at 1. rewrite EB, NI. reflexivity. }
  split; intros M; apply ER; try reflexivity; [apply follow_missing|apply follow_nameless]; exact M.
Qed.
End Rest.

(** ** Examples *)
Definition lacking : json := JObj [(str "data", JObj [(str "a", JObj [(str "address", JObj [(str "script_hex", JStr [])])])])].
Example C98_balance_case : exists s', @Replied script scripted Main (str "a") [] (start 0 0 ([reply lacking; smartbit_says 7], 5)) Blockchair lacking s' /\
  Missing [str "data"; str "a"; str "address"; str "balance"] lacking /\
  get_balance Main (str "a") (start 0 0 ([reply lacking; smartbit_says 7], 5)) = (Raise KeyError, s').
Proof.
  exists (start 0 0 ([smartbit_says 7], 5)). split; [|split; [|vm_compute; reflexivity]].
  - exists [], [Blockstream; Bitcore; Smartbit; BlockchainInfo], (start 0 0 ([reply lacking; smartbit_says 7], 5)), (mkResp 200 [] (Ok lacking)), ([smartbit_says 7], 5).
    repeat split; try reflexivity; [discriminate|constructor].
  - exists [str "data"; str "a"; str "address"], (str "balance"), [], [(str "script_hex", JStr [])]. split; [reflexivity|]. split; [|intros x [H|[]]; discriminate].
    apply follow_walk. vm_compute. reflexivity.
Qed.
Example C97_balance_case : exists s', @Replied script scripted Main (str "a") [] (start 0 0 ([Raise ReqTimeout; Raise ReqTimeout; Raise ReqTimeout; smartbit_says 7], 5)) Smartbit
    (JObj [(str "address", JObj [(str "total", JObj [(str "balance_int", JInt 7)])])]) s' /\
  fst (get_balance Main (str "a") (start 0 0 ([Raise ReqTimeout; Raise ReqTimeout; Raise ReqTimeout; smartbit_says 7], 5))) = Ok 7.
Proof.
  eexists. split; [|vm_compute; reflexivity].
  eexists [Blockchair; Blockstream; Bitcore], [BlockchainInfo], (start 0 0 ([smartbit_says 7], 5)), _, _. split; [reflexivity|]. split; [discriminate|].
  split; [|repeat split; reflexivity]. repeat (eapply NW_cons; [vm_compute; reflexivity|cbn; auto|]). constructor.
Qed.
(** Coins with their answers. *)
Definition two_coins : json := JObj [(str "unspent_outputs", JList [
  JObj [(str "value", JInt 5); (str "confirmations", JInt 2); (str "script", JStr (str "51")); (str "tx_hash_big_endian", JStr (str "aa")); (str "tx_output_n", JInt 1)];
  JObj [(str "value", JInt 6); (str "confirmations", JInt 0); (str "script", JStr (str "51")); (str "tx_hash_big_endian", JStr (str "bb")); (str "tx_output_n", JInt 0)]])].
Definition late : script * Log := (([Raise ReqTimeout; Raise ReqTimeout; Raise ReqTimeout; reply two_coins], 5), []).
Example C97_coins_case : exists us s', @get_unspent toy _ (@logged script scripted) 5 Main (str "a") (start 0 0 late) = (Ok (Some us), s') /\
  map u_amount us = [6; 5] /\ length (asked s') = 4%nat.
Proof. eexists _, _. split; [vm_compute; reflexivity|]. split; reflexivity. Qed.
Example C97_history_case : exists s', @M_services.get_transactions _ (@logged script scripted) 5 Main (str "a")
    (start 0 0 ((([Raise ReqTimeout; status 200; Raise ReqTimeout; Raise ReqTimeout], 5), []) : script * Log)) = (Raise ValueError, s') /\
  fst (@M_services.get_transactions _ (@logged script scripted) 5 Main (str "a")
    (start 0 0 ((([Raise ReqTimeout; reply (JList []); reply (JList [JObj [(str "txid", JStr (str "aa"))]]); reply (JList [])], 5), []) : script * Log))) = Ok [str "aa"].
Proof. eexists. split; vm_compute; reflexivity. Qed.
Example C97_by_id_case : fst (@get_transaction_by_id _ (@logged script scripted) Main (str "aa")
    (start 0 0 (([reply (JObj [(str "data", JObj [(str "aa", JObj [(str "raw_transaction", JStr (str "0100"))])])])], 5), []))) = Ok (Some (str "0100")).
Proof. vm_compute. reflexivity. Qed.
Example C98_node_case : NodeFails (JObj [(str "error", JObj [(str "code", JInt (-5))]); (str "result", JNull)]) BitcoinNodeException /\
  NodeFails (JObj [(str "error", JNull)]) KeyError /\ NodeFails (JList [JStr (str "error")]) TypeError.
Proof.
  split; [|split].
  - apply NF_error with (v := JObj [(str "code", JInt (-5))]); [apply follow_walk; vm_compute; reflexivity|discriminate].
  - apply NF_missing; [right; apply follow_walk; vm_compute; reflexivity|]. exists [], (str "result"), [], [(str "error", JNull)].
    split; [reflexivity|]. split; [constructor|]. intros x [H|[]]; discriminate.
  - apply NF_nameless. discriminate.
Qed.
Example C98_smartbit_case : Unmentioned "unspent" (JObj [(str "success", JBool true)]) /\ Unmentioned "unspent" (JStr (str "unspen")) /\
  ~ Unmentioned "unspent" (JList [JStr (str "unspent")]).
Proof.
  split; [intros x [H|[]]; discriminate|]. split; [|intros H; apply H; left; reflexivity].
  intros a b H. apply (f_equal (contains (str "unspent"))) in H. assert (T : contains (str "unspent") (a ++ str "unspent" ++ b) = true) by (apply contains_spec; eauto).
  rewrite T in H. vm_compute in H. discriminate.
Qed.
Example C98_height_case : fst (get_unspent (CR:=toy) 3 Main (str "a") (at_import [Ok (mkResp 200 (str "Too many requests") (Raise ValueError))])) = Raise ValueError /\
  (forall z, ~ ReadsInt z (str "Too many requests")) /\ ReadsInt (-1234) (str " -1_234").
Proof.
  split; [vm_compute; reflexivity|]. split; [intros z H; apply P_numeral.reads_int in H; vm_compute in H; discriminate|].
  apply P_numeral.reads_int. vm_compute. reflexivity.
Qed.
Example C98_raw_case : Falsy (JList []) /\ ~ Falsy (JInt 1) /\ Missing [str "aa"; str "raw_transaction"] (JObj [(str "bb", JNull)]).
Proof.
  split; [left; cbn; auto 10|]. split; [intros [H|(r & neg & e & H)]; [cbn in H; intuition discriminate|discriminate]|]. exists [], (str "aa"), [str "raw_transaction"], [(str "bb", JNull)].
  split; [reflexivity|]. split; [constructor|]. intros x [H|[]]; discriminate.
Qed.
Example C98_unknown_currency_case : ~ In (str "doge") (map fst currencies) /\ ~ In (str "USD") (map fst currencies) /\
  fst (currency_to_satoshi (str "1") (str "USD") (at_import [usd_price "50000"])) = Raise KeyError.
Proof.
  assert (D : forall k, existsb (list_eqb k) (map fst currencies) = false -> ~ In k (map fst currencies)).
  { intros k H I. assert (T : existsb (list_eqb k) (map fst currencies) = true) by (apply existsb_exists; exists k; split; [exact I|apply list_eqb_eq; reflexivity]). congruence. }
  split; [apply D; vm_compute; reflexivity|]. split; [apply D; vm_compute; reflexivity|]. vm_compute. reflexivity.
Qed.
Example C98_rate_case : In (str "usd") (map fst currencies) /\ ~ In (str "usd") (names ["satoshi"; "ubtc"; "mbtc"; "btc"]%string) /\
  currency_to_satoshi (str "1") (str "usd") (at_import [reply (JObj [(str "error", JNull)]); Ok (mkResp 200 (str "0.00002") (Raise ValueError))]) =
  (Raise KeyError, at_import [Ok (mkResp 200 (str "0.00002") (Raise ValueError))]).
Proof. split; [cbn; auto 30|]. split; [cbn; intuition discriminate|]. vm_compute. reflexivity. Qed.

Print Assumptions C97_coins.
Print Assumptions C97_history.
Print Assumptions C97_by_id.
Print Assumptions C97_balance.
Print Assumptions C98_balance.
Print Assumptions C98_node.
Print Assumptions C98_smartbit_unmentioned.
Print Assumptions C98_height.
Print Assumptions C98_raw.
Print Assumptions C98_unknown_currency.
Print Assumptions C98_rate.
