(** What is read from the services about an address (C62, C71, C72). *)
From Coq Require Import String.
From Coq Require Import Permutation Sorting.Sorted.
From Verif Require Import F_base F_decimal M_services S_Decimal S_Servers F_network F_servers P_rates X_toy X_net X_server.

Lemma str_of_int_digits k : 0 <= k -> Digits k (str_of_int k) /\ str_of_int k <> [].
Proof.
  intros H. unfold str_of_int. destruct (Z.ltb_spec k 0); [lia|]. rewrite Z.abs_eq by lia. destruct (digits_spec k H) as (D & N & _). auto.
Qed.
Lemma pages_enough total p : 0 < p -> total <= p * Z.of_nat (pages_of total p).
Proof.
  intros Hp. unfold pages_of. pose proof (Z.div_mod (total + p - 1) p ltac:(lia)). pose proof (Z.mod_pos_bound (total + p - 1) p Hp).
  destruct (Z_lt_le_dec ((total + p - 1) / p) 0); lia.
Qed.
Lemma firstn_zlen {A} (l : list A) k : zlen l <= k -> firstn (Z.to_nat k) l = l.
Proof. intros H. apply firstn_all2. unfold zlen in H. lia. Qed.

Section WithOutside.
Context {CR : Crypto} {E : Type} {OU : Outside E} (rounds : nat) (g : Globals).

Ltac get := eapply yields_bind; [apply yields_get; eassumption|].
Ltac field H := rewrite (has _ _ _ H); cbn [bind].

(** ** Blockchair *)
Lemma blockchair_pages_all {A B} (R : A -> B -> Prop) (full : list A) items url address (D : Z -> json -> Prop) :
  (forall k d, D k d -> exists bs, items d = Ok bs /\ Forall2 R (page k 1000 full) bs) ->
  (forall k t, 0 <= k -> Digits k t -> t <> [] ->
     Replies url [(str "offset", t); (str "limit", str "1000")] (fun j => exists data d, Has "data" data j /\ HasKey address d data /\ D k d)) ->
  forall m k d acc, 0 <= k -> D k d -> Forall2 R (firstn (Z.to_nat k) full) acc -> zlen full <= k + 1000 * Z.of_nat m ->
  Yields g (blockchair_pages m items url address k d acc) (Forall2 R full).
Proof.
  intros HI HR. induction m as [|m IH]; intros k d acc Hk HD HA HL; cbn [blockchair_pages].
  - apply yields_ret. rewrite firstn_zlen in HA by lia. exact HA.
  - destruct (HI k d HD) as (bs & EI & HB). eapply yields_bind; [eapply (yields_lift _ _ bs (eq bs)); auto|]. intros ? <-.
    destruct (str_of_int_digits (k + 1000) ltac:(lia)) as [D1 D2]. pose proof (HR (k + 1000) _ ltac:(lia) D1 D2) as RP.
    change (offset_params (k + 1000) 1000) with [(str "offset", str_of_int (k + 1000)); (str "limit", str "1000")].
    get. intros r (HS & j & EJ & data & d' & J1 & J2 & J3). eapply yields_bind; [apply yields_ok_status; auto|]. intros _ _.
    eapply yields_bind; [eapply (yields_lift _ _ d' (eq d')); auto|].
    { rewrite EJ. cbn [bind]. field J1. apply has_key. auto. }
    intros ? <-. apply IH; auto; try lia. rewrite <- page_app by lia. apply Forall2_app; auto.
Qed.
Lemma blockchair_serves n L address k t : ServesBlockchair (OU:=OU) n L address -> 0 <= k -> Digits k t -> t <> [] ->
  Replies (OU:=OU) (blockchair_url n address) [(str "offset", t); (str "limit", str "1000")] (blockchair_reply L address k).
Proof. intros [_ H]. apply H. Qed.
Lemma replies_weaken url ps (P Q : json -> Prop) : Replies (OU:=OU) url ps P -> (forall j, P j -> Q j) -> Replies (OU:=OU) url ps Q.
Proof. intros H I t e. destruct (H t e) as (r & j & e' & A & B & C & D). exists r, j, e'. auto. Qed.
Lemma blockchair_url_eq n address : M_services.blockchair_address n address = blockchair_url n address.
Proof. destruct n; reflexivity. Qed.
Lemma digits0 : Digits 0 [48] /\ [48] <> [].
Proof. split; [|discriminate]. change [48] with ([] ++ [48 + 0]). change 0 with (10 * 0 + 0) at 1. constructor; [constructor|lia]. Qed.

Theorem C62_blockchair n L address : ServesBlockchair (OU:=OU) n L address ->
  Yields g (blockchair_transactions n address) (eq (l_mempool L ++ l_confirmed L)).
Proof.
  intros HS. unfold blockchair_transactions. rewrite blockchair_url_eq. destruct digits0 as [D0 D1].
  pose proof (blockchair_serves n L address 0 [48] HS ltac:(lia) D0 D1) as RP.
  change (offset_params 0 1000) with [(str "offset", [48]); (str "limit", str "1000")]. get. intros r (ST & j & EJ & data & d & a & c & coins & J).
  destruct J as (J1 & J2 & J3 & J4 & J5 & J6 & J7 & J8 & J9 & J10 & J11 & J12).
  rewrite ST. cbn [Z.eqb Pos.eqb]. eapply yields_bind; [apply yields_ok_status; auto|]. intros _ _.
  eapply yields_bind; [eapply (yields_lift _ _ (d, zlen (l_mempool L ++ l_confirmed L)) (eq (d, zlen (l_mempool L ++ l_confirmed L)))); auto|].
  { rewrite EJ. cbn [bind]. field J1. rewrite (has_key _ _ _ J2). cbn [bind]. field J3. field J8. reflexivity. }
  intros ? <-. eapply yields_weaken.
  - apply (blockchair_pages_all eq (l_mempool L ++ l_confirmed L) _ _ _
      (fun k d => Has "transactions" (JList (map JStr (page k 1000 (l_mempool L ++ l_confirmed L)))) d)); auto; try lia.
    + intros k d' H. eexists. field H. cbn [jlist bind]. rewrite mapM_strs. split; [reflexivity|]. apply Forall2_eq_iff. reflexivity.
    + intros k t Hk DK NE. eapply replies_weaken; [apply (blockchair_serves n L address k t HS); auto|].
      intros j' (data' & d' & a' & c' & coins' & K1 & K2 & K3 & K4 & K5 & K6 & K7 & K8 & K9 & _). eauto.
    + constructor.
    + pose proof (pages_enough (zlen (l_mempool L ++ l_confirmed L)) 1000). lia.
  - intros l F. apply Forall2_eq_iff in F. auto.
Qed.

Lemma plain_holds L c : Holds L c (plain_unspent (c_value c) (confirmations L c) (l_script L) (c_txid c) (c_index c)).
Proof. reflexivity. Qed.

Theorem C71_blockchair n L address : ServesBlockchair (OU:=OU) n L address -> (forall c h, In c (l_coins L) -> c_height c = Some h -> 0 <= h) ->
  Yields g (blockchair_unspent n address) (fun r => exists us, r = Some us /\ Forall2 (Holds L) (l_coins L) us).
Proof.
  intros HS HH. unfold blockchair_unspent. rewrite blockchair_url_eq. destruct digits0 as [D0 D1].
  pose proof (blockchair_serves n L address 0 [48] HS ltac:(lia) D0 D1) as RP.
  change (offset_params 0 1000) with [(str "offset", [48]); (str "limit", str "1000")]. get. intros r (ST & j & EJ & data & d & a & c & coins & J).
  destruct J as (J1 & J2 & J3 & J4 & J5 & J6 & J7 & J8 & J9 & J10 & J11 & J12).
  rewrite ST. cbn [Z.eqb Pos.eqb]. eapply yields_bind; [apply yields_ok_status; auto|]. intros _ _.
  eapply yields_bind; [eapply (yields_lift _ _ (d, l_tip L, l_script L, zlen (l_coins L)) (eq (d, l_tip L, l_script L, zlen (l_coins L)))); auto|].
  { rewrite EJ. cbn [bind]. field J4. field J5. cbn [jint bind]. field J1. rewrite (has_key _ _ _ J2). cbn [bind]. field J3. field J7. cbn [jstr bind]. field J10. reflexivity. }
  intros ? <-. eapply yields_bind.
  - apply (blockchair_pages_all (Holds L) (l_coins L) _ _ _
      (fun k d => exists coins, Has "utxo" (JList coins) d /\ Forall2 blockchair_coin (page k 1000 (l_coins L)) coins)); auto; try lia.
    + intros k d' (cs & H & F). field H. cbn [jlist bind].
      apply (mapM_Forall2 blockchair_coin _ (Holds L) _ _ ) with (2 := F). clear - HH.
      intros c0 j0 I (A1 & A2 & A3 & A4). assert (IC : In c0 (l_coins L)).
      { unfold page in I. rewrite <- (firstn_skipn (Z.to_nat k) (l_coins L)). apply in_or_app. right.
        rewrite <- (firstn_skipn (Z.to_nat 1000) (skipn (Z.to_nat k) (l_coins L))). apply in_or_app. left. auto. }
      eexists. split; [|apply (plain_holds L)]. unfold blockchair_utxo. field A1. cbn [jint bind]. field A2. cbn [jint bind]. field A3. cbn [jstr bind]. field A4. cbn [jint bind].
      do 2 f_equal. unfold confirmations. destruct (c_height c0) as [h|] eqn:EH; [|reflexivity]. pose proof (HH c0 h IC EH).
      destruct (Z.eqb_spec h (-1)); [lia|reflexivity].
    + intros k t Hk DK NE. eapply replies_weaken; [apply (blockchair_serves n L address k t HS); auto|].
      intros j' (data' & d' & a' & c' & coins' & K1 & K2 & K3 & K4 & K5 & K6 & K7 & K8 & K9 & K10 & K11 & K12). eauto 10.
    + exists coins. auto.
    + constructor.
    + pose proof (pages_enough (zlen (l_coins L)) 1000). lia.
  - intros us F. apply yields_ret. eauto.
Qed.
Theorem C72_blockchair n L address : ServesBlockchair (OU:=OU) n L address -> Yields g (blockchair_balance n address) (eq (total L)).
Proof.
  intros [RP _]. unfold blockchair_balance. rewrite blockchair_url_eq. get. intros r (ST & j & EJ & data & d & a & c & coins & J1 & J2 & J3 & _ & _ & J6 & _).
  eapply yields_bind; [apply yields_ok_status; auto|]. intros _ _. apply (yields_lift _ _ (total L)); auto.
  rewrite EJ. cbn [bind]. field J1. rewrite (has_key _ _ _ J2). cbn [bind]. field J3. field J6. reflexivity.
Qed.

(** ** Blockstream *)
Lemma firstn_split {A} p (l : list A) : l = firstn p l ++ skipn p l.
Proof. symmetry. apply firstn_skipn. Qed.
Lemma blockstream_pages_all n p L address : (0 < p)%nat -> ServesBlockstream (OU:=OU) n p L address ->
  forall k pre j rest, (length rest < k)%nat -> l_confirmed L = pre ++ rest -> list_of Txid (firstn p rest) j ->
  Yields g (blockstream_pages k n address j pre) (eq (l_confirmed L)).
Proof.
  intros Hp HS. pose proof HS as (_ & _ & _ & _ & HN & _). cbv zeta in HN.
  induction k as [|k IH]; intros pre j rest HL HC HJ; [lia|]. cbn [blockstream_pages].
  pose proof HJ as (js & -> & F). eapply yields_bind; [apply (yields_lift _ _ js (eq js)); auto|]. intros ? <-.
  destruct rest as [|t0 rest0].
  - rewrite firstn_nil in F. inversion F; subst. apply yields_ret. rewrite HC, app_nil_r. reflexivity.
  - destruct p as [|p]; [lia|]. cbn [firstn] in F. destruct js as [|j0 js]; [inversion F|].
    eapply yields_bind; [apply (yields_lift _ _ (firstn (S p) (t0 :: rest0)) (eq (firstn (S p) (t0 :: rest0)))); auto; apply txids_list; auto|]. intros ? <-.
    set (new := firstn (S p) (t0 :: rest0)). set (post := skipn (S p) (t0 :: rest0)).
    assert (NN : new <> []) by discriminate. destruct (exists_last NN) as (new' & t & EN).
    assert (EL : last (pre ++ new) [] = t) by (rewrite EN, app_assoc; apply last_last). rewrite EL.
    assert (HC2 : l_confirmed L = (pre ++ new') ++ t :: post).
    { rewrite HC. rewrite <- app_assoc. change (t :: post) with ([t] ++ post). rewrite (app_assoc new'), <- EN. f_equal. unfold new, post. symmetry. apply firstn_skipn. }
    pose proof (HN _ _ _ HC2) as RP.
    assert (EU : blockstream_address n address ++ str "/txs/chain/" ++ t = (blockstream_url n "address/" ++ address) ++ str "/txs/chain/" ++ t).
    { destruct n; reflexivity. }
    rewrite EU. get. intros r (_ & j' & EJ & HJ'). eapply yields_bind; [apply (yields_lift _ _ j' (eq j')); auto|]. intros ? <-.
    apply (IH _ _ post).
    + unfold post. rewrite skipn_length. cbn [length] in *. lia.
    + rewrite HC, <- app_assoc. f_equal. apply firstn_split.
    + auto.
Qed.
Lemma blockstream_eq n address path : blockstream_address n address ++ path = (blockstream_url n "address/" ++ address) ++ path.
Proof. destruct n; reflexivity. Qed.
Theorem C62_blockstream p L address : ServesBlockstream (OU:=OU) Main p L address -> (0 < p)%nat -> (length (l_confirmed L) < rounds)%nat ->
  zlen (l_mempool L) < 50 -> Yields g (blockstream_transactions rounds Main address) (eq (l_confirmed L ++ l_mempool L)).
Proof.
  intros HS Hp HR HM. unfold blockstream_transactions. pose proof HS as (_ & _ & RM & RC & _). cbv zeta in RM, RC.
  assert (FM : firstn 50 (l_mempool L) = l_mempool L) by (apply firstn_all2; unfold zlen in HM; lia). rewrite FM in RM.
  rewrite !blockstream_eq. get. intros r (ST & j & EJ & HJ). rewrite ST. cbn [Z.eqb Pos.eqb]. eapply yields_bind; [apply yields_ok_status; auto|]. intros _ _.
  eapply yields_bind; [apply (yields_lift _ _ (l_mempool L) (eq (l_mempool L))); auto; rewrite EJ; cbn [bind]; apply txids_list; auto|]. intros ? <-.
  destruct (Z.eqb_spec (zlen (l_mempool L)) 50); [lia|]. eapply yields_bind with (P := eq (Some (l_confirmed L))).
  - get. intros r2 (ST2 & j2 & EJ2 & HJ2). rewrite ST2. cbn [Z.eqb Pos.eqb]. eapply yields_bind; [apply yields_ok_status; auto|]. intros _ _.
    eapply yields_bind; [apply (yields_lift _ _ j2 (eq j2)); auto|]. intros ? <-.
    eapply yields_bind; [apply (blockstream_pages_all Main p L address Hp HS rounds [] j2 (l_confirmed L)); auto|]. intros ? <-. apply yields_ret. reflexivity.
  - intros ? <-. apply yields_ret. reflexivity.
Qed.
(** Blockstream shows at most 50 unconfirmed transactions: with 50 or more it is not relied upon. *)
Theorem C62_blockstream_excessive p L address : ServesBlockstream (OU:=OU) Main p L address -> 50 <= zlen (l_mempool L) ->
  forall e, exists e', blockstream_transactions rounds Main address (mkNet g e) = (Raise ExcessiveAddress, mkNet g e').
Proof.
  intros HS HM e. unfold blockstream_transactions. pose proof HS as (_ & _ & RM & _). cbv zeta in RM. rewrite !blockstream_eq.
  destruct (yields_get g _ _ _ RM e) as (r & e' & EG & ST & j & EJ & HJ). exists e'. unfold ibind at 1. rewrite EG, ST. cbn [Z.eqb Pos.eqb].
  unfold ibind at 1. unfold ok_status. rewrite ST. cbn [Z.eqb Pos.eqb]. unfold ilift at 1. unfold ibind at 1. rewrite EJ. cbn [bind]. rewrite (txids_list _ _ HJ). unfold ilift at 1.
  assert (EL : zlen (firstn 50 (l_mempool L)) = 50) by (unfold zlen in *; rewrite firstn_length; lia). rewrite EL. reflexivity.
Qed.
(** On the test network the unconfirmed transactions are left out. *)
Theorem C62_blockstream_test p L address : ServesBlockstream (OU:=OU) Test p L address -> (0 < p)%nat -> (length (l_confirmed L) < rounds)%nat ->
  Yields g (blockstream_transactions rounds Test address) (eq (l_confirmed L)).
Proof.
  intros HS Hp HR. unfold blockstream_transactions. pose proof HS as (_ & _ & _ & RC & _). cbv zeta in RC.
  rewrite !blockstream_eq. eapply yields_bind with (P := eq (Some (l_confirmed L))).
  - get. intros r2 (ST2 & j2 & EJ2 & HJ2). rewrite ST2. cbn [Z.eqb Pos.eqb]. eapply yields_bind; [apply yields_ok_status; auto|]. intros _ _.
    eapply yields_bind; [apply (yields_lift _ _ j2 (eq j2)); auto|]. intros ? <-.
    eapply yields_bind; [apply (blockstream_pages_all Test p L address Hp HS rounds [] j2 (l_confirmed L)); auto|]. intros ? <-. apply yields_ret. reflexivity.
  - intros ? <-. apply yields_ret. reflexivity.
Qed.

Lemma insert_conf_perm u l : Permutation (u :: l) (insert_conf u l).
Proof.
  induction l as [|v l IH]; cbn; [reflexivity|]. destruct (u_confirmations u <=? u_confirmations v); [reflexivity|].
  rewrite perm_swap. apply perm_skip. auto.
Qed.
Lemma sort_conf_perm l : Permutation l (sort_conf l).
Proof. induction l as [|u l IH]; [reflexivity|]. cbn. rewrite <- insert_conf_perm. apply perm_skip. auto. Qed.
Definition fewer_confirmations (u v : Unspent) : Prop := u_confirmations u <= u_confirmations v.
Lemma insert_conf_sorted u m : StronglySorted fewer_confirmations m -> StronglySorted fewer_confirmations (insert_conf u m).
Proof.
  induction m as [|v m IHm]; intros SS; cbn; [repeat constructor|]. pose proof SS as SV. apply StronglySorted_inv in SV as [SM FM].
  destruct (Z.leb_spec (u_confirmations u) (u_confirmations v)) as [Le|Gt].
  - constructor; auto. constructor; [exact Le|]. eapply Forall_impl; [|exact FM]. unfold fewer_confirmations. intros; lia.
  - constructor; [apply IHm; auto|]. rewrite <- insert_conf_perm. constructor; [unfold fewer_confirmations; lia|auto].
Qed.
Lemma sort_conf_sorted l : StronglySorted fewer_confirmations (sort_conf l).
Proof. induction l as [|u l IH]; [constructor|]. apply insert_conf_sorted. exact IH. Qed.
Lemma int_of_digits t s : Digits t s -> s <> [] -> int_of_text s = Ok t.
Proof.
  intros D NE. unfold int_of_text. assert (A : Amount t 0 s) by (constructor; auto). destruct (Amount_clean _ _ _ A) as (A1 & _ & _).
  rewrite strip_id by auto. pose proof (Digits_chars _ _ D) as CH. destruct s as [|y s]; [congruence|]. assert (SG : sign_of (y :: s) = (false, y :: s)).
  { cbn in CH. apply andb_true_iff in CH as [P _]. cbn [sign_of]. unfold is_digit in P.
    destruct (Z.eqb_spec y 45) as [->|]; [discriminate P|]. destruct (Z.eqb_spec y 43) as [->|]; [discriminate P|]. reflexivity. }
  rewrite SG. assert (GR : forall b l, forallb is_digit l = true -> b = true \/ l <> [] -> grouped b l = Some l).
  { clear. intros b l. revert b. induction l as [|c l IH]; intros b F [->|N]; try reflexivity; try congruence; cbn in F |- *; apply andb_true_iff in F as [-> F]; rewrite IH; auto. }
  rewrite GR by (auto; right; discriminate). f_equal. apply Digits_num. auto.
Qed.

Lemma Forall2_swap {A B} (R : A -> B -> Prop) l m : Forall2 R l m -> Forall2 (fun b a => R a b) m l.
Proof. intros F. induction F; constructor; auto. Qed.
Lemma perm_Forall2 {A B} (R : A -> B -> Prop) l l' : Permutation l l' -> forall m, Forall2 R l m -> exists m', Permutation m m' /\ Forall2 R l' m'.
Proof.
  intros P. induction P as [|a l l' P IH|a b l|l1 l2 l3 P1 IH1 P2 IH2]; intros m F.
  - exists m. auto.
  - inversion F as [|? b ? m0 RA F0]; subst. destruct (IH _ F0) as (m' & P' & F'). exists (b :: m'). auto.
  - inversion F as [|? x ? m0 RA F0]; subst. inversion F0 as [|? y ? m1 RB F1]; subst. exists (y :: x :: m1). split; [apply perm_swap|auto].
  - destruct (IH1 _ F) as (m1 & Q1 & F1). destruct (IH2 _ F1) as (m2 & Q2 & F2). exists m2. split; auto. etransitivity; eauto.
Qed.
Theorem C71_blockstream n p L address script : ServesBlockstream (OU:=OU) n p L address ->
  address_to_scriptpubkey address = Ok (Some script) -> l_script L = bytes_to_hex script ->
  Yields g (blockstream_unspent n address) (fun us => exists cs, Permutation (l_coins L) cs /\ Forall2 (Holds L) cs us /\
    match n with Main => StronglySorted fewer_confirmations us | Test => cs = l_coins L end).
Proof.
  intros (RH & RU & _) ES EL. cbv zeta in RU. unfold blockstream_unspent.
  assert (EU : blockstream_endpoint n ++ str "blocks/tip/height" = blockstream_url n "blocks/tip/height") by (destruct n; reflexivity). rewrite EU.
  eapply yields_bind; [apply yields_text; eassumption|]. intros b (HB & DB & NB). eapply yields_bind; [apply yields_ok_status; auto|]. intros _ _.
  eapply yields_bind; [apply (yields_lift _ _ (l_tip L) (eq (l_tip L))); auto; apply int_of_digits; auto|]. intros ? <-.
  rewrite blockstream_eq. get. intros r (ST & j & EJ & (js & -> & HJ)). cbv zeta. rewrite ST.
  assert (REST : Yields (E:=E) g (_ <~ ilift (ok_status r) ;;
     ilift (o <- address_to_scriptpubkey address ;;
            script <- (match o with Some b => Ok (bytes_to_hex b) | None => Raise AttributeError end) ;;
            j <- r_json r ;; l <- jlist j ;; us <- mapM (blockstream_utxo (l_tip L) script) l ;;
            Ok (match n with Main => sort_conf us | Test => us end)))
    (fun us => exists cs, Permutation (l_coins L) cs /\ Forall2 (Holds L) cs us /\
       match n with Main => StronglySorted fewer_confirmations us | Test => cs = l_coins L end)).
  { eapply yields_bind; [apply yields_ok_status; auto|]. intros _ _.
    destruct (mapM_Forall2 blockstream_coin (blockstream_utxo (l_tip L) (bytes_to_hex script)) (Holds L) (l_coins L) js) as (us & EM & HU); auto.
    { intros c0 j0 I (st & A1 & A2 & A3 & A4 & A5). eexists. split; [|apply (plain_holds L)]. unfold blockstream_utxo, confirmations. rewrite EL.
      field A1. cbn [jint bind]. field A2. destruct (c_height c0) as [h|].
      - destruct A5 as [A5 A6]. field A5. cbn [jtrue]. field A6. cbn [jint bind]. field A3. cbn [jstr bind]. field A4. reflexivity.
      - field A5. cbn [jtrue bind]. field A3. cbn [jstr bind]. field A4. reflexivity. }
    eapply yields_lift.
    { rewrite ES. cbn [bind]. rewrite EJ. cbn [bind jlist]. rewrite EM. cbn [bind]. reflexivity. }
    destruct n; [|exists (l_coins L); auto].
    destruct (perm_Forall2 _ _ _ (sort_conf_perm us) _ (Forall2_swap _ _ _ HU)) as (cs & P1 & P2). exists cs. split; [exact P1|].
    split; [apply Forall2_swap in P2; exact P2|apply sort_conf_sorted]. }
  destruct n; cbn [Z.eqb Pos.eqb andb]; exact REST.
Qed.
Theorem C72_blockstream n p L address : ServesBlockstream (OU:=OU) n p L address -> Yields g (blockstream_balance n address) (eq (total L)).
Proof.
  intros (_ & _ & _ & _ & _ & RP). cbv zeta in RP. unfold blockstream_balance.
  assert (EU : blockstream_address n address = blockstream_url n "address/" ++ address) by (destruct n; reflexivity). rewrite EU.
  get. intros r (ST & j & EJ & ch & me & f1 & s1 & f2 & s2 & J1 & J2 & J3 & J4 & J5 & J6 & ET).
  eapply yields_bind; [apply yields_ok_status; auto|]. intros _ _. eapply yields_lift.
  { rewrite EJ. cbn [bind]. field J1. field J3. cbn [jint bind]. field J2. field J5. cbn [jint bind]. field J4. cbn [jint bind]. field J6. cbn [jint bind]. reflexivity. }
  lia.
Qed.

(** ** Bitcore *)
Lemma int_read v : 0 <= v < 10 ^ g_prec g -> 1 <= g_prec g <= 100000 -> zlen (str_of_int v) < 100000 -> unit_to_satoshi (g_prec g) (JInt v) SATOSHI = Ok v.
Proof.
  intros Hv Hp HL. unfold unit_to_satoshi. cbn [jtext]. change SATOSHI with (10 ^ 0).
  destruct (str_of_int_digits v ltac:(lia)) as [D N]. assert (SG : Signed false v 0 (str_of_int v)) by (constructor; constructor; auto).
  rewrite (times_unit _ _ _ _ _ _ SG) by lia. cbn [trunc]. change (10 ^ 0) with 1. f_equal. rewrite Z.div_1_r. lia.
Qed.
(** Amounts that the decimal precision allows. *)
Definition Readable (v : Z) : Prop := 0 <= v < 10 ^ g_prec g.
Lemma readable_len v : Readable v -> 1 <= g_prec g <= 90000 -> zlen (str_of_int v) < 100000.
Proof.
  intros Hv Hp. unfold str_of_int. destruct (Z.ltb_spec v 0); [unfold Readable in Hv; lia|]. rewrite Z.abs_eq by (unfold Readable in Hv; lia).
  change (zlen ([] ++ digits v)) with (ndigits v). pose proof (ndigits_le v (g_prec g) Hv ltac:(lia)). lia.
Qed.
Lemma bitcore_pages_all n p L address ids : (0 < p)%nat -> 1 <= g_prec g <= 90000 -> Forall (fun c => Readable (c_value c)) (l_coins L) ->
  length ids = length (l_coins L) ->
  let url := bitcore_url n address ++ str "/?unspent=true&limit=100" in
  (forall pre c id post, combine (l_coins L) ids = pre ++ (c, id) :: post ->
      Replies (OU:=OU) (url ++ str "&since=" ++ id) [] (list_of (bitcore_coin L) (firstn p post))) ->
  forall k pre j rest acc, (length rest < k)%nat -> combine (l_coins L) ids = pre ++ rest -> list_of (bitcore_coin L) (firstn p rest) j ->
  Forall2 (Holds L) (map fst pre) acc -> Yields g (bitcore_pages k url j acc) (Forall2 (Holds L) (l_coins L)).
Proof.
  intros Hp HP HV HI url HN. assert (FST : map fst (combine (l_coins L) ids) = l_coins L).
  { clear - HI. revert ids HI. induction (l_coins L) as [|c l IH]; intros [|i ids] H; cbn in *; try discriminate; auto. rewrite IH; auto. }
  induction k as [|k IH]; intros pre j rest acc HL HC HJ HA; [lia|]. cbn [bitcore_pages].
  pose proof HJ as (js & -> & F). eapply yields_bind; [apply (yields_lift _ _ js (eq js)); auto|]. intros ? <-.
  destruct rest as [|t0 rest0].
  - rewrite firstn_nil in F. inversion F; subst. apply yields_ret. rewrite <- FST, HC, app_nil_r. exact HA.
  - destruct p as [|p]; [lia|]. destruct js as [|j0 js]; [inversion F|].
    eapply yields_bind; [apply yields_globals|]. intros ? <-.
    set (new := firstn (S p) (t0 :: rest0)) in *. set (post := skipn (S p) (t0 :: rest0)).
    assert (SPL : t0 :: rest0 = new ++ post) by (symmetry; apply firstn_skipn).
    destruct (mapM_Forall2 (bitcore_coin L) (bitcore_utxo (g_prec g)) (fun x u => Holds L (fst x) u) new (j0 :: js)) as (us & EM & HU); auto.
    { intros [c id] jc I (A0 & A1 & A2 & A3 & A4 & A5). cbn [fst snd] in *. eexists. split; [|apply (plain_holds L)]. unfold bitcore_utxo.
      assert (RV : Readable (c_value c)).
      { rewrite Forall_forall in HV. apply HV. rewrite <- FST, HC, SPL. apply in_map_iff. exists (c, id). split; auto. apply in_or_app. right. apply in_or_app. auto. }
      field A1. rewrite int_read; auto; [|lia|apply readable_len; auto]. cbn [bind]. field A2. cbn [jint bind]. field A3. cbn [jstr bind]. field A4. cbn [jstr bind]. field A5. reflexivity. }
    eapply yields_bind; [apply (yields_lift _ _ us (eq us)); auto|]. intros ? <-.
    assert (NN : new <> []) by discriminate. destruct (exists_last NN) as (new' & [c id] & EN).
    assert (LST : jget "_id" (last (j0 :: js) JNull) = Ok (JStr id)).
    { rewrite EN in F. apply Forall2_app_inv_l in F as (m1 & m2 & F1 & F2 & EJS). inversion F2 as [|? jl ? m3 RJ F3]; subst. inversion F3; subst.
      rewrite EJS, last_last. apply has. apply RJ. }
    eapply yields_bind; [apply (yields_lift _ _ id (eq id)); auto; rewrite LST; reflexivity|]. intros ? <-.
    assert (HC2 : combine (l_coins L) ids = (pre ++ new') ++ (c, id) :: post).
    { rewrite HC, SPL, EN, <- !app_assoc. reflexivity. }
    pose proof (HN _ _ _ _ HC2) as RP. get. intros r (_ & j' & EJ & HJ'). eapply yields_bind; [apply (yields_lift _ _ j' (eq j')); auto|]. intros ? <-.
    apply (IH (pre ++ new) _ post).
    + unfold post. rewrite skipn_length. cbn [length] in *. lia.
    + rewrite HC, SPL, app_assoc. reflexivity.
    + auto.
    + rewrite map_app. apply Forall2_app; auto. clear - HU. induction HU; constructor; auto.
Qed.
Theorem C71_bitcore n p L address : ServesBitcore (OU:=OU) n p L address -> (0 < p)%nat -> (length (l_coins L) < rounds)%nat ->
  1 <= g_prec g <= 90000 -> Forall (fun c => Readable (c_value c)) (l_coins L) ->
  Yields g (bitcore_unspent rounds n address) (Forall2 (Holds L) (l_coins L)).
Proof.
  intros (_ & ids & HI & RP & HN) Hp HR HP HV. cbv zeta in RP, HN. unfold bitcore_unspent.
  assert (EU : bitcore_endpoint n ++ str "address/" ++ address ++ str "/?unspent=true&limit=100" = bitcore_url n address ++ str "/?unspent=true&limit=100").
  { destruct n; reflexivity. }
  rewrite EU. get. intros r (ST & j & EJ & HJ). eapply yields_bind; [apply yields_ok_status; auto|]. intros _ _.
  eapply yields_bind; [apply (yields_lift _ _ j (eq j)); auto|]. intros ? <-.
  apply (bitcore_pages_all n p L address ids Hp HP HV HI HN rounds [] j (combine (l_coins L) ids)); auto.
  - rewrite combine_length. lia.
  - constructor.
Qed.
Theorem C72_bitcore n p L address : ServesBitcore (OU:=OU) n p L address -> Yields g (bitcore_balance n address) (eq (total L)).
Proof.
  intros (RP & _). unfold bitcore_balance.
  assert (EU : bitcore_endpoint n ++ str "address/" ++ address ++ str "/balance" = bitcore_url n address ++ str "/balance") by (destruct n; reflexivity).
  rewrite EU. get. intros r (ST & j & EJ & HJ). eapply yields_bind with (P := fun _ => True).
  - apply (yields_lift _ _ tt); auto. unfold raise_for_status. rewrite ST. reflexivity.
  - intros _ _. apply (yields_lift _ _ (total L)); auto. rewrite EJ. cbn [bind]. field HJ. reflexivity.
Qed.

(** ** Smartbit *)
Lemma smartbit_pages_all {A B} (R : A -> B -> Prop) (shows : list A -> json -> json -> Prop) readp params :
  (forall items next j, shows items next j -> exists bs, readp j = Ok (bs, next) /\ Forall2 R items bs) ->
  forall m next rest, Linked (OU:=OU) params shows m next rest -> forall k pre acc, (m < k)%nat -> Forall2 R pre acc ->
  Yields g (smartbit_pages k readp params next acc) (Forall2 R (pre ++ rest)).
Proof.
  intros HP m next rest LK. induction LK as [|m url items next rest NU RP LK IH]; intros k pre acc Hk HA.
  - destruct k as [|k]; [lia|]. cbn. apply yields_ret. rewrite app_nil_r. exact HA.
  - destruct k as [|k]; [lia|]. cbn [smartbit_pages]. destruct url as [|ch url]; [congruence|]. cbn [jtrue negb].
    eapply yields_bind; [apply (yields_lift _ _ (ch :: url) (eq (ch :: url))); auto|]. intros ? <-.
    get. intros r (ST & j & EJ & HJ). eapply yields_bind; [apply yields_ok_status; auto|]. intros _ _.
    destruct (HP _ _ _ HJ) as (bs & EP & HB).
    eapply yields_bind; [apply (yields_lift _ _ (bs, next) (eq (bs, next))); auto; rewrite EJ; auto|]. intros ? <-.
    rewrite app_assoc. apply IH; [lia|]. apply Forall2_app; auto.
Qed.
Lemma smartbit_txs_read items next j : smartbit_txs_page items next j -> exists bs, smartbit_txs j = Ok (bs, next) /\ Forall2 eq items bs.
Proof.
  intros (a & p & txs & J1 & J2 & J3 & J4 & J5). exists items. split; [|apply Forall2_eq_iff; reflexivity]. unfold smartbit_txs.
  field J1. field J2. rewrite (txids_list items (JList txs)) by (exists txs; auto). cbn [bind]. field J4. field J5. reflexivity.
Qed.
Theorem C62_smartbit n pages L address : ServesSmartbit (OU:=OU) n pages L address -> (pages < rounds)%nat ->
  Yields g (smartbit_transactions rounds n address) (eq (l_mempool L ++ l_confirmed L)).
Proof.
  intros (_ & HT & _) HR. unfold smartbit_transactions. assert (EU : smartbit_address n address = smartbit_url n address) by (destruct n; reflexivity).
  rewrite EU. change limit1000 with (limit "1000"). destruct HT as [(EN & RP)|(items & next & rest & k & Hk & EL & RP & LK)].
  - get. intros r (ST & j & EJ & a & J1 & J2). eapply yields_bind; [apply yields_ok_status; auto|]. intros _ _.
    eapply yields_bind; [apply (yields_lift _ _ ([], JNull) (eq ([], JNull))); auto|].
    { rewrite EJ. cbn [bind]. field J1. rewrite (lacks_jhas _ _ J2). reflexivity. }
    intros ? <-. destruct rounds as [|rn]; [lia|]. apply yields_ret. rewrite EN. reflexivity.
  - get. intros r (ST & j & EJ & HJ). eapply yields_bind; [apply yields_ok_status; auto|]. intros _ _.
    destruct (smartbit_txs_read _ _ _ HJ) as (bs & EB & FB). apply Forall2_eq_iff in FB. subst bs.
    eapply yields_bind; [apply (yields_lift _ _ (items, next) (eq (items, next))); auto|].
    { rewrite EJ. cbn [bind]. destruct HJ as (a & p & txs & J1 & J2 & _). field J1. rewrite (has_jhas _ _ _ J2). cbn [bind]. exact EB. }
    intros ? <-. eapply yields_weaken.
    + apply (smartbit_pages_all eq smartbit_txs_page) with (m := k) (pre := items) (rest := rest); auto; [|lia|apply Forall2_eq_iff; reflexivity].
      intros; apply smartbit_txs_read; auto.
    + intros l F. apply Forall2_eq_iff in F. congruence.
Qed.
Lemma smartbit_coins_read L items next j : Forall (fun c => Readable (c_value c)) items -> 1 <= g_prec g <= 90000 -> smartbit_coins_page L items next j ->
  exists bs, smartbit_utxos (g_prec g) j = Ok (bs, next) /\ Forall2 (Holds L) items bs.
Proof.
  intros HV HP (p & coins & J1 & J2 & J3 & J4). unfold smartbit_utxos.
  destruct (mapM_Forall2 (smartbit_coin L) (smartbit_utxo (g_prec g)) (Holds L) items coins) as (us & EM & HU); auto.
  { intros c jc I (s & t & A1 & (d & k & AM & EV & HL) & A2 & A3 & A4 & A5 & A6). eexists. split; [|apply (plain_holds L)]. unfold smartbit_utxo, unit_to_satoshi.
    rewrite Forall_forall in HV. specialize (HV c I). assert (SG : Signed false d k t) by (constructor; auto). pose proof (Signed_len _ _ _ _ SG) as [Hd Hk].
    field A1. cbn [jtext]. rewrite (amount_read (g_prec g) (c_value c) d k t); auto; try lia; [|constructor; auto]. cbn [bind].
    field A2. cbn [jint bind]. field A3. field A4. cbn [jstr bind]. field A5. cbn [jstr bind]. field A6. reflexivity. }
  exists us. split; auto. field J1. cbn [jlist bind]. rewrite EM. cbn [bind]. field J3. field J4. reflexivity.
Qed.
Theorem C71_smartbit n pages L address : ServesSmartbit (OU:=OU) n pages L address -> (pages < rounds)%nat ->
  1 <= g_prec g <= 90000 -> Forall (fun c => Readable (c_value c)) (l_coins L) ->
  Yields g (smartbit_unspent rounds n address) (Forall2 (Holds L) (l_coins L)).
Proof.
  intros (_ & _ & HT) HR HP HV. unfold smartbit_unspent. assert (EU : smartbit_address n address ++ str "/unspent" = smartbit_url n address ++ str "/unspent") by (destruct n; reflexivity).
  rewrite EU. change limit1000 with (limit "1000"). destruct HT as [(EN & RP)|(items & next & rest & k & Hk & EL & RP & LK)].
  - get. intros r (ST & j & EJ & J2). eapply yields_bind; [apply yields_ok_status; auto|]. intros _ _.
    eapply yields_bind; [apply yields_globals|]. intros ? <-.
    eapply yields_bind; [apply (yields_lift _ _ ([], JNull) (eq ([], JNull))); auto|].
    { rewrite EJ. cbn [bind]. rewrite (lacks_jhas _ _ J2). reflexivity. }
    intros ? <-. destruct rounds as [|rn]; [lia|]. apply yields_ret. rewrite EN. constructor.
  - rewrite EL in HV. apply Forall_app in HV as [HV1 HV2].
    get. intros r (ST & j & EJ & HJ). eapply yields_bind; [apply yields_ok_status; auto|]. intros _ _.
    eapply yields_bind; [apply yields_globals|]. intros ? <-.
    destruct (smartbit_coins_read L _ _ _ HV1 HP HJ) as (bs & EB & FB).
    eapply yields_bind; [apply (yields_lift _ _ (bs, next) (eq (bs, next))); auto|].
    { rewrite EJ. cbn [bind]. destruct HJ as (p & coins & J1 & _). rewrite (has_jhas _ _ _ J1). cbn [bind]. exact EB. }
    intros ? <-. rewrite EL.
    assert (LK2 : Linked (OU:=OU) (limit "1000") (fun items next j => Forall (fun c => Readable (c_value c)) items /\ smartbit_coins_page L items next j) k next rest).
    { clear - LK HV2. induction LK as [|m url items next rest NU RP LK IH]; [constructor|]. apply Forall_app in HV2 as [V1 V2]. apply L_link with (next := next); auto.
      eapply replies_weaken; [exact RP|]. auto. }
    apply (smartbit_pages_all (Holds L) _ _ _) with (2 := LK2); auto; [|lia].
    intros ? ? ? [V J]. apply smartbit_coins_read; auto.
Qed.
Theorem C72_smartbit n pages L address : ServesSmartbit (OU:=OU) n pages L address -> Yields g (smartbit_balance n address) (eq (total L)).
Proof.
  intros (RP & _). unfold smartbit_balance. assert (EU : smartbit_address n address = smartbit_url n address) by (destruct n; reflexivity).
  rewrite EU. change [(str "limit", str "1")] with (limit "1"). get. intros r (ST & j & EJ & a & t & J1 & J2 & J3). eapply yields_bind; [apply yields_ok_status; auto|]. intros _ _.
  apply (yields_lift _ _ (total L)); auto. rewrite EJ. cbn [bind]. field J1. field J2. field J3. reflexivity.
Qed.

(** ** blockchain.info *)
Lemma blockchain_pages_all full url :
  (forall k t, 0 <= k -> Digits k t -> t <> [] -> Replies (OU:=OU) url [(str "offset", t)] (fun j =>
    exists txs, Has "txs" (JList txs) j /\ Forall2 (fun t x => Has "hash" (JStr t) x) (page k 50 full) txs)) ->
  forall m k j, 0 <= k -> (exists txs, Has "txs" (JList txs) j /\ Forall2 (fun t x => Has "hash" (JStr t) x) (page k 50 full) txs) ->
  zlen full <= k + 50 * Z.of_nat m -> Yields g (blockchain_pages m url k j (firstn (Z.to_nat k) full)) (eq full).
Proof.
  intros HR. induction m as [|m IH]; intros k j Hk (txs & J1 & J2) HL; cbn [blockchain_pages].
  - apply yields_ret. symmetry. apply firstn_zlen. lia.
  - destruct (mapM_Forall2 (fun t x => Has "hash" (JStr t) x) (fun t => x <- jget "hash" t ;; jstr x) eq (page k 50 full) txs) as (bs & EM & HB).
    { intros a jc _ H. exists a. rewrite (has _ _ _ H). auto. }
    { exact J2. }
    apply Forall2_eq_iff in HB. subst bs.
    eapply yields_bind; [apply (yields_lift _ _ (page k 50 full) (eq (page k 50 full))); auto; field J1; cbn [jlist bind]; auto|]. intros ? <-.
    destruct (str_of_int_digits (k + 50) ltac:(lia)) as [D1 D2]. pose proof (HR (k + 50) _ ltac:(lia) D1 D2) as RP.
    get. intros r (_ & j' & EJ & HJ). eapply yields_bind; [apply (yields_lift _ _ j' (eq j')); auto|]. intros ? <-.
    rewrite page_app by lia. apply IH; auto; lia.
Qed.
Theorem C62_blockchain L address : ServesBlockchain (OU:=OU) L address ->
  Yields g (blockchain_transactions address) (eq (l_mempool L ++ l_confirmed L)).
Proof.
  intros (_ & HR & _). unfold blockchain_transactions. change (blockchain_address address) with (blockchain_url address). destruct digits0 as [D0 D1].
  pose proof (HR 0 [48] ltac:(lia) D0 D1) as RP. change (str_of_int 0) with [48]. get. intros r (ST & j & EJ & J1 & J2).
  eapply yields_bind; [apply yields_ok_status; auto|]. intros _ _.
  eapply yields_bind; [apply (yields_lift _ _ (j, zlen (l_mempool L ++ l_confirmed L)) (eq (j, zlen (l_mempool L ++ l_confirmed L)))); auto|].
  { rewrite EJ. cbn [bind]. field J1. reflexivity. }
  intros ? <-. apply (blockchain_pages_all (l_mempool L ++ l_confirmed L)) with (k := 0); auto; try lia.
  - intros k t Hk DK NE. eapply replies_weaken; [apply HR; eauto|]. intros j' [_ H]. exact H.
  - pose proof (pages_enough (zlen (l_mempool L ++ l_confirmed L)) 50). lia.
Qed.
Lemma rev_Forall2 {A B} (R : A -> B -> Prop) l m : Forall2 R l m -> Forall2 R (rev l) (rev m).
Proof. intros F. induction F; cbn; [constructor|]. apply Forall2_app; auto. Qed.
Theorem C71_blockchain L address : ServesBlockchain (OU:=OU) L address -> zlen (l_coins L) < 1000 ->
  Yields g (blockchain_unspent address) (Forall2 (Holds L) (rev (l_coins L))).
Proof.
  intros (_ & _ & HU) HL. cbv zeta in HU. unfold blockchain_unspent.
  change (blockchain_endpoint ++ str "unspent") with (str "https://blockchain.info/unspent").
  change ((str "active", address) :: offset_params 0 1000) with [(str "active", address); (str "offset", str "0"); (str "limit", str "1000")].
  destruct HU as [(EN & H5)|RP].
  - intros e. destruct (H5 (g_timeout g) e) as (r & e' & EG & ST). exists [], e'. rewrite EN. split; [|constructor]. unfold ibind at 1. unfold http_get, outside, zoom. cbn [n_outside n_globals].
    rewrite EG, ST. reflexivity.
  - get. intros r (ST & j & EJ & coins & J1 & J2). rewrite ST. cbn [Z.eqb Pos.eqb]. eapply yields_bind; [apply yields_ok_status; auto|]. intros _ _.
    rewrite firstn_all2 in J2 by (unfold zlen in HL; lia).
    destruct (mapM_Forall2 (blockchain_coin L) blockchain_utxo (Holds L) (l_coins L) coins) as (us & EM & HU); auto.
    { intros c jc _ (A1 & A2 & A3 & A4 & A5). eexists. split; [|apply (plain_holds L)]. unfold blockchain_utxo.
      field A1. cbn [jint bind]. field A2. cbn [jint bind]. field A3. cbn [jstr bind]. field A4. cbn [jstr bind]. field A5. reflexivity. }
    eapply yields_bind; [apply (yields_lift _ _ us (eq us)); auto; rewrite EJ; cbn [bind]; field J1; cbn [jlist bind]; exact EM|]. intros ? <-.
    pose proof (Forall2_length _ _ _ HU) as LU. destruct (Z.eqb_spec (zlen us) 1000); [unfold zlen in *; lia|]. apply yields_ret. apply rev_Forall2. exact HU.
Qed.
(** It shows at most 1000 coins: with 1000 or more it is not relied upon. *)
Theorem C71_blockchain_excessive L address : ServesBlockchain (OU:=OU) L address -> 1000 <= zlen (l_coins L) ->
  forall e, exists e', blockchain_unspent address (mkNet g e) = (Raise ExcessiveAddress, mkNet g e').
Proof.
  intros (_ & _ & HU) HL e. cbv zeta in HU. destruct HU as [(EN & _)|RP]; [rewrite EN in HL; unfold zlen in HL; cbn in HL; lia|].
  unfold blockchain_unspent. change (blockchain_endpoint ++ str "unspent") with (str "https://blockchain.info/unspent").
  change ((str "active", address) :: offset_params 0 1000) with [(str "active", address); (str "offset", str "0"); (str "limit", str "1000")].
  destruct (yields_get g _ _ _ RP e) as (r & e' & EG & ST & j & EJ & coins & J1 & J2). exists e'. unfold ibind at 1. rewrite EG, ST. cbn [Z.eqb Pos.eqb].
  unfold ibind at 1. unfold ok_status. rewrite ST. cbn [Z.eqb Pos.eqb]. unfold ilift at 1.
  destruct (mapM_Forall2 (blockchain_coin L) blockchain_utxo (Holds L) (firstn 1000 (l_coins L)) coins) as (us & EM & HU); auto.
  { intros c jc _ (A1 & A2 & A3 & A4 & A5). eexists. split; [|apply (plain_holds L)]. unfold blockchain_utxo.
    field A1. cbn [jint bind]. field A2. cbn [jint bind]. field A3. cbn [jstr bind]. field A4. cbn [jstr bind]. field A5. reflexivity. }
  unfold ibind at 1. rewrite EJ. cbn [bind]. rewrite (has _ _ _ J1). cbn [jlist bind]. rewrite EM. unfold ilift at 1.
  pose proof (Forall2_length _ _ _ HU) as LU. rewrite firstn_length in LU. assert (EL : zlen us = 1000) by (unfold zlen in *; lia). rewrite EL. reflexivity.
Qed.
Theorem C72_blockchain L address : ServesBlockchain (OU:=OU) L address -> Yields g (blockchain_balance address) (eq (total L)).
Proof.
  intros (RP & _). unfold blockchain_balance. change (blockchain_address address) with (blockchain_url address). get. intros r (ST & j & EJ & HJ).
  eapply yields_bind; [apply yields_ok_status; auto|]. intros _ _. apply (yields_lift _ _ (total L)); auto. rewrite EJ. cbn [bind]. field HJ. reflexivity.
Qed.

(** ** A node *)
Theorem C71_node url L received address : ServesNode (OU:=OU) url L received address -> 1 <= g_prec g <= 90000 ->
  Forall (fun c => Readable (c_value c)) (l_coins L) -> Yields g (node_unspent url address) (Forall2 (Holds L) (l_coins L)).
Proof.
  intros (RP & _) HP HV. unfold node_unspent. eapply yields_bind; [apply yields_rpc; eassumption|]. intros ? (js & -> & HJ).
  eapply yields_bind; [apply yields_globals|]. intros ? <-.
  destruct (mapM_Forall2 (node_coin L) (node_utxo (g_prec g)) (Holds L) (l_coins L) js) as (us & EM & HU); auto.
  { intros c jc I (repr & x & A1 & (d & k & AM & EV & HL & HK) & A2 & A3 & A4 & A5). eexists. split; [|apply (plain_holds L)]. unfold node_utxo, unit_to_satoshi.
    rewrite Forall_forall in HV. specialize (HV c I).
    assert (HD : 0 <= d /\ 0 <= k).
    { destruct AM as [d k s A|d k s x' xs A DX _].
      - pose proof (Signed_len false d k s (S_plain _ _ _ A)) as [? ?]. lia.
      - pose proof (Signed_len false d k s (S_plain _ _ _ A)) as [? ?]. pose proof (Digits_nonneg _ _ DX). lia. }
    field A1. cbn [jtext]. rewrite (amount_read (g_prec g) (c_value c) d k repr); auto; try lia. cbn [bind].
    field A2. cbn [jint bind]. field A3. cbn [jstr bind]. field A4. cbn [jstr bind]. field A5. reflexivity. }
  apply (yields_lift _ _ us); auto.
Qed.
Theorem C62_node url L received address : ServesNode (OU:=OU) url L received address -> Yields g (node_transactions url address) (eq received).
Proof.
  intros (_ & RP). unfold node_transactions. eapply yields_bind; [apply yields_rpc; eassumption|]. intros j [(-> & ->)|(x & -> & HX)].
  - apply (yields_lift _ _ []); auto.
  - apply (yields_lift _ _ received); auto. cbn [jlist bind]. field HX. cbn [jlist bind]. apply mapM_strs.
Qed.
(** The balance of a node is what the address ever received; and only below ten bitcoins.
    The precision of all decimal arithmetic is changed on the way. *)
Theorem C72_node_received url V address : NodeReceived (OU:=OU) url V address -> 0 < V < 10 ^ 9 -> forall e,
  exists e', node_balance url address (mkNet g e) = (Ok V, mkNet (set_prec 9 g) e').
Proof.
  intros RP HV e. unfold node_balance. unfold ibind at 1. change (modify_globals (set_prec (ndigits BTC)) (mkNet g e)) with (Ok tt, mkNet (set_prec 9 g) e).
  cbv beta iota. destruct (yields_rpc (set_prec 9 g) _ _ _ _ RP e) as (j & e' & EJ & repr & c & k & -> & Hc & Hk & HE). exists e'. unfold ibind at 1. rewrite EJ.
  destruct (round_near V c k) as (x & EM & EI); auto; [lia|lia|].
  unfold ibind at 1. change (globals (mkNet (set_prec 9 g) e')) with (Ok (set_prec 9 g), mkNet (set_prec 9 g) e'). cbv beta iota.
  unfold ilift. cbn [jdec bind]. change (g_prec (set_prec 9 g)) with 9. rewrite EM. cbn [bind]. rewrite EI. reflexivity.
Qed.
End WithOutside.

(** ** Examples: servers that know three coins, on several pages *)
Example C62_blockchair_hypotheses : ServesBlockchair (OU:=known_to true) Main known addr.
Proof. apply known_blockchair. Qed.
Example C62_blockstream_hypotheses : ServesBlockstream (OU:=known_to true) Main 2 known addr /\ zlen (l_mempool known) < 50.
Proof. split; [apply known_blockstream|reflexivity]. Qed.
Example C71_bitcore_hypotheses : ServesBitcore (OU:=known_to true) Main 2 known addr /\ Forall (fun c => 0 <= c_value c < 10 ^ 28) (l_coins known).
Proof. split; [apply known_bitcore|]. repeat constructor; vm_compute; congruence. Qed.
Example C71_smartbit_hypotheses : ServesSmartbit (OU:=known_to true) Main 1 known addr.
Proof. apply known_smartbit. Qed.
Example C71_blockchain_hypotheses : ServesBlockchain (OU:=known_to true) known addr /\ zlen (l_coins known) < 1000.
Proof. split; [apply known_blockchain|reflexivity]. Qed.
Example C71_node_hypotheses : ServesNode (OU:=known_to true) (str "node") known [str "aa01"; str "aa02"; str "aa04"] addr.
Proof. apply known_node. Qed.
Example C71_blockstream_hypotheses : exists b, @address_to_scriptpubkey toy addr = Ok (Some b) /\ l_script known = bytes_to_hex b.
Proof. apply addr_script_ok. Qed.
Example C72_node_hypotheses : NodeReceived (OU:=known_to true) (str "node") 500000000 addr.
Proof.
  intros e. eexists _, _, _, _. split; [reflexivity|]. split; [reflexivity|]. split; [reflexivity|]. split; [right; hask|]. split; [hask|].
  exists (str "5.0"), 5, 0. split; [reflexivity|]. vm_compute. repeat split; congruence.
Qed.
Example C71_case : exists us, fst (@bitcore_unspent Z (known_to true) 5 Main addr (mkNet (initial_globals 0 0) 0)) = Ok us /\ map u_amount us = [150000; 2500; 123456789].
Proof. eexists. split; vm_compute; reflexivity. Qed.

(** One could expect that the balance of a node is the sum of the coins: it is not.  The node
    lists coins worth 123609289 satoshi and the balance is 500000000. *)
Theorem C72_node_refuted : exists (OU : Outside Z) url L received address s,
  ServesNode url L received address /\ NodeReceived url 500000000 address /\ total L = 123609289 /\ fst (node_balance url address s) = Ok 500000000.
Proof.
  exists (known_to true), (str "node"), known, [str "aa01"; str "aa02"; str "aa04"], addr, (mkNet (initial_globals 0 0) 0).
  split; [apply known_node|]. split; [apply C72_node_hypotheses|]. vm_compute. auto.
Qed.
(** From ten bitcoins on not even what was received: 12.34567891 bitcoins are 1234567890 satoshi. *)
Definition rich : Outside Z := {|
  o_get := fun _ _ _ e => (Raise ReqTimeout, e); o_post := fun _ _ _ e => (Raise ReqTimeout, e);
  o_rpc := fun _ _ _ _ e => (Ok (mkResp 200 [] (Ok (obj [("result", JFloat (str "12.34567891") (Fin false 12345678910000000172431100509129464626312255859375 (-48)))]%string))), e);
  o_time := fun e => (Ok e, e) |}.
Theorem C72_node_digits_refuted : exists (OU : Outside Z) url V address s,
  NodeReceived url V address /\ V = 1234567891 /\ fst (node_balance url address s) = Ok 1234567890.
Proof.
  exists rich, (str "node"), 1234567891, addr, (mkNet (initial_globals 0 0) 0). split; [|vm_compute; auto].
  intros e. eexists _, _, _, _. split; [reflexivity|]. split; [reflexivity|]. split; [reflexivity|].
  split; [left; eexists; split; [reflexivity|]; cbn; intuition discriminate|]. split; [hask|].
  exists (str "12.34567891"), 12345678910000000172431100509129464626312255859375, 48. split; [reflexivity|]. vm_compute. repeat split; congruence.
Qed.

Print Assumptions C62_blockchair.
Print Assumptions C71_blockchair.
Print Assumptions C72_blockchair.
Print Assumptions C62_blockstream.
Print Assumptions C62_blockstream_excessive.
Print Assumptions C62_blockstream_test.
Print Assumptions C71_blockstream.
Print Assumptions C72_blockstream.
Print Assumptions C71_bitcore.
Print Assumptions C72_bitcore.
Print Assumptions C62_smartbit.
Print Assumptions C71_smartbit.
Print Assumptions C72_smartbit.
Print Assumptions C62_blockchain.
Print Assumptions C71_blockchain.
Print Assumptions C71_blockchain_excessive.
Print Assumptions C72_blockchain.
Print Assumptions C71_node.
Print Assumptions C62_node.
Print Assumptions C72_node_received.
Print Assumptions C72_node_refuted.
Print Assumptions C72_node_digits_refuted.
