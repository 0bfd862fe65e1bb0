(** C87: what the wallet shows after a payment. *)
From Coq Require Import String Permutation.
From Verif Require Import F_cosign F_cosigntx F_signtx F_wallet F_utf8 F_spend F_wire F_build P_outputs P_select P_sign P_multi P_wallet P_create P_state P_send X_world X_server.
From Verif Require Import M_app F_app S_Decimal S_History S_Servers S_Failover S_After F_decimal F_network F_servers P_rates P_network P_services P_failover P_anyservice P_app.

(** ** Sums *)
Definition zt (l : list Z) : Z := fold_right Z.add 0 l.
Lemma zt_perm l m : Permutation l m -> zt l = zt m.
Proof. unfold zt. induction 1; cbn; lia. Qed.
Lemma zt_app l m : zt (l ++ m) = zt l + zt m.
Proof. unfold zt. induction l; cbn; lia. Qed.
Lemma marked {K} (T N G R : list (K * Z)) : Permutation (T ++ N) (G ++ R) -> NoDup (map fst (T ++ N)) ->
  (forall g, In g G -> In (fst g) (map fst T)) -> (forall g, In g R -> ~ In (fst g) (map fst T)) -> zt (map snd G) = zt (map snd T).
Proof.
  intros P D HG HR. apply zt_perm, Permutation_map.
  assert (DG : NoDup (map fst (G ++ R))) by (eapply Permutation_NoDup; [apply Permutation_map; exact P|exact D]).
  assert (SEP : forall a, In a T -> In (fst a) (map fst N) -> False).
  { intros a A B. rewrite map_app in D. apply (in_map fst) in A. clear -D A B. induction (map fst T) as [|x l IH]; [destruct A|].
    cbn in D. inversion D as [|? ? H1 H2]; subst. destruct A as [->|A]; auto. apply H1, in_or_app. auto. }
  apply NoDup_Permutation.
  - apply (NoDup_map_inv fst). rewrite map_app in DG. clear -DG. induction (map fst G); [constructor|]. cbn in DG. inversion DG as [|? ? H1 H2]; subst. constructor; auto. intros I. apply H1, in_or_app. auto.
  - apply (NoDup_map_inv fst). rewrite map_app in D. clear -D. induction (map fst T); [constructor|]. cbn in D. inversion D as [|? ? H1 H2]; subst. constructor; auto. intros I. apply H1, in_or_app. auto.
  - intros g. split; intros I.
    + assert (J : In g (T ++ N)) by (eapply Permutation_in; [apply Permutation_sym; exact P|apply in_or_app; auto]). apply in_app_or in J as [J|J]; auto.
      exfalso. specialize (HG g I). apply in_map_iff in HG as (t & EQ & It). apply (SEP t It). rewrite EQ. apply in_map. exact J.
    + assert (J : In g (G ++ R)) by (eapply Permutation_in; [exact P|apply in_or_app; auto]). apply in_app_or in J as [J|J]; auto.
      exfalso. apply (HR g J). apply in_map. exact I.
Qed.
Lemma received_others s1 s2 id outs : s1 <> s2 -> forall n,
  zt (map o_value outs) = zt (map (fun e => fst (fst e)) (received s1 id n outs)) + zt (map (fun e => fst (fst e)) (received s2 id n outs)) +
  zt (map o_value (filter (fun o => negb (list_eqb (bytes_to_hex (o_script o)) s1 || list_eqb (bytes_to_hex (o_script o)) s2)) outs)).
Proof.
  intros NE. induction outs as [|o outs IH]; intros n; [reflexivity|]. cbn [map received filter]. specialize (IH (n + 1)).
  rewrite !map_app, !zt_app. change (zt (o_value o :: map o_value outs)) with (o_value o + zt (map o_value outs)). rewrite IH.
  destruct (list_eqb (bytes_to_hex (o_script o)) s1) eqn:E1, (list_eqb (bytes_to_hex (o_script o)) s2) eqn:E2; cbn [orb negb map fst]; unfold zt; cbn [fold_right map]; try lia.
  apply list_eqb_eq in E1, E2. congruence.
Qed.

Section After.
Context {CR : Crypto} {E : Type} {OU : Outside E} {CH : Chance E} (rounds : nat).
Notation NW := (network (CR:=CR) (E:=E) rounds).

Definition ckey (c : Coin) := ((hex_to_bytes (c_txid c), c_index c), c_value c).
Definition ukey (u : Unspent) := ((hex_to_bytes (u_txid u), u_txindex u), u_amount u).
Lemma held_keys sg b L cs us : Forall2 (Held sg b L) cs us -> map ukey us = map ckey cs.
Proof. induction 1 as [|c u cs us (H0 & _ & _ & H1 & H2 & _) F IH]; cbn; [reflexivity|]. unfold ukey at 1, ckey at 1. rewrite IH, H0, H1, H2. reflexivity. Qed.
Lemma total_perm L cs : Permutation (l_coins L) cs -> total L = zt (map c_value cs).
Proof. intros P. unfold total. apply (zt_perm (map c_value (l_coins L))), Permutation_map. exact P. Qed.
Lemma entries_total L es : Permutation (map entry (l_coins L)) es -> total L = zt (map (fun e => fst (fst e)) es).
Proof.
  intros P. unfold total. rewrite <- (zt_perm _ _ (Permutation_map (fun e => fst (fst e)) P)). rewrite map_map. reflexivity.
Qed.

(** The two ledgers together lose what is paid to others, and the fee. *)
Theorem after_asked sg outputs f leftover o us1 us2 sel w h x id L1 L2 L1' L2' :
  @Asked CR _ _ NW sg outputs f leftover o (us1 ++ us2) sel w h x -> AllHeld sg false L1 us1 -> AllHeld sg true L2 us2 ->
  GoodIds (l_coins L1 ++ l_coins L2) -> l_script L1 <> l_script L2 -> After x id L1 L1' -> After x id L2 L2' ->
  total L1' + total L2' = total L1 + total L2 - to_others (l_script L1) (l_script L2) x - (amounts sel - S_Fee.total (map o_value (t_outs x))).
Proof.
  intros (outs & sats & w1 & change & msgs & back & B & _ & _ & _ & _ & _ & _ & (taken & unused & Pm & _ & _ & Hs) & _) (cs1 & P1 & F1) (cs2 & P2 & F2) (_ & ND) NE
    (_ & sp1 & k1 & Q1 & S1 & N1 & R1) (_ & sp2 & k2 & Q2 & S2 & N2 & R2).
  destruct B as (_ & _ & _ & FI & FO).
  assert (MA : map u_amount taken = map u_amount sel).
  { rewrite Hs. destruct (o_replace_by_fee o); auto. destruct (rbf_maps taken) as (-> & _). auto. }
  assert (KO : map fst (map ukey taken) = map (fun i => (Ok (rev (i_txid i)), i_vout i)) (t_ins x)).
  { rewrite map_map. transitivity (map (fun u => (hex_to_bytes (u_txid u), u_txindex u)) sel).
    - rewrite Hs. destruct (o_replace_by_fee o); auto. rewrite map_map. apply map_ext. intros u. unfold ukey. cbn [fst]. destruct (rbf_keep u) as (-> & -> & _). auto.
    - clear -FI. induction FI as [|u xi us xs ((A & B) & _) F IH]; cbn [map]; auto. rewrite IH, A, B. reflexivity. }
  assert (SB : forall c, SpentBy x c <-> In (fst (ckey c)) (map fst (map ukey taken))).
  { intros c. rewrite KO. unfold SpentBy, ckey. cbn [fst]. rewrite in_map_iff. split.
    - intros (i & I & A & B). exists i. rewrite A, B. auto.
    - intros (i & A & I). exists i. injection A as A B. auto. }
  assert (PP : Permutation (map ukey taken ++ map ukey unused) (map ckey (sp1 ++ sp2) ++ map ckey (k1 ++ k2))).
  { rewrite <- !map_app. eapply Permutation_trans; [apply Permutation_map; exact Pm|]. rewrite map_app, (held_keys _ _ _ _ _ F1), (held_keys _ _ _ _ _ F2), <- map_app.
    apply Permutation_map. eapply Permutation_trans; [apply Permutation_app; apply Permutation_sym; eassumption|].
    eapply Permutation_trans; [apply Permutation_app; eassumption|]. rewrite <- !app_assoc. apply Permutation_app_head. rewrite !app_assoc. apply Permutation_app_tail. apply Permutation_app_comm. }
  assert (DD : NoDup (map fst (map ukey taken ++ map ukey unused))).
  { eapply Permutation_NoDup; [apply Permutation_map, Permutation_sym; exact PP|]. rewrite <- map_app, map_map. 
    assert (EQ : map (fun c => (hex_to_bytes (c_txid c), c_index c)) (l_coins L1 ++ l_coins L2) = map (fun c => fst (ckey c)) (l_coins L1 ++ l_coins L2)) by reflexivity. rewrite EQ in ND.
    eapply Permutation_NoDup; [|exact ND]. apply Permutation_map. eapply Permutation_trans; [apply Permutation_app; eassumption|].
    rewrite <- !app_assoc. apply Permutation_app_head. rewrite !app_assoc. apply Permutation_app_tail. apply Permutation_app_comm. }
  assert (SP : zt (map c_value (sp1 ++ sp2)) = amounts sel).
  { unfold amounts. rewrite <- MA. pose proof (marked _ _ _ _ PP DD) as M. rewrite !map_map in M.
    change (map (fun x0 => snd (ckey x0))) with (map c_value) in M. change (map (fun x0 => snd (ukey x0))) with (map u_amount) in M. apply M.
    - intros g I. apply in_map_iff in I as (c & <- & I). rewrite <- (map_map ukey fst). apply SB. rewrite Forall_forall in S1, S2. apply in_app_or in I as [I|I]; auto.
    - intros g I J. apply in_map_iff in I as (c & <- & I). rewrite <- (map_map ukey fst) in J. apply SB in J. rewrite Forall_forall in N1, N2. apply in_app_or in I as [I|I]; [apply (N1 c I)|apply (N2 c I)]; exact J. }
  rewrite (total_perm _ _ Q1), (total_perm _ _ Q2), (entries_total _ _ R1), (entries_total _ _ R2), !map_app, !zt_app, !map_map. cbn [entry fst].
  rewrite map_app, zt_app in SP. change (S_Fee.total (map o_value (t_outs x))) with (zt (map o_value (t_outs x))). rewrite (received_others (l_script L1) (l_script L2) id (t_outs x) NE 0). unfold to_others. fold (zt (map o_value (filter (fun o0 => negb (list_eqb (bytes_to_hex (o_script o0)) (l_script L1) || list_eqb (bytes_to_hex (o_script o0)) (l_script L2))) (t_outs x)))).
  change (map (fun x0 : Coin => c_value x0)) with (map c_value). lia.
Qed.

(** Payments to others, when the change goes back to the wallet. *)
Definition NotOwn (L1 L2 : Ledger) (a : pystr) : Prop :=
  forall script, address_to_scriptpubkey a = Ok (Some script) -> bytes_to_hex script <> l_script L1 /\ bytes_to_hex script <> l_script L2.
Lemma F2_app_l {A B} (R : A -> B -> Prop) l1 : forall l2 m, Forall2 R (l1 ++ l2) m -> exists m1 m2, m = m1 ++ m2 /\ Forall2 R l1 m1 /\ Forall2 R l2 m2.
Proof.
  induction l1 as [|a l1 IH]; intros l2 m F; [exists [], m; auto|]. cbn in F. inversion F as [|? b ? m' H F']; subst.
  destruct (IH _ _ F') as (m1 & m2 & -> & F1 & F2). exists (b :: m1), m2. auto.
Qed.
Lemma others_asked sg outputs f leftover o us sel w h x calls prec L1 L2 :
  @Asked CR _ _ NW sg outputs f leftover o us sel w h x -> Owns rounds calls prec sg L1 L2 -> nonempty leftover = None -> Forall (NotOwn L1 L2) (dests outputs) ->
  exists sats w1, @Converted _ _ NW w outputs sats w1 /\ to_others (l_script L1) (l_script L2) x = S_Fee.total sats.
Proof.
  intros (outs & sats & w1 & change & msgs & back & B & C & Eo & Ls & Hc & Hb & (M0 & _) & _) (a & seg & EA & _ & ((sc1 & SC1 & LS1) & _) & ES & H2) NL NO.
  exists sats, w1. split; [exact C|]. destruct B as (_ & _ & _ & _ & FO). rewrite Eo in FO.
  apply F2_app_l in FO as (x1 & xr & Ex & F1 & FO). apply F2_app_l in FO as (x2 & x3 & -> & F2 & F3).
  unfold to_others. rewrite Ex, !filter_app, !map_app. fold (zt (map o_value (filter (fun o0 => negb (list_eqb (bytes_to_hex (o_script o0)) (l_script L1) || list_eqb (bytes_to_hex (o_script o0)) (l_script L2))) x1) ++
    map o_value (filter (fun o0 => negb (list_eqb (bytes_to_hex (o_script o0)) (l_script L1) || list_eqb (bytes_to_hex (o_script o0)) (l_script L2))) x2) ++
    map o_value (filter (fun o0 => negb (list_eqb (bytes_to_hex (o_script o0)) (l_script L1) || list_eqb (bytes_to_hex (o_script o0)) (l_script L2))) x3))).
  rewrite !zt_app. change (S_Fee.total sats) with (zt sats).
  assert (G1 : zt (map o_value (filter (fun o0 => negb (list_eqb (bytes_to_hex (o_script o0)) (l_script L1) || list_eqb (bytes_to_hex (o_script o0)) (l_script L2))) x1)) = zt sats).
  { assert (LD : length sats = length (dests outputs)) by (unfold dests; rewrite map_length; exact Ls).
    clear -F1 NO LD. revert sats x1 F1 LD. induction NO as [|d ds N _ IH]; intros [|n sats] x1 F1 LD; try discriminate; inversion F1 as [|? y ? x1' [H1 H2] F]; subst; [reflexivity|].
    cbn [fst snd] in H1, H2. destruct (N _ H2) as [A B]. apply list_eqb_neq in A, B. cbn [filter]. rewrite A, B. cbn [orb negb map].
    assert (Q := IH sats x1' F ltac:(cbn in LD; lia)). unfold zt in *. cbn [fold_right]. rewrite H1, Q. reflexivity. }
  assert (G2 : zt (map o_value (filter (fun o0 => negb (list_eqb (bytes_to_hex (o_script o0)) (l_script L1) || list_eqb (bytes_to_hex (o_script o0)) (l_script L2))) x2)) = 0).
  { destruct Hc as [->|(n & Hn & ->)]; inversion F2 as [|? y ? x2' [H1 HS] F]; subst; [reflexivity|]. inversion F; subst. cbn [fst snd] in H1, HS.
    assert (OWN : bytes_to_hex (o_script y) = l_script L1 \/ bytes_to_hex (o_script y) = l_script L2).
    { assert (HB : if existsb u_is_segwit us then sg_segwit_address sg = Ok (Some back) else sg_address sg = Ok back) by (destruct leftover as [[|]|]; [exact Hb|discriminate|exact Hb]).
      destruct (existsb u_is_segwit us).
      - rewrite ES in HB. injection HB as ->. destruct H2 as (_ & ((sc2 & SC2 & LS2) & _)). right. rewrite LS2. congruence.
      - rewrite EA in HB. injection HB as ->. left. rewrite LS1. congruence. }
    cbn [filter]. destruct OWN as [-> | ->]; rewrite list_eqb_refl, ?orb_true_r; reflexivity. }
  assert (G3 : zt (map o_value (filter (fun o0 => negb (list_eqb (bytes_to_hex (o_script o0)) (l_script L1) || list_eqb (bytes_to_hex (o_script o0)) (l_script L2))) x3)) = 0).
  { clear -F3 M0. induction F3 as [|m y ms ys [H1 _] F IH]; [reflexivity|]. inversion M0; subst. cbn [filter]. destruct (negb _); auto.
    unfold zt in *. cbn [map fold_right]. rewrite IH; auto. lia. }
  lia.
Qed.
Lemma own_scripts (HO : HashOk CR) calls prec k L1 L2 : KeyOk k -> Owns rounds calls prec (Single k) L1 L2 -> l_script L1 <> l_script L2.
Proof.
  intros K (a & seg & EA & _ & ((script & SC & LS) & _) & ES & H2). apply (key_address_script HO k a _ (ko_hash k K) EA) in SC. injection SC as ->.
  cbn [sg_segwit_address] in ES. unfold key_segwit_address in ES. destruct (key_is_compressed k) eqn:C.
  - unfold public_key_to_segwit_address in ES. unfold key_is_compressed in C. rewrite C in ES. cbn in ES. injection ES as <-.
    destruct H2 as (_ & ((sc & SC2 & LS2) & _)). apply (b58_p2sh HO (k_version k)) in SC2. injection SC2 as ->. rewrite LS, LS2. intros EQ. discriminate EQ.
  - injection ES as <-. subst L2. rewrite LS. discriminate.
Qed.
End After.

(** ** Later, when the services know the transaction *)
(** [Later sg x id L1 L2 P]: whenever the wallet looks at its coins again, anywhere,
    and the services know of the transaction, the balance satisfies P. *)
Definition Later {CR : Crypto} (sg : signer) (x : tx) (id : pystr) (L1 L2 : Ledger) (P : Z -> Prop) : Prop :=
  forall E (OU : Outside E) (CH : Chance E) rounds t1 t2 e calls (s : @Wallet (Net E)) L1' L2',
    Reached rounds t1 t2 e calls (wl_world s) -> Owns rounds calls (g_prec (n_globals (wl_world s))) sg L1' L2' ->
    After x id L1 L1' -> After x id L2 L2' ->
    exists us1 us2 s', @get_unspents CR _ _ (network rounds) sg s = (Ok (us1 ++ us2), s') /\ AllHeld sg false L1' us1 /\ AllHeld sg true L2' us2 /\ P (wl_balance s').

Section Pay.
Context {CR : Crypto} (HO : HashOk CR) {E : Type} {OU : Outside E} {CH : Chance E} (rounds : nat).
Notation NW := (network (CR:=CR) (E:=E) rounds).

Lemma later_asked sg ts outputs f leftover o us1 us2 sel w h x id L1 L2 : coin_types sg = Ok ts ->
  @Asked CR _ _ NW sg outputs f leftover o (us1 ++ us2) sel w h x -> AllHeld sg false L1 us1 -> AllHeld sg true L2 us2 ->
  GoodIds (l_coins L1 ++ l_coins L2) -> l_script L1 <> l_script L2 ->
  Later sg x id L1 L2 (fun b => b = total L1 + total L2 - to_others (l_script L1) (l_script L2) x - (amounts sel - S_Fee.total (map o_value (t_outs x)))).
Proof.
  intros ET A H1 H2 G NE E2 OU2 CH2 r2 t1 t2 e calls s L1' L2' R O A1 A2.
  destruct (C74_unspents r2 _ _ _ _ _ _ _ _ _ R O ET) as (v1 & v2 & s' & EG & B1 & B2 & _ & EB & _). exists v1, v2, s'. do 3 (split; auto).
  rewrite EB. exact (after_asked rounds sg outputs f leftover o us1 us2 sel w h x id L1 L2 L1' L2' A H1 H2 G NE A1 A2).
Qed.

(** C87, for a key: a payment takes what others get, and the fee, from the balance. *)
Theorem C87_send (SF : forall x rnd x', o_random x = (Ok rnd, x') -> Shuffle (r_shuffle rnd)) t1 t2 e calls k outputs fee leftover o s i s' L1 L2 :
  Reached rounds t1 t2 e calls (wl_world s) -> KeyOk k -> MsgOk o -> Owns rounds calls (g_prec (n_globals (wl_world s))) (Single k) L1 L2 ->
  GoodIds (l_coins L1 ++ l_coins L2) -> @send CR _ _ NW (Single k) outputs fee leftover None o s = (Ok i, s') ->
  exists us sel f w h x, @Asked CR _ _ NW (Single k) outputs f leftover o us sel w h x /\ IdOf x i /\
    let paid := amounts sel - S_Fee.total (map o_value (t_outs x)) in
    Later (Single k) x i L1 L2 (fun b => b = total L1 + total L2 - to_others (l_script L1) (l_script L2) x - paid) /\
    (nonempty leftover = None -> Forall (NotOwn L1 L2) (dests outputs) ->
     exists sats w1, @Converted _ _ NW w outputs sats w1 /\
       Later (Single k) x i L1 L2 (fun b => b = total L1 + total L2 - S_Fee.total sats - paid)).
Proof.
  intros R K M O G ES. destruct (C75_send rounds HO SF _ _ _ _ _ _ _ _ _ _ _ _ _ _ R K M O G ES) as (us1 & us2 & s1 & h & w1 & x & sel & f & w2 & A1 & A2 & _ & _ & A & _ & _ & ID).
  pose proof (own_scripts rounds HO _ _ _ _ _ K O) as NE.
  pose proof (later_asked (Single k) _ _ _ _ _ _ _ _ _ _ _ i _ _ eq_refl A A1 A2 G NE) as LT.
  exists (us1 ++ us2), sel, f, w2, h, x. split; auto. split; auto. split; auto.
  intros NL NO. destruct (others_asked rounds _ _ _ _ _ _ _ _ _ _ _ _ _ _ A O NL NO) as (sats & w3 & C & EQ). exists sats, w3. split; auto. rewrite EQ in LT. exact LT.
Qed.
(** For a wallet with several keys, once enough of them have signed. *)
Theorem C87_multi (SF : forall x rnd x', o_random x = (Ok rnd, x') -> Shuffle (r_shuffle rnd)) t1 t2 e calls ms k ks outputs fee leftover o s h s' L1 L2 :
  Reached rounds t1 t2 e calls (wl_world s) -> EnvOk ms -> Signers ms (k :: ks) -> zlen (k :: ks) <= e_m ms -> MsgOk o ->
  Owns rounds calls (g_prec (n_globals (wl_world s))) (Multi (wallet ms k)) L1 L2 -> GoodIds (l_coins L1 ++ l_coins L2) -> l_script L1 <> l_script L2 ->
  @create_transaction CR _ _ NW (Multi (wallet ms k)) outputs fee leftover None o s = (Ok h, s') ->
  exists us sel f w h' x, pass_all ms sel h ks = Ok h' /\ @Asked CR _ _ NW (Multi (wallet ms k)) outputs f leftover o us sel w h' x /\
    let paid := amounts sel - S_Fee.total (map o_value (t_outs x)) in
    forall i, Later (Multi (wallet ms k)) x i L1 L2 (fun b => b = total L1 + total L2 - to_others (l_script L1) (l_script L2) x - paid) /\
    (nonempty leftover = None -> Forall (NotOwn L1 L2) (dests outputs) ->
     exists sats w1, @Converted _ _ NW w outputs sats w1 /\
       Later (Multi (wallet ms k)) x i L1 L2 (fun b => b = total L1 + total L2 - S_Fee.total sats - paid)).
Proof.
  intros R EO K LM M O G NE EC.
  assert (CT : exists ts, coin_types (Multi (wallet ms k)) = Ok ts).
  { destruct (coin_types (Multi (wallet ms k))) as [ts|y] eqn:CT; [eauto|]. exfalso.
    unfold create_transaction in EC. cbn [nonempty] in EC. unfold ibind at 1 2 in EC. unfold get_unspents in EC. unfold ibind at 1 in EC. rewrite CT in EC. discriminate. }
  destruct CT as (ts & CT).
  destruct (C75_multi rounds HO SF _ _ _ _ _ _ _ _ _ _ _ _ _ _ _ _ R EO K LM M O G EC) as (us1 & us2 & s1 & h' & x & sel & f & w2 & A1 & A2 & _ & _ & EP & A & _).
  exists (us1 ++ us2), sel, f, w2, h', x. split; auto. split; auto. intros paid i.
  pose proof (later_asked (Multi (wallet ms k)) _ _ _ _ _ _ _ _ _ _ _ i _ _ CT A A1 A2 G NE) as LT. split; auto.
  intros NL NO. destruct (others_asked rounds _ _ _ _ _ _ _ _ _ _ _ _ _ _ A O NL NO) as (sats & w3 & C & EQ). exists sats, w3. split; auto. rewrite EQ in LT. exact LT.
Qed.
End Pay.
Print Assumptions C87_send.
Print Assumptions C87_multi.

(** ** Example: the payment of C75_send_hypotheses, and what Blockstream says later *)
Definition paid_id : pystr := str "0202020202020202020202020202020202020202020202020203000000015726".
Definition later_legacy : Ledger := mkLedger 700001 (hex_script town_a) [] [] [].
Definition later_segwit : Ledger := mkLedger 700001 (hex_script town_sa) [mkCoin 62830 None paid_id 2] [] [].
Definition later_pages : list (pystr * json) := pages_for town_a later_legacy ++ pages_for town_sa later_segwit.
#[local] Instance later_town : Outside Town := {|
  o_get := fun url ps _ e => (if list_eqb (firstn 24 url) (str "https://blockstream.info")
      then if list_eqb url (str "https://blockstream.info/api/blocks/tip/height") then Ok (mkResp 200 (str "700001") (Raise ValueError))
      else match find (fun p => list_eqb (fst p) url) later_pages with
           | Some p => Ok (mkResp 200 [] (Ok (snd p)))
           | None => Ok (mkResp 404 [] (Raise ValueError)) end
      else Raise ReqConnectionError, (fst e + 1, snd e));
  o_post := @o_post Town town;
  o_rpc := fun _ _ _ _ e => (Raise ReqConnectionError, e);
  o_time := fun e => (Ok (fst e), e) |}.
Lemma later_replies url ps j (P : json -> Prop) :
  (list_eqb (firstn 24 url) (str "https://blockstream.info") && negb (list_eqb url (str "https://blockstream.info/api/blocks/tip/height")))%bool = true ->
  find (fun p => list_eqb (fst p) url) later_pages = Some (url, j) -> P j -> Replies (OU:=later_town) url ps P.
Proof.
  intros HU HF HP t e. apply andb_true_iff in HU as [U1 U2]. apply negb_true_iff in U2. cbn [o_get later_town]. rewrite U1, U2, HF. eexists _, j, _.
  split; [reflexivity|]. cbn. auto.
Qed.
Lemma later_tip : RepliesText (OU:=later_town) (blockstream_url Main "blocks/tip/height") (fun t => Digits 700001 t /\ t <> []).
Proof. intros e. eexists _, _. split; [reflexivity|]. split; [reflexivity|]. split; [apply (digits_of (str "700001")); reflexivity|discriminate]. Qed.
Ltac later_page := eapply later_replies; [vm_compute; reflexivity|vm_compute; reflexivity|].
Ltac later_serves := split; [exact later_tip|]; split; [|split; [|split; [|split]]];
  [ later_page; eexists; split; [reflexivity|]; all2; town_json
  | later_page; apply town_empty
  | later_page; apply town_empty
  | intros pre t post H; destruct pre; discriminate
  | later_page; eexists _, _, _, _, _, _; repeat (split; [hask|]); reflexivity ].
Example later_serves1 : ServesBlockstream (OU:=later_town) Main 25 later_legacy town_a.
Proof. later_serves. Qed.
Example later_serves2 : ServesBlockstream (OU:=later_town) Main 25 later_segwit town_sa.
Proof. later_serves. Qed.
Lemma later_reports L a calls : connected Main calls = None -> (length (l_confirmed L) < 5)%nat -> ServesBlockstream (OU:=later_town) Main 25 L a ->
  @Reports toy Town later_town 5 calls Main L a.
Proof.
  intros NC LC SB. assert (KN : Knows (OU:=later_town) 5 Main L a Blockstream).
  { exists L. split; [repeat split; reflexivity|]. exists 25%nat. split; [lia|]. auto. }
  unfold Reports, unspent_services, services_for. rewrite NC. split.
  - intros sv I. cbn in I. repeat (destruct I as [<-|I]; [try (right; exact KN); left; intros [g x]; eexists _, _; (split; [reflexivity|]); unfold Unusable; cbn; auto|]). destruct I.
  - exists Blockstream. split; [cbn; auto|]. split; [exact KN|discriminate].
Qed.
Example later_owns calls : connected Main calls = None -> @Owns toy Town later_town 5 calls 28 (Single wkey) later_legacy later_segwit.
Proof.
  intros NC. exists town_a, (Some town_sa). split; [vm_compute; reflexivity|]. split; [apply (later_reports later_legacy town_a calls NC); [cbn; lia|exact later_serves1]|].
  split; [apply town_ledger; vm_compute; reflexivity|]. split; [vm_compute; reflexivity|].
  split; [apply (later_reports later_segwit town_sa calls NC); [cbn; lia|exact later_serves2]|]. apply town_ledger; vm_compute; reflexivity.
Qed.
(** The transaction, without its scripts. *)
Definition from_hex (s : string) : bytes := match hex_to_bytes (str s) with Ok b => b | _ => [] end.
Definition paid_x : tx := Tx 1 [Tin (repeat 2 32) 5 [] 0xfffffffd []; Tin (repeat 1 32) 0 [] 0xfffffffd []; Tin (repeat 3 32) 1 [] 0xfffffffd []]
  [Tout 25000 (from_hex "76a9144a8902090909090909090909090909090909090988ac"); Tout 1000 (from_hex "a914945b00144a89020909090909090909090909090987");
   Tout 62830 (from_hex "a914b84900145a89020707070707070707070707070787"); Tout 0 (from_hex "6a0568656c6c6f")] 0.
Example C87_hypotheses : @Reached toy Town later_town town_chance 5 0 0 (0, []) [] (wl_world town_wallet) /\
  @Owns toy Town later_town 5 [] (g_prec (n_globals (wl_world town_wallet))) (Single wkey) later_legacy later_segwit /\
  After paid_x paid_id town_legacy later_legacy /\ After paid_x paid_id town_segwit later_segwit /\
  Forall (@NotOwn toy town_legacy town_segwit) (dests town_outs).
Proof.
  split; [constructor|]. split; [apply later_owns; reflexivity|].
  assert (SP : forall b n, (b, n) = (1, 0) \/ (b, n) = (2, 5) \/ (b, n) = (3, 1) -> forall v hh, SpentBy paid_x (mkCoin v hh (town_txid b) n)).
  { intros b n H v hh. destruct H as [[= -> ->]|[[= -> ->]|[= -> ->]]]; eexists; cbn [In paid_x t_ins];
      (split; [|split; [vm_compute|]]); [right; left|..]; try reflexivity; [left|..]; try reflexivity; [right; right; left|..]; reflexivity. }
  split; [|split].
  - split; [reflexivity|]. exists [town_coin1; town_coin2], []. split; [reflexivity|]. split; [|split; [constructor|vm_compute; constructor]].
    constructor; [apply SP; auto|]. constructor; [apply SP; auto|constructor].
  - split; [reflexivity|]. exists [town_coin3], []. split; [reflexivity|]. split; [constructor; [apply SP; auto|constructor]|]. split; [constructor|].
    assert (EQ : received (l_script town_segwit) paid_id 0 (t_outs paid_x) = [(62830, paid_id, 2)]) by (vm_compute; reflexivity). rewrite EQ. apply Permutation_refl.
  - assert (G : forall a, In a (dests town_outs) -> (match @address_to_scriptpubkey toy a with Ok (Some sc) => negb (list_eqb (bytes_to_hex sc) (l_script town_legacy)) && negb (list_eqb (bytes_to_hex sc) (l_script town_segwit)) | _ => false end)%bool = true).
    { apply forallb_forall. vm_compute. reflexivity. }
    apply Forall_forall. intros a I. specialize (G a I). intros sc ES. rewrite ES in G. apply andb_true_iff in G as [G1 G2]. apply negb_true_iff in G1, G2. apply list_eqb_neq in G1, G2. auto.
Qed.
(** 90000 before; 26000 were paid, the fee was 1170. *)
Example C87_case : exists us s', @get_unspents toy _ _ (@network toy Town later_town town_chance 5) (Single wkey) town_wallet = (Ok us, s') /\ wl_balance s' = 90000 - 26000 - 1170 /\ length us = 1%nat.
Proof.
  set (r := @get_unspents toy _ _ (@network toy Town later_town town_chance 5) (Single wkey) town_wallet).
  assert (G : (match r with (Ok us, s') => (wl_balance s' =? 90000 - 26000 - 1170) && (length us =? 1)%nat | _ => false end)%bool = true) by (vm_compute; reflexivity).
  revert G. generalize r. intros ([us|] & s') G; [|discriminate]. apply andb_true_iff in G as [G1 G2]. exists us, s'. split; [auto|]. split; [lia|apply Nat.eqb_eq; auto].
Qed.
