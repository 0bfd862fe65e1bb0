(** C88: with honest services and enough coins, payments given in units go through. *)
From Coq Require Import String Permutation.
From Verif Require Import F_cosign F_cosigntx F_signtx F_wallet F_utf8 F_spend F_wire F_build F_address F_size P_utils P_outputs P_select P_sign P_multi P_wallet P_create P_state P_send P_size X_world X_server.
From Verif Require Import M_app F_app S_Decimal S_History S_Servers S_Failover F_decimal F_network F_servers P_rates P_network P_services P_failover P_anyservice P_app.
From Verif Require Import S_Consensus P_consensus P_live.

Section Through.
Context {CR : Crypto} (HO : HashOk CR) {E : Type} {OU : Outside E} {CH : Chance E} (rounds : nat).
Notation run := (S_History.run (E:=E) rounds).
Notation NW := (network (CR:=CR) (E:=E) rounds).
Notation Reached := (@Reached CR E OU CH rounds).

(** ** What is asked for *)
(** A decimal number without sign, or with a negative exponent as floats are shown,
    in one of the units of bitcoin, and its worth in satoshis. *)
Definition InUnits (prec : Z) (out : pystr * pystr * pystr) (sat : Z) : Prop :=
  exists u c k, In (snd out, u) units /\ (Signed false c k (snd (fst out)) \/ Scientific c k (snd (fst out)) /\ k < 1000) /\ zlen (snd (fst out)) < 100000 /\ c * 10 ^ u < 10 ^ prec /\
    sat = c * 10 ^ u / 10 ^ k.

Lemma unit_amount t1 t2 e calls w unit_ u c k s now e1 : Reached t1 t2 e calls w -> In (unit_, u) units -> Signed false c k s \/ Scientific c k s /\ k < 1000 -> zlen s < 100000 ->
  c * 10 ^ u < 10 ^ g_prec (n_globals w) -> o_time (n_outside w) = (Ok now, e1) ->
  exists w', currency_to_satoshi_cached s unit_ w = (Ok (c * 10 ^ u / 10 ^ k), w') /\ g_prec (n_globals w') = g_prec (n_globals w).
Proof.
  intros R HU S0 HS HC ET. destruct (C76_histories _ _ _ _ _ _ R) as (ops & EW & _ & _).
  destruct (units_rate (E:=E) _ _ HU) as (Hu & EP & ER).
  assert (IN : exists p, In (unit_, p) currencies).
  { clear - HU. cbn in HU. exists u. repeat (destruct HU as [HU|HU]; [injection HU as <- <-; cbn; tauto|]). destruct HU. }
  destruct IN as [p IN]. destruct (currency_to_satoshi_cached s unit_ w) as [res s'] eqn:EC.
  assert (W : Worth (g_prec (n_globals w)) (10 ^ u) s res).
  { rewrite EW in ET, EC |- *.
    destruct (C57_fresh rounds ops t1 t2 e unit_ p s now e1 res s' IN ET EC) as [(t & x & G & _ & _ & W & _)|[(x & s2 & G & W & _)|(err & s2 & G & _)]].
    - destruct G as (pre & o & post & _ & _ & e0 & _ & G). rewrite ER in G. cbn [fst] in G. assert (x = 10 ^ u) as -> by congruence. exact W.
    - rewrite ER in G. assert (x = 10 ^ u) as -> by congruence. exact W.
    - rewrite ER in G. discriminate. }
  pose proof (p10 u ltac:(lia)) as P. rewrite (Z.mul_comm c) in *. rewrite (W false c k ltac:(tauto) HS P HC).
  pose proof (step_change rounds (ToSatoshiCached s unit_) w) as SC. cbn [S_History.step Change] in SC. rewrite EC in SC. cbn [snd] in SC.
  exists s'. split; [reflexivity|]. destruct SC as [->|(x & t & ->)]; reflexivity.
Qed.
Lemma converted_units t1 t2 e outputs : (forall x, exists now x', o_time x = (Ok now, x')) -> forall calls w sats, Reached t1 t2 e calls w ->
  Forall2 (InUnits (g_prec (n_globals w))) outputs sats -> exists w', @Converted _ _ NW w outputs sats w'.
Proof.
  intros TM. induction outputs as [|((a & s) & unit_) outputs IH]; intros calls w sats R F; inversion F as [|? n ? ns U F']; subst; [eexists; constructor|].
  destruct U as (u & c & k & HU & S0 & HS & HC & ->). cbn [fst snd] in *. destruct (TM (n_outside w)) as (now & x' & ET).
  destruct (unit_amount _ _ _ _ _ _ _ _ _ _ _ _ R HU S0 HS HC ET) as (w1 & EC & EP).
  pose proof (R_call rounds t1 t2 e calls w (ToSatoshiCached s unit_) R) as R1. cbn [S_History.step] in R1. rewrite EC in R1. cbn [snd] in R1.
  destruct (IH _ w1 ns R1) as (w' & C); [rewrite EP; exact F'|]. exists w'. econstructor; [exact EC|exact C].
Qed.

(** ** What the coins are *)
(** The coins that the services report are unspent outputs of the chain. *)
Definition OnChain (chain : ledger) (L : Ledger) : Prop :=
  Forall (fun c => exists t spk, hex_to_bytes (c_txid c) = Ok t /\ l_script L = bytes_to_hex spk /\ bytes_ok spk = true /\
    chain (rev t) (c_index c) = Some (c_value c, spk)) (l_coins L).
(** Sizes of the inputs in quarters of a byte: 148 bytes for each coin of the
    first address, 180 if the public key is not compressed, 91 for each of the
    segwit address. *)
Definition input_sizes (k : PrivateKey) (L1 L2 : Ledger) : list Z :=
  repeat (4 * if (length (k_public_key k) =? 33)%nat then 148 else 180) (length (l_coins L1)) ++ repeat (4 * 91) (length (l_coins L2)).

Lemma held_describes sg b L us chain : AllHeld sg b L us -> OnChain chain L -> Forall (Describes chain) us.
Proof.
  intros (cs & P & F) O. apply (Permutation_Forall P) in O. clear P. induction F as [|c u cs us (H0 & _ & H1 & H2 & H3 & _) F IH]; [constructor|].
  apply Forall_cons_iff in O as [(t & spk & A & B & C & D) O]. constructor; auto. exists t, spk. rewrite H0, H1, H2, H3. auto.
Qed.
Lemma held_spends sg L1 L2 us1 us2 prec : GoodIds (l_coins L1 ++ l_coins L2) -> AllHeld sg false L1 us1 -> AllHeld sg true L2 us2 ->
  Forall (fun c => 0 <= c_index c < 2 ^ 32) (l_coins L1 ++ l_coins L2) -> Forall (fun c => 0 <= c_value c < prec) (l_coins L1 ++ l_coins L2) ->
  total L1 + total L2 <= MAX_MONEY -> zlen (l_coins L1 ++ l_coins L2) < 2 ^ 64 ->
  Spends (us1 ++ us2) /\ Forall (fun u => 0 <= u_amount u) (us1 ++ us2) /\ amounts (us1 ++ us2) = total L1 + total L2.
Proof.
  intros G A1 A2 I V M Z. destruct (held_good sg L1 L2 us1 us2 G A1 A2) as [TX DI]. destruct A1 as (cs1 & P1 & F1), A2 as (cs2 & P2 & F2).
  pose proof (Permutation_app P1 P2) as P. apply (Permutation_Forall P) in I, V.
  assert (LN : length (us1 ++ us2) = length (l_coins L1 ++ l_coins L2)).
  { rewrite (Permutation_length P), !app_length, (Forall2_length _ _ _ F1), (Forall2_length _ _ _ F2). reflexivity. }
  assert (T : forall b L cs us (P : Unspent -> Prop) (Q : Coin -> Prop), (forall c u, Held sg b L c u -> Q c -> P u) -> Forall2 (Held sg b L) cs us -> Forall Q cs -> Forall P us).
  { clear. intros b L cs us P Q H. induction 1 as [|c u cs us Hc F IH]; intros FQ; [constructor|]. apply Forall_cons_iff in FQ as [Q1 Q2]. constructor; eauto. }
  assert (T2 : forall (P : Unspent -> Prop) (Q : Coin -> Prop), (forall b L c u, Held sg b L c u -> Q c -> P u) -> Forall Q (cs1 ++ cs2) -> Forall P (us1 ++ us2)).
  { intros P0 Q H FQ. apply Forall_app in FQ as [Q1 Q2]. apply Forall_app. split; eapply T; eauto. }
  assert (AM : amounts (us1 ++ us2) = total L1 + total L2).
  { assert (S1 : forall b L cs us, Permutation (l_coins L) cs -> Forall2 (Held sg b L) cs us -> S_Fee.total (map u_amount us) = total L).
    { clear. intros b L cs us P F. assert (Q : S_Fee.total (map u_amount us) = fold_right Z.add 0 (map c_value cs)).
      { clear P. induction F as [|c u cs us (H & _) F IH]; cbn; [reflexivity|]. lia. }
      rewrite Q. unfold total. clear Q F. induction P; cbn; lia. }
    unfold amounts. rewrite map_app, total_app, (S1 _ _ _ _ P1 F1), (S1 _ _ _ _ P2 F2). reflexivity. }
  assert (NN : Forall (fun u => 0 <= u_amount u) (us1 ++ us2)).
  { apply (T2 _ _ (fun b L c u H Q => eq_ind_r (fun z => 0 <= z) (proj1 Q) (proj1 H)) V). }
  split; [|split; auto]. constructor; auto.
  - apply (T2 InRange (fun c => 0 <= c_index c < 2 ^ 32)); auto. intros b L c u (_ & _ & _ & _ & H1 & H2 & _) Q. unfold InRange. rewrite H1, H2. split; [exact Q|lia].
  - apply Forall_forall. intros u Hu. rewrite Forall_forall in NN. split; [auto|].
    assert (NM : Forall (fun z => 0 <= z) (map u_amount (us1 ++ us2))) by (apply Forall_map, Forall_forall; exact NN).
    pose proof (total_le _ NM) as TL. rewrite Forall_forall in TL. specialize (TL _ (in_map u_amount _ _ Hu)). fold (amounts (us1 ++ us2)) in TL.
    assert (MAX_MONEY < 2 ^ 64) by reflexivity. lia.
  - unfold zlen in *. rewrite LN. exact Z.
Qed.
Lemma held_sizes k L1 L2 us1 us2 : AllHeld (Single k) false L1 us1 -> AllHeld (Single k) true L2 us2 -> Forall (SizedSingle k) (us1 ++ us2) ->
  map u_vsize (us1 ++ us2) = input_sizes k L1 L2 /\ existsb u_is_segwit (us1 ++ us2) = (0 <? length (l_coins L2))%nat.
Proof.
  intros (cs1 & P1 & F1) (cs2 & P2 & F2) SZ. apply Forall_app in SZ as [Z1 Z2]. unfold input_sizes.
  rewrite (Permutation_length P1), (Permutation_length P2), map_app, existsb_app.
  assert (T : forall b L cs us, Forall2 (Held (Single k) b L) cs us -> Forall (SizedSingle k) us ->
    map u_vsize us = repeat (4 * if b then 91 else if (length (k_public_key k) =? 33)%nat then 148 else 180) (length cs) /\ existsb u_is_segwit us = b && (0 <? length cs)%nat).
  { clear. intros b L cs us. induction 1 as [|c u cs us (_ & _ & _ & _ & _ & _ & _ & H) F IH]; intros Z; [destruct b; auto|].
    apply Forall_cons_iff in Z as [Z1 Z2]. destruct (IH Z2) as [I1 I2]. cbn [map length repeat existsb]. rewrite I1, I2. unfold SizedSingle in Z1. rewrite H in *. rewrite Z1.
    split; auto. destruct b; auto. }
  destruct (T _ _ _ _ F1 Z1) as [-> ->]. destruct (T _ _ _ _ F2 Z2) as [-> ->]. auto.
Qed.

(** ** What the services do *)
(** It admits what the rules of the network allow. *)
Definition Admits (n : net) (chain : ledger) (sv : service) : Prop :=
  forall x coins b, Valid chain x coins -> bytes_ok b = true -> (EncSegwit x b \/ EncLegacy x b) ->
  forall w, exists w', call_broadcast n (bytes_to_hex b) sv w = (Ok true, w').
(** It cannot be used, or says no to everything. *)
Definition Useless (n : net) (sv : service) : Prop :=
  forall h w, exists res w', call_broadcast n h sv w = (res, w') /\ (res = Ok false \/ exists e, res = Raise e /\ Unusable e).
Lemma submit_through n chain x coins b l : Valid chain x coins -> bytes_ok b = true -> (EncSegwit x b \/ EncLegacy x b) ->
  (forall sv, In sv l -> Useless n sv \/ Admits n chain sv) -> (exists sv, In sv l /\ Admits n chain sv) ->
  forall w, exists w', Submitted (call_broadcast n (bytes_to_hex b)) l w (Ok tt) w'.
Proof.
  intros V OK EN. induction l as [|sv l IH]; intros HA (sv0 & I & A) w; [destruct I|].
  destruct (HA sv (or_introl eq_refl)) as [US|AD].
  - destruct (US (bytes_to_hex b) w) as (res & w1 & EC & HR).
    assert (EX : exists sv, In sv l /\ Admits n chain sv).
    { destruct I as [->|I]; [|eauto]. destruct (A x coins b V OK EN w) as (w' & EC'). rewrite EC in EC'. injection EC' as -> _.
      destruct HR as [HR|(? & HR & _)]; discriminate. }
    destruct (IH (fun sv' I' => HA sv' (or_intror I')) EX w1) as (w' & S0). exists w'.
    inversion S0 as [pre sv1 post s1 s2 EL AR EC2| |]; subst. apply (Su_accepted _ _ _ (sv :: pre) sv1 post s1 w'); auto. econstructor; eauto.
  - destruct (AD x coins b V OK EN w) as (w' & EC). exists w'. apply (Su_accepted _ _ _ [] sv l w w'); auto. constructor.
Qed.

(** ** The theorem *)
Theorem C88_send (SF : forall x rnd x', o_random x = (Ok rnd, x') -> Shuffle (r_shuffle rnd))
    t1 t2 e calls k outputs fee leftover o s L1 L2 chain sats n back sizes size :
  Reached t1 t2 e calls (wl_world s) -> KeyOk k -> MsgOk o -> OwnAddresses (Single k) ->
  (* the coins *)
  Owns rounds calls (g_prec (n_globals (wl_world s))) (Single k) L1 L2 -> GoodIds (l_coins L1 ++ l_coins L2) ->
  Forall (fun c => 0 <= c_index c < 2 ^ 32) (l_coins L1 ++ l_coins L2) -> l_coins L1 ++ l_coins L2 <> [] ->
  zlen (l_coins L1 ++ l_coins L2) < 2 ^ 64 -> total L1 + total L2 <= MAX_MONEY -> OnChain chain L1 -> OnChain chain L2 ->
  (* the request *)
  outputs <> [] -> zlen outputs + Z.of_nat n + 1 < 2 ^ 64 -> Forall2 (InUnits (g_prec (n_globals (wl_world s)))) outputs sats ->
  Forall (fun z => 0 < z) sats -> 0 < fee -> MessageIs o n ->
  (match leftover with
   | Some (c :: r) => back = c :: r
   | _ => match l_coins L2 with [] => key_address k = Ok back | _ :: _ => key_segwit_address k = Ok (Some back) end
   end) -> Forall (Payable (k_version k)) (back :: dests outputs) ->
  (* there is enough *)
  OutputSizes (dests outputs) n back sizes -> EstimatedSize (input_sizes k L1 L2) sizes (0 <? length (l_coins L2))%nat size ->
  S_Fee.total sats + (if o_absolute_fee o then fee else fee * size) <= total L1 + total L2 ->
  (* the computer and the network *)
  (forall x, exists now x', o_time x = (Ok now, x')) -> (forall x, exists rnd x', o_random x = (Ok rnd, x')) ->
  (forall sv, In sv (broadcast_services (k_version k) calls) -> Useless (k_version k) sv \/ Admits (k_version k) chain sv) ->
  (exists sv, In sv (broadcast_services (k_version k) calls) /\ Admits (k_version k) chain sv) ->
  exists i s' x coins, @send CR _ _ NW (Single k) outputs (Some fee) leftover None o s = (Ok i, s') /\ IdOf x i /\ Valid chain x coins.
Proof.
  intros R K M OA O G IX NE Z64 MM O1 O2 NO ZO FU PS HF MS HB PY SZ ES EN TM RND HA HE.
  destruct (C74_unspents rounds _ _ _ _ _ _ _ _ _ R O eq_refl) as (us1 & us2 & s1 & EG & A1 & A2 & _ & _ & GL).
  pose proof (held_single rounds HO _ _ _ _ _ _ _ K O A1 A2) as SC.
  assert (V : Forall (fun c => 0 <= c_value c < 10 ^ g_prec (n_globals (wl_world s))) (l_coins L1 ++ l_coins L2)).
  { destruct O as (a & seg & _ & _ & (_ & V1 & _) & _ & H2). apply Forall_app. split; auto. destruct seg; [|subst L2; constructor]. destruct H2 as (_ & _ & V2 & _). exact V2. }
  destruct (held_spends _ _ _ _ _ _ G A1 A2 IX V MM Z64) as (SP & NN & AM).
  assert (SS : Forall (SizedSingle k) (us1 ++ us2)).
  { apply (C43_fetched_single (WD:=NW) k s (us1 ++ us2) s1); [|exact EG]. exact (ko_len _ K). }
  destruct (held_sizes _ _ _ _ _ A1 A2 SS) as [HV HS].
  assert (RO : RandomOk NW).
  { intros w rnd w' ER. cbn in ER. unfold outside, zoom in ER. destruct (o_random (n_outside w)) as [r x'] eqn:EO. injection ER as -> <-. exact (SF _ _ _ EO). }
  assert (NU : us1 ++ us2 <> []).
  { intros Q. pose proof (sp_few _ SP). apply NE. destruct A1 as (cs1 & P1 & F1), A2 as (cs2 & P2 & F2). apply app_eq_nil in Q as [-> ->].
    inversion F1; subst. inversion F2; subst. apply Permutation_sym, Permutation_nil in P1, P2. rewrite P1, P2. reflexivity. }
  assert (SE : Sensible (us1 ++ us2)).
  { split; auto. split; [|rewrite AM; exact MM]. eapply Forall_impl; [|exact SS]. intros u Hu. unfold SizedSingle in Hu. destruct (u_is_segwit u), (length (k_public_key k) =? 33)%nat; lia. }
  pose proof (R_method rounds t1 t2 e calls _ _ s (ex_intro _ _ (M_unspents rounds (Single k))) R) as R1. rewrite EG in R1. cbn [snd] in R1.
  destruct (converted_units _ _ _ outputs TM calls (wl_world s1) sats R1) as (w2 & CV); [rewrite GL; exact FU|].
  destruct (RND (n_outside w2)) as (rnd & x' & ER).
  assert (AF : @Affordable CR _ _ NW (Single k) outputs (Some fee) leftover o (us1 ++ us2) (wl_world s1) back fee (wl_world s1) sats w2 (mkNet (n_globals w2) x') n sizes
    (if o_absolute_fee o then fee else fee * size)).
  { constructor; auto.
    - apply F_given. lia.
    - lia.
    - exists rnd. cbn. unfold outside, zoom. rewrite ER. reflexivity.
    - destruct leftover as [[|c r]|]; auto; rewrite HS; destruct (l_coins L2); exact HB.
    - exists size. rewrite HV, HS. auto.
    - rewrite AM. exact EN. }
  destruct (@C82_single CR HO _ _ NW RO k outputs (Some fee) leftover None o s (us1 ++ us2) s1 back fee (wl_world s1) sats w2 _ n sizes _ K OA EG NU SP SE SC AF) as (h & s2 & EC).
  assert (DE : Forall (Describes chain) (us1 ++ us2)) by (apply Forall_app; split; eauto using held_describes).
  destruct (@C79_single CR HO _ _ NW RO k outputs (Some fee) leftover None o s h s2 (us1 ++ us2) s1 chain K M EC EG (sp_id _ SP) (sp_once _ SP) SC SE DE NO)
    as (x & sel & f & w & coins & AS & _ & VA).
  { intros f w F. inversion F; subst; try lia. destruct H; [discriminate|]. injection H as H. lia. }
  destruct (asked_id _ _ _ _ _ _ _ _ _ _ AS) as (i & ID & EI).
  pose proof (R_method rounds _ _ _ _ _ _ s (ex_intro _ _ (M_create rounds (Single k) outputs (Some fee) leftover None o)) R) as R2. rewrite EC in R2. cbn [snd] in R2.
  destruct (C76_histories _ _ _ _ _ _ R2) as (ops & EW & HC & _).
  assert (SV : broadcast_services (k_version k) calls = broadcast_services (k_version k) ops).
  { unfold broadcast_services, services_for. rewrite HC. reflexivity. }
  rewrite SV in HA, HE.
  assert (EN2 : exists b, h = bytes_to_hex b /\ bytes_ok b = true /\ (EncSegwit x b \/ EncLegacy x b)).
  { destruct AS as (outs & sats' & w1' & change & msgs & bk & ((b & [Hh OK] & Eb) & _) & _). exists b. split; auto. split; auto. destruct (existsb u_is_segwit sel); auto. }
  destruct EN2 as (b & -> & OKb & ENb).
  destruct (submit_through _ _ _ _ _ _ VA OKb ENb HA HE (wl_world s2)) as (w' & SU).
  pose proof (C60_broadcast rounds ops t1 t2 e (k_version k) (bytes_to_hex b) (Ok tt) w') as [_ C]. cbv zeta in C. rewrite <- EW in C. specialize (C SU).
  exists i, (set_world w' s2), x, coins. split; [|split; auto].
  unfold send. unfold ibind at 1. rewrite EC. unfold ibind at 1, world, zoom. cbn [sg_version w_broadcast network]. rewrite C. unfold ilift. rewrite EI. reflexivity.
Qed.

(** The same for a multisig wallet and as many co-signers as it takes. *)
Definition multi_sizes (ms : Env) (L1 L2 : Ledger) : list Z :=
  let unlock := 1 + 74 * e_m ms + vb_len (e_redeem ms) in
  repeat (4 * (40 + csz unlock + unlock)) (length (l_coins L1)) ++ repeat (4 * 76 + (1 + unlock)) (length (l_coins L2)).
Lemma held_multi_sizes sg ms L1 L2 us1 us2 : AllHeld sg false L1 us1 -> AllHeld sg true L2 us2 -> Forall (SizedMulti ms) (us1 ++ us2) ->
  map u_vsize (us1 ++ us2) = multi_sizes ms L1 L2 /\ existsb u_is_segwit (us1 ++ us2) = (0 <? length (l_coins L2))%nat.
Proof.
  intros (cs1 & P1 & F1) (cs2 & P2 & F2) SZ. apply Forall_app in SZ as [Z1 Z2]. unfold multi_sizes.
  rewrite (Permutation_length P1), (Permutation_length P2), map_app, existsb_app. cbv zeta.
  assert (T : forall b L cs us, Forall2 (Held sg b L) cs us -> Forall (SizedMulti ms) us ->
    map u_vsize us = repeat (let unlock := 1 + 74 * e_m ms + vb_len (e_redeem ms) in if b then 4 * 76 + (1 + unlock) else 4 * (40 + csz unlock + unlock)) (length cs) /\
    existsb u_is_segwit us = b && (0 <? length cs)%nat).
  { clear. cbv zeta. intros b L cs us. induction 1 as [|c u cs us (_ & _ & _ & _ & _ & _ & _ & H) F IH]; intros Z; [destruct b; auto|].
    apply Forall_cons_iff in Z as [Z1 Z2]. destruct (IH Z2) as [I1 I2]. cbn [map length repeat existsb]. rewrite I1, I2. unfold SizedMulti in Z1. cbv zeta in Z1. rewrite H in *. rewrite Z1.
    split; auto. destruct b; auto. }
  destruct (T _ _ _ _ F1 Z1) as [-> ->]. destruct (T _ _ _ _ F2 Z2) as [-> ->]. auto.
Qed.
Lemma multi_types ms k : EnvOk ms -> exists ts, coin_types (Multi (wallet ms k)) = Ok ts.
Proof.
  intros EO. destruct (redeem_shape ms EO) as (L & B & _). pose proof (eo_m _ EO). unfold coin_types. cbn [wallet ms_redeemscript ms_m].
  assert (T : forall v, 0 <= v < 2 ^ 64 -> exists l, int_to_varint v = Ok l).
  { intros v Hv. pose proof (C01_varint_total v) as C. replace ((0 <=? v) && (v <? 2 ^ 64)) with true in C by lia. exact C. }
  destruct (T (zlen (e_redeem ms))) as (l & El); [unfold zlen; lia|]. pose proof El as EL. apply varint_spec, cs_len in EL. rewrite El. cbn [bind].
  assert (csz (zlen (e_redeem ms)) <= 9) by (unfold csz; repeat (destruct (_ <? _); [lia|]); lia).
  assert (0 <= zlen l) by (unfold zlen; lia).
  destruct (T (1 + e_m ms * 74 + zlen l + zlen (e_redeem ms))) as (n & ->); [unfold zlen in *; lia|]. cbn [bind]. eauto.
Qed.
Theorem C88_multi (SF : forall x rnd x', o_random x = (Ok rnd, x') -> Shuffle (r_shuffle rnd))
    t1 t2 e calls ms k ks outputs fee leftover o s L1 L2 chain sats n back sizes size :
  Reached t1 t2 e calls (wl_world s) -> EnvOk ms -> Signers ms (k :: ks) -> zlen (k :: ks) = e_m ms -> MsgOk o -> OwnAddresses (Multi (wallet ms k)) ->
  (* the coins *)
  Owns rounds calls (g_prec (n_globals (wl_world s))) (Multi (wallet ms k)) L1 L2 -> GoodIds (l_coins L1 ++ l_coins L2) ->
  Forall (fun c => 0 <= c_index c < 2 ^ 32) (l_coins L1 ++ l_coins L2) -> l_coins L1 ++ l_coins L2 <> [] ->
  zlen (l_coins L1 ++ l_coins L2) < 2 ^ 64 -> total L1 + total L2 <= MAX_MONEY -> OnChain chain L1 -> OnChain chain L2 ->
  (* the request *)
  outputs <> [] -> zlen outputs + Z.of_nat n + 1 < 2 ^ 64 -> Forall2 (InUnits (g_prec (n_globals (wl_world s)))) outputs sats ->
  Forall (fun z => 0 < z) sats -> 0 < fee -> MessageIs o n ->
  (match leftover with
   | Some (c :: r) => back = c :: r
   | _ => match l_coins L2 with [] => ms_address (wallet ms k) = Ok back | _ :: _ => ms_segwit_address (wallet ms k) = Ok (Some back) end
   end) -> Forall (Payable (e_ver ms)) (back :: dests outputs) ->
  (* there is enough *)
  OutputSizes (dests outputs) n back sizes -> EstimatedSize (multi_sizes ms L1 L2) sizes (0 <? length (l_coins L2))%nat size ->
  S_Fee.total sats + (if o_absolute_fee o then fee else fee * size) <= total L1 + total L2 ->
  (* the computer and the network *)
  (forall x, exists now x', o_time x = (Ok now, x')) -> (forall x, exists rnd x', o_random x = (Ok rnd, x')) ->
  (forall sv, In sv (broadcast_services (e_ver ms) calls) -> Useless (e_ver ms) sv \/ Admits (e_ver ms) chain sv) ->
  (exists sv, In sv (broadcast_services (e_ver ms) calls) /\ Admits (e_ver ms) chain sv) ->
  exists h s' sel h' x coins w', @create_transaction CR _ _ NW (Multi (wallet ms k)) outputs (Some fee) leftover None o s = (Ok h, s') /\
    pass_all ms sel h ks = Ok h' /\ Valid chain x coins /\ (exists b, h' = bytes_to_hex b /\ (EncSegwit x b \/ EncLegacy x b)) /\
    broadcast_tx (e_ver ms) h' (wl_world s') = (Ok tt, w').
Proof.
  intros R EO SG LM M OA O G IX NE Z64 MM O1 O2 NO ZO FU PS HF MS HB PY SZ ES EN TM RND HA HE.
  destruct (multi_types ms k EO) as (ts & CT).
  destruct (C74_unspents rounds _ _ _ _ _ _ _ _ _ R O CT) as (us1 & us2 & s1 & EG & A1 & A2 & _ & _ & GL).
  pose proof (held_multi rounds HO _ _ _ _ _ _ _ _ EO O A1 A2) as SC.
  assert (V : Forall (fun c => 0 <= c_value c < 10 ^ g_prec (n_globals (wl_world s))) (l_coins L1 ++ l_coins L2)).
  { destruct O as (a & seg & _ & _ & (_ & V1 & _) & _ & H2). apply Forall_app. split; auto. destruct seg; [|subst L2; constructor]. destruct H2 as (_ & _ & V2 & _). exact V2. }
  destruct (held_spends _ _ _ _ _ _ G A1 A2 IX V MM Z64) as (SP & NN & AM).
  assert (SS : Forall (SizedMulti ms) (us1 ++ us2)) by exact (C43_fetched_multi (WD:=NW) ms k s (us1 ++ us2) s1 EO EG).
  destruct (held_multi_sizes _ _ _ _ _ _ A1 A2 SS) as [HV HS].
  assert (RO : RandomOk NW).
  { intros w rnd w' ER. cbn in ER. unfold outside, zoom in ER. destruct (o_random (n_outside w)) as [r x'] eqn:EO2. injection ER as -> <-. exact (SF _ _ _ EO2). }
  assert (NU : us1 ++ us2 <> []).
  { intros Q. apply NE. destruct A1 as (cs1 & P1 & F1), A2 as (cs2 & P2 & F2). apply app_eq_nil in Q as [-> ->].
    inversion F1; subst. inversion F2; subst. apply Permutation_sym, Permutation_nil in P1, P2. rewrite P1, P2. reflexivity. }
  assert (SE : Sensible (us1 ++ us2)).
  { split; auto. split; [|rewrite AM; exact MM]. eapply Forall_impl; [|exact SS]. intros u Hu. unfold SizedMulti in Hu. cbv zeta in Hu.
    pose proof (eo_m _ EO). pose proof (csz_ge (zlen (e_redeem ms))). pose proof (csz_ge (1 + 74 * e_m ms + vb_len (e_redeem ms))).
    assert (0 <= vb_len (e_redeem ms)) by (unfold vb_len, zlen in *; lia). destruct (u_is_segwit u); lia. }
  pose proof (R_method rounds t1 t2 e calls _ _ s (ex_intro _ _ (M_unspents rounds (Multi (wallet ms k)))) R) as R1. rewrite EG in R1. cbn [snd] in R1.
  destruct (converted_units _ _ _ outputs TM calls (wl_world s1) sats R1) as (w2 & CV); [rewrite GL; exact FU|].
  destruct (RND (n_outside w2)) as (rnd & x' & ER).
  assert (AF : @Affordable CR _ _ NW (Multi (wallet ms k)) outputs (Some fee) leftover o (us1 ++ us2) (wl_world s1) back fee (wl_world s1) sats w2 (mkNet (n_globals w2) x') n sizes
    (if o_absolute_fee o then fee else fee * size)).
  { constructor; auto.
    - apply F_given. lia.
    - lia.
    - exists rnd. cbn. unfold outside, zoom. rewrite ER. reflexivity.
    - destruct leftover as [[|c r]|]; auto; rewrite HS; destruct (l_coins L2); exact HB.
    - exists size. rewrite HV, HS. auto.
    - rewrite AM. exact EN. }
  destruct (@C82_multi CR HO _ _ NW RO ms k ks outputs (Some fee) leftover None o s (us1 ++ us2) s1 back fee (wl_world s1) sats w2 _ n sizes _ EO SG ltac:(lia) OA EG NU SP SE SC AF) as (h & s2 & _ & _ & EC & _).
  assert (DE : Forall (Describes chain) (us1 ++ us2)) by (apply Forall_app; split; eauto using held_describes).
  destruct (@C79_multi CR HO _ _ NW RO ms k ks outputs (Some fee) leftover None o s h s2 (us1 ++ us2) s1 chain EO SG LM M EC EG (sp_id _ SP) (sp_once _ SP) SC SE DE NO)
    as (h' & x & sel & f & w & coins & EP & AS & _ & VA).
  { intros f w F. inversion F; subst; try lia. destruct H; [discriminate|]. injection H as H. lia. }
  pose proof (R_method rounds _ _ _ _ _ _ s (ex_intro _ _ (M_create rounds (Multi (wallet ms k)) outputs (Some fee) leftover None o)) R) as R2. rewrite EC in R2. cbn [snd] in R2.
  destruct (C76_histories _ _ _ _ _ _ R2) as (ops & EW & HC & _).
  assert (SV : broadcast_services (e_ver ms) calls = broadcast_services (e_ver ms) ops).
  { unfold broadcast_services, services_for. rewrite HC. reflexivity. }
  rewrite SV in HA, HE.
  assert (EN2 : exists b, h' = bytes_to_hex b /\ bytes_ok b = true /\ (EncSegwit x b \/ EncLegacy x b)).
  { destruct AS as (outs & sats' & w1' & change & msgs & bk & ((b & [Hh OK] & Eb) & _) & _). exists b. split; auto. split; auto. destruct (existsb u_is_segwit sel); auto. }
  destruct EN2 as (b & -> & OKb & ENb).
  destruct (submit_through _ _ _ _ _ _ VA OKb ENb HA HE (wl_world s2)) as (w' & SU).
  pose proof (C60_broadcast rounds ops t1 t2 e (e_ver ms) (bytes_to_hex b) (Ok tt) w') as [_ C]. cbv zeta in C. rewrite <- EW in C. specialize (C SU).
  exists h, s2, sel, (bytes_to_hex b), x, coins, w'. repeat (split; auto). exists b. auto.
Qed.
End Through.
Print Assumptions C88_send.
Print Assumptions C88_multi.

(** ** The hypotheses are met: only Blockstream can be reached *)
Definition coin_at (L : Ledger) (c : Coin) : Unspent := new_unspent (c_value c) 0 (l_script L) (c_txid c) (c_index c) [] None None 0.
Definition town_chain : ledger := ledger_of (map (coin_at town_legacy) (l_coins town_legacy) ++ map (coin_at town_segwit) (l_coins town_segwit)).
Lemma chain_b chain L : forallb (fun c => match hex_to_bytes (c_txid c), hex_to_bytes (l_script L) with
    | Ok t, Ok spk => list_eqb (l_script L) (bytes_to_hex spk) && bytes_ok spk &&
        match chain (rev t) (c_index c) with Some (v, s) => (v =? c_value c) && list_eqb s spk | None => false end
    | _, _ => false end)%bool (l_coins L) = true -> OnChain chain L.
Proof.
  intros H. apply Forall_forall. intros c I. rewrite forallb_forall in H. specialize (H c I). destruct (hex_to_bytes (c_txid c)) as [t|]; [|discriminate].
  destruct (hex_to_bytes (l_script L)) as [spk|]; [|discriminate]. apply andb_true_iff in H as [H H3]. apply andb_true_iff in H as [H1 H2]. apply list_eqb_eq in H1.
  exists t, spk. repeat (split; auto). destruct (chain (rev t) (c_index c)) as [(v & s)|]; [|discriminate]. apply andb_true_iff in H3 as [H3 H4]. apply list_eqb_eq in H4.
  apply Z.eqb_eq in H3. subst v s. reflexivity.
Qed.
Section Town.
#[local] Existing Instance town.
Lemma town_useless sv : In sv [Blockchair; Bitcore; Smartbit; BlockchainInfo] -> @Useless Town town Main sv.
Proof.
  intros I h w. destruct w as [g x]. cbn in I. repeat (destruct I as [<-|I]; [eexists _, _; (split; [reflexivity|]); right; eexists; split; [reflexivity|]; unfold Unusable; cbn; auto|]). destruct I.
Qed.
Lemma town_admits chain : @Admits toy Town town Main chain Blockstream.
Proof. intros x coins b _ _ _ (g & y). eexists. reflexivity. Qed.
End Town.

(** A key with three coins pays 0.00025 btc and 1000 satoshi, with a message, at 2
    satoshis per byte. *)
Example C88_case : exists i s', town_send = (Ok i, s').
Proof.
  destruct C75_send_hypotheses as (R & K & M & O & G & _).
  assert (SZ : @OutputSizes toy (dests town_outs) 1 (segwit_addr_of wkey) [34; 32; 89; 32]).
  { exists [34; 32], 32. split; [|split; [|reflexivity]].
    - constructor; [apply outsize_b; vm_compute; reflexivity|]. constructor; [apply outsize_b; vm_compute; reflexivity|constructor].
    - apply outsize_b. vm_compute. reflexivity. }
  destruct (@C88_send toy toy_ok Town town town_chance 5 ltac:(intros x rnd x' [= <- <-] l; apply Permutation_sym, Permutation_rev)
    0 0 (0, []) [] wkey town_outs 2 None (wopts true true) town_wallet town_legacy town_segwit town_chain [25000; 1000] 1 (segwit_addr_of wkey) [34; 32; 89; 32] 585
    R K M own_toy O G) as (i & s' & _ & _ & EQ & _).
  - cbn. repeat constructor; cbn; lia.
  - discriminate.
  - reflexivity.
  - vm_compute. discriminate.
  - apply chain_b. vm_compute. reflexivity.
  - apply chain_b. vm_compute. reflexivity.
  - discriminate.
  - reflexivity.
  - constructor; [|constructor; [|constructor]].
    + exists 8, 25, 5. split; [cbn; auto|]. split; [|split; [reflexivity|split; reflexivity]].
      left. constructor. apply (A_point 25 (str "0") (str "00025")); [apply (digits_of (str "000025")); reflexivity|discriminate].
    + exists 0, 1000, 0. split; [cbn; auto|]. split; [|split; [reflexivity|split; reflexivity]].
      left. constructor. apply A_whole; [apply (digits_of (str "1000")); reflexivity|discriminate].
  - repeat constructor.
  - lia.
  - apply hello_is.
  - vm_compute. reflexivity.
  - constructor; [apply payable_b; vm_compute; reflexivity|]. constructor; [apply payable_b; vm_compute; reflexivity|]. constructor; [apply payable_b; vm_compute; reflexivity|constructor].
  - exact SZ.
  - exists 1, 1. split; [split; [lia|split; [reflexivity|auto]]|]. split; [split; [lia|split; [reflexivity|auto]]|]. vm_compute. split; [discriminate|reflexivity].
  - vm_compute. discriminate.
  - intros x. eexists _, _. reflexivity.
  - intros x. eexists _, _. reflexivity.
  - intros sv I. cbn in I. repeat (destruct I as [<-|I]; [try (right; apply town_admits); left; apply town_useless; cbn; tauto|]). destruct I.
  - exists Blockstream. split; [cbn; auto|apply town_admits].
  - exists i, s'. exact EQ.
Qed.
(** Two of three co-signers, the same payments. *)
Definition town_chain_ms : ledger :=
  ledger_of (map (coin_at (ledger_legacy town_ma)) (l_coins town_legacy) ++ map (coin_at (ledger_segwit town_msa)) (l_coins town_segwit)).
Example C88_multi_case : exists h s' sel h' w', town_create = (Ok h, s') /\ @pass_all toy toy_env sel h [toy_k 7] = Ok h' /\
  @broadcast_tx Town town Main h' (wl_world s') = (Ok tt, w').
Proof.
  destruct C75_multi_hypotheses as (EO & SG & LM & O & G & _). destruct C75_send_hypotheses as (R & _ & M & _).
  assert (SZ : @OutputSizes toy (dests town_outs) 1 town_msa [34; 32; 89; 32]).
  { exists [34; 32], 32. split; [|split; [|reflexivity]].
    - constructor; [apply outsize_b; vm_compute; reflexivity|]. constructor; [apply outsize_b; vm_compute; reflexivity|constructor].
    - apply outsize_b. vm_compute. reflexivity. }
  destruct (@C88_multi toy toy_ok Town town town_chance 5 ltac:(intros x rnd x' [= <- <-] l; apply Permutation_sym, Permutation_rev)
    0 0 (0, []) [] toy_env (toy_k 5) [toy_k 7] town_outs 2 None (wopts true true) town_wallet (ledger_legacy town_ma) (ledger_segwit town_msa) town_chain_ms [25000; 1000] 1 town_msa [34; 32; 89; 32] 934
    R EO SG LM M own_toy_multi O G) as (h & s' & sel & h' & _ & _ & w' & E1 & E2 & _ & _ & E3).
  - cbn. repeat constructor; cbn; lia.
  - discriminate.
  - reflexivity.
  - vm_compute. discriminate.
  - apply chain_b. vm_compute. reflexivity.
  - apply chain_b. vm_compute. reflexivity.
  - discriminate.
  - reflexivity.
  - constructor; [|constructor; [|constructor]].
    + exists 8, 25, 5. split; [cbn; auto|]. split; [|split; [reflexivity|split; reflexivity]].
      left. constructor. apply (A_point 25 (str "0") (str "00025")); [apply (digits_of (str "000025")); reflexivity|discriminate].
    + exists 0, 1000, 0. split; [cbn; auto|]. split; [|split; [reflexivity|split; reflexivity]].
      left. constructor. apply A_whole; [apply (digits_of (str "1000")); reflexivity|discriminate].
  - repeat constructor.
  - lia.
  - apply hello_is.
  - vm_compute. reflexivity.
  - constructor; [apply payable_b; vm_compute; reflexivity|]. constructor; [apply payable_b; vm_compute; reflexivity|]. constructor; [apply payable_b; vm_compute; reflexivity|constructor].
  - exact SZ.
  - exists 1, 1. split; [split; [lia|split; [reflexivity|auto]]|]. split; [split; [lia|split; [reflexivity|auto]]|]. vm_compute. split; [discriminate|reflexivity].
  - vm_compute. discriminate.
  - intros x. eexists _, _. reflexivity.
  - intros x. eexists _, _. reflexivity.
  - intros sv I. cbn in I. repeat (destruct I as [<-|I]; [try (right; apply town_admits); left; apply town_useless; cbn; tauto|]). destruct I.
  - exists Blockstream. split; [cbn; auto|apply town_admits].
  - exists h, s', sel, h', w'. split; [exact E1|]. split; [exact E2|exact E3].
Qed.
