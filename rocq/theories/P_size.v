(** C43: the fee paid covers the virtual size of the signed transaction. *)
From Coq Require Import String Permutation.
From Verif Require Import F_wallet F_utf8 F_spend F_cosigntx X_world F_build P_outputs P_select P_sign P_multi P_wallet P_create P_state F_size.

(** Small transactions: counts and script lengths are written in one byte. *)
Definition Small (x : tx) : Prop :=
  zlen (t_ins x) <= 252 /\ zlen (t_outs x) <= 252 /\ Forall (fun o => zlen (o_script o) <= 252) (t_outs x).
(** No message, or one of at most 78 bytes. *)
Definition ShortMessage (o : Options) : Prop :=
  match o_message o with None => True | Some m => exists b, MsgBytes m (o_message_is_hex o) b /\ zlen b <= 78 end.
Definition Uniform_coins (us : list Unspent) : Prop :=
  Forall (fun u => u_is_segwit u = true) us \/ Forall (fun u => u_is_segwit u = false) us.
(** One unit for the empty witness of a coin that has none beside one that has. *)
Definition extra (seg : bool) (u : Unspent) : Z := if seg && negb (u_is_segwit u) then 1 else 0.
Definition legacy_count (us : list Unspent) : Z := zlen (filter (fun u => negb (u_is_segwit u)) us).

Lemma F2_nth_all {A B} (P : A -> B -> Prop) l l' : length l = length l' ->
  (forall j a b, nth_error l j = Some a -> nth_error l' j = Some b -> P a b) -> Forall2 P l l'.
Proof.
  revert l'. induction l as [|a l IH]; intros [|b l'] L H; try discriminate; constructor.
  - apply (H 0%nat); reflexivity.
  - apply IH; [injection L; auto|]. intros j. apply (H (S j)).
Qed.
Lemma extra_count seg us : total (map (extra seg) us) = if seg then legacy_count us else 0.
Proof.
  unfold extra, legacy_count. induction us as [|u us IH]; [destruct seg; reflexivity|]. cbn [map total filter]. rewrite IH. destruct seg; cbn [andb]; [|lia].
  destruct (negb (u_is_segwit u)); unfold zlen; cbn [length]; lia.
Qed.
Lemma extra_uniform us : Uniform_coins us -> total (map (extra (existsb u_is_segwit us)) us) = 0.
Proof.
  rewrite extra_count. intros [F|F].
  - destruct (existsb _ _); auto. unfold legacy_count. induction F as [|u us Hu F IH]; auto. cbn [filter]. rewrite Hu. auto.
  - destruct (existsb u_is_segwit us) eqn:E; auto. apply existsb_exists in E as (u & I & E). rewrite Forall_forall in F. rewrite (F u I) in E. discriminate.
Qed.

Section WithCrypto.
Context {CR : Crypto} (HO : HashOk CR).

(** The sizes the wallet gives to its coins: in quarters of a byte. *)
Definition SizedSingle (k : PrivateKey) (u : Unspent) : Prop :=
  u_vsize u = 4 * (if u_is_segwit u then 91 else if (length (k_public_key k) =? 33)%nat then 148 else 180).
Definition SizedMulti (e : Env) (u : Unspent) : Prop :=
  let unlock := 1 + 74 * e_m e + vb_len (e_redeem e) in
  u_vsize u = if u_is_segwit u then 4 * 76 + (1 + unlock) else 4 * (40 + csz unlock + unlock).

Lemma push_cost_z d : (length d <= 75)%nat -> Z.of_nat (push_cost d) = 1 + zlen d.
Proof. intros H. rewrite push_cost_small by auto. unfold zlen. lia. Qed.
Lemma push_cost_redeem d : Z.of_nat (push_cost d) <= 1 + vb_len d.
Proof.
  unfold push_cost, vb_len, csz. fold (zlen d). assert (0 <= zlen d) by (unfold zlen; lia).
  assert (E : Z.of_nat (length d) = zlen d) by reflexivity.
  repeat (match goal with |- context [?a <? ?c] => destruct (Z.ltb_spec a c) | |- context [?a <=? ?c] => destruct (Z.leb_spec a c) end); lia.
Qed.

Lemma single_lens k x j u xi : KeyOk k -> spends_single k x j u xi -> SingleCoin k u ->
  exists m, let sig := zlen (ec_sign (k_secret k) m) + 1 in let pub := zlen (k_public_key k) in
    if u_is_segwit u then pub = 33 /\ in_len xi = 64 /\ wit_len (i_wit xi) = 3 + sig + pub
    else in_len xi = 43 + sig + pub /\ wit_len (i_wit xi) = 1.
Proof.
  intros K (msg & sig & _ & _ & Q & R) SC. exists (sha256 msg). cbv zeta. destruct K as [K1 _ _ _ K5 _]. specialize (K5 (sha256 msg)).
  assert (Lg : zlen sig = zlen (ec_sign (k_secret k) (sha256 msg)) + 1) by (rewrite Q, zlen_app'; reflexivity). clear Q.
  assert (Lz : 0 <= zlen sig <= 73) by (rewrite Lg; unfold zlen; lia).
  unfold SingleCoin in SC. unfold in_len, vb_len. destruct (u_is_segwit u).
  - destruct SC as [SC _]. split; [unfold zlen; lia|]. destruct R as [[_ R] W]. rewrite W. cbn [map list_sum fold_right] in R.
    assert (L22 : length ([0x00; 0x14] ++ hash160 (k_public_key k)) = 22%nat) by (rewrite app_length, (h160_len HO); reflexivity).
    rewrite push_cost_small, L22 in R by lia. cbn [Nat.add] in R.
    replace (zlen (i_script xi)) with 23 by (unfold zlen; rewrite R; reflexivity). split; [reflexivity|].
    unfold wit_len, vb_len. cbn [map total]. change (zlen [sig; k_public_key k]) with 2. rewrite Lg in *.
    rewrite !csz_small by (unfold zlen in *; lia). lia.
  - destruct R as [[_ R] W]. rewrite W. cbn [map list_sum fold_right] in R. rewrite Nat.add_0_r in R.
    assert (E : zlen (i_script xi) = 2 + zlen sig + zlen (k_public_key k)).
    { unfold zlen at 1. rewrite R, Nat2Z.inj_add, !push_cost_z by (unfold zlen in *; lia). lia. }
    rewrite E. rewrite csz_small by (unfold zlen in *; lia). split; [lia|reflexivity].
Qed.
Lemma single_weight k x j u xi (seg : bool) : KeyOk k -> (forall m, (length (ec_sign (k_secret k) m) <= 71)%nat) -> SingleCoin k u -> SizedSingle k u ->
  spends_single k x j u xi -> in_weight seg xi <= u_vsize u + extra seg u.
Proof.
  intros K L SC SZ SP. destruct (single_lens k x j u xi K SP SC) as (m & Q). cbv zeta in Q. specialize (L m). destruct (ko_len _ K) as [KL|KL];
    unfold in_weight, extra; rewrite SZ, KL; unfold zlen in Q; rewrite KL in Q; cbn [Nat.eqb]; destruct (u_is_segwit u); cbn [negb andb].
  - destruct Q as (_ & -> & ->). rewrite andb_false_r. destruct seg; lia.
  - destruct Q as (-> & ->). rewrite andb_true_r. destruct seg; lia.
  - lia.
  - destruct Q as (-> & ->). rewrite andb_true_r. destruct seg; lia.
Qed.
Lemma single_weight_eq k x j u xi (seg : bool) : KeyOk k -> (forall m, (length (ec_sign (k_secret k) m) = 71)%nat) -> SingleCoin k u -> SizedSingle k u ->
  (u_is_segwit u = true -> seg = true) -> spends_single k x j u xi -> in_weight seg xi = u_vsize u + extra seg u.
Proof.
  intros K L SC SZ S SP. destruct (single_lens k x j u xi K SP SC) as (m & Q). cbv zeta in Q. unfold zlen in Q. rewrite (L m) in Q. destruct (ko_len _ K) as [KL|KL];
    unfold in_weight, extra; rewrite SZ, KL; rewrite KL in Q; cbn [Nat.eqb]; destruct (u_is_segwit u); cbn [negb andb].
  - destruct Q as (_ & -> & ->). rewrite (S eq_refl). reflexivity.
  - destruct Q as (-> & ->). rewrite andb_true_r. destruct seg; reflexivity.
  - lia.
  - destruct Q as (-> & ->). rewrite andb_true_r. destruct seg; reflexivity.
Qed.

Lemma multi_weight e ks x j u xi (seg : bool) : EnvOk e -> Forall (fun k => forall m, (length (ec_sign (k_secret k) m) <= 71)%nat) ks ->
  zlen ks = e_m e -> MultiCoin e u -> SizedMulti e u -> part_spends e ks x j u 0 xi -> in_weight seg xi <= u_vsize u + extra seg u.
Proof.
  intros O L LK MC SZ (msg & sigs & _ & LS & _ & _ & FS & R). pose proof (eo_m _ O) as Hm. destruct (redeem_shape e O) as (_ & Hm15 & _).
  assert (FL : Forall (fun g => (length g <= 72)%nat) sigs).
  { eapply Forall_impl; [|exact FS]. intros g (k & I & ->). rewrite Forall_forall in L. specialize (L k I (sha256 msg)). rewrite app_length. cbn [length]. lia. }
  assert (LM : Z.of_nat (length sigs) = e_m e) by (rewrite LS; exact LK). clear LS FS.
  assert (T : total (map vb_len sigs) <= 73 * Z.of_nat (length sigs) /\ Z.of_nat (list_sum (map push_cost sigs)) <= 73 * Z.of_nat (length sigs)).
  { clear -FL. induction FL as [|g gs Lg F [IH1 IH2]]; [cbn; lia|]. cbn [map total list_sum fold_right length]. unfold list_sum in IH2.
    rewrite Nat2Z.inj_add, push_cost_z by lia. unfold vb_len at 1. rewrite csz_small by (unfold zlen; lia). unfold zlen. lia. }
  destruct T as [T1 T2]. cbn [repeat app] in R. unfold in_weight, extra, in_len. unfold SizedMulti in SZ. cbv zeta in SZ. rewrite SZ. destruct (u_is_segwit u); cbn [negb andb].
  - destruct R as [[_ R] W]. rewrite W. cbn [map list_sum fold_right] in R.
    assert (L34 : length ([0x00; 0x20] ++ sha256 (e_redeem e)) = 34%nat) by (rewrite app_length, (sha256_len _ HO); reflexivity).
    rewrite push_cost_small, Nat.add_0_r in R by (eapply Nat.le_trans; [apply Nat.eq_le_incl; exact L34|lia]).
    assert (R35 : zlen (i_script xi) = 35) by (unfold zlen; rewrite R; change 35 with (Z.of_nat 35); f_equal; f_equal; exact L34).
    unfold vb_len at 1. rewrite R35. rewrite (csz_small 35) by lia.
    unfold wit_len. cbn [map total]. rewrite map_app, total_app. cbn [map total]. rewrite csz_small by (unfold zlen; cbn [length]; rewrite app_length; cbn [length]; lia).
    change (vb_len []) with 1. assert (V0 : 0 <= vb_len (e_redeem e)) by (unfold vb_len; pose proof (csz_ge (zlen (e_redeem e))); unfold zlen in *; lia).
    rewrite andb_false_r. unfold bytes in *. destruct seg; lia.
  - destruct R as [[_ R] W]. rewrite W. change (wit_len []) with 1. rewrite andb_true_r.
    cbn [map list_sum fold_right] in R. change (push_cost []) with 1%nat in R. rewrite map_app, fold_right_app in R. cbn [map fold_right] in R.
    assert (E : forall l z, fold_right Nat.add z l = (list_sum l + z)%nat) by (clear; induction l as [|a l IH]; intros z; cbn; [auto|rewrite IH; unfold list_sum; lia]).
    rewrite E in R. pose proof (push_cost_redeem (e_redeem e)) as PR.
    set (un := 1 + 74 * e_m e + vb_len (e_redeem e)).
    assert (Q : zlen (i_script xi) <= un) by (unfold zlen, un; rewrite R; lia).
    unfold vb_len at 1. pose proof (csz_mono _ _ Q). destruct seg; lia.
Qed.

(** *** Outputs *)
Lemma outs_sizes pay sats change msgs back sizes xs : length sats = length pay ->
  Forall2 OutFor (combine (map Addr pay) sats ++ change ++ msgs) xs -> OutputSizes pay (length msgs) back sizes ->
  (change = [] \/ exists n, change = [(Addr back, n)]) -> Forall (fun o => zlen (o_script o) <= 252) xs ->
  Forall (fun o => exists c, fst o = Data c /\ zlen c <= 78) msgs ->
  total (map out_len xs) <= total sizes /\ (change = [] -> total (map out_len xs) <= total (all_but_last sizes)) /\
  (change <> [] -> total (map out_len xs) = total sizes + total (map (fun x => out_len x - 89) (skipn (length pay + 1) xs)) /\
     length xs = (length pay + 1 + length msgs)%nat /\ length sizes = (length pay + 2)%nat).
Proof.
  intros L F (l & c & Fl & (script & Eb & ->) & ->) Hc Fs Fm.
  apply Forall2_app_inv_l in F as (x1 & x23 & F1 & F23 & ->). apply Forall2_app_inv_l in F23 as (x2 & x3 & F2 & F3 & ->).
  apply Forall_app in Fs as [S1 Fs]. apply Forall_app in Fs as [S2 S3].
  assert (T1 : total (map out_len x1) = total l /\ length x1 = length l).
  { clear -L F1 Fl S1. revert sats x1 L F1 S1. induction Fl as [|a s pay l (sc & Ea & ->) Fl IH]; intros [|n sats] x1 L F1 S1; try discriminate; inversion F1; subst; auto.
    match goal with H : OutFor _ _ |- _ => destruct H as [_ HS]; cbn [fst] in HS; rewrite Ea in HS; injection HS as HS end.
    apply Forall_cons_iff in S1 as [S1 S1']. match goal with H : Forall2 _ _ _ |- _ => destruct (IH sats _ ltac:(injection L; auto) H S1') as [I1 I2] end.
    cbn [map total length]. rewrite I1, I2. unfold out_len, vb_len. rewrite csz_small by auto. rewrite <- HS. unfold zlen. split; lia. }
  destruct T1 as [T1 N1].
  assert (T3 : 0 <= total (map out_len x3) <= 89 * Z.of_nat (length msgs)).
  { clear -F3 Fm S3. revert x3 F3 S3. induction Fm as [|o msgs (c & Ec & Lc) Fm IH]; intros x3 F3 S3; inversion F3; subst; [cbn; lia|].
    match goal with H : OutFor _ _ |- _ => destruct H as [_ HS]; rewrite Ec in HS end.
    apply Forall_cons_iff in S3 as [S3 S3']. match goal with H : Forall2 _ _ _ |- _ => specialize (IH _ H S3') end.
    cbn [map total length]. unfold out_len at 1 3. unfold vb_len. rewrite csz_small by auto. rewrite HS.
    assert (E2 : zlen ([106; zlen c] ++ c) = 2 + zlen c) by (unfold zlen; rewrite app_length; cbn [length]; lia). rewrite E2.
    assert (0 <= zlen c) by (unfold zlen; lia). lia. }
  assert (T2 : (change = [] -> x2 = []) /\ (change <> [] -> total (map out_len x2) = zlen script + 9 /\ length x2 = 1%nat)).
  { destruct Hc as [->|(n & ->)]; split; try congruence; intros _.
    - inversion F2. auto.
    - inversion F2 as [|? ? ? ? [_ H] F2']; subst. inversion F2'; subst. cbn [fst] in H. rewrite Eb in H. injection H as H.
      apply Forall_cons_iff in S2 as [S2 _]. cbn [map total length]. unfold out_len, vb_len. rewrite csz_small by auto. rewrite <- H. unfold zlen. split; [lia|auto]. }
  destruct T2 as [T2 T2']. rewrite !map_app, !total_app. rewrite T1. cbn [total].
  assert (0 <= zlen script) by (unfold zlen; lia). split; [|split].
  - destruct Hc as [Q|(n & Q)].
    + rewrite (T2 Q). cbn [map total]. lia.
    + destruct T2' as [-> _]; [congruence|]. unfold zlen. lia.
  - intros Q. rewrite (T2 Q). unfold all_but_last. rewrite app_length. cbn [length map total].
    replace (length l + 2 - 1)%nat with (length l + 1)%nat by lia. rewrite firstn_app_2. cbn [firstn]. rewrite total_app. cbn [total]. lia.
  - intros Qc. destruct (T2' Qc) as [-> N2]. pose proof (F2_len _ _ _ Fl) as Np. pose proof (F2_len _ _ _ F3) as N3. rewrite !app_length. cbn [length].
    split; [|lia]. replace (skipn (length pay + 1) (x1 ++ x2 ++ x3)) with x3.
    + rewrite N3. assert (T : total (map (fun x => out_len x - 89) x3) = total (map out_len x3) - 89 * Z.of_nat (length x3)) by (clear; induction x3 as [|a l IH]; cbn [map total length]; lia).
      rewrite T. unfold zlen. lia.
    + rewrite app_assoc, skipn_app, skipn_all2 by (rewrite app_length; lia). rewrite app_length. replace (length pay + 1 - (length x1 + length x2))%nat with 0%nat by lia. reflexivity.
Qed.

(** *** The estimate covers the weight *)
Lemma est_bound (seg : bool) x b w sel sizes s outs_total : (if seg then EncSegwit x b else EncLegacy x b) -> Weight x b w ->
  Forall2 (fun u xi => in_weight seg xi <= u_vsize u + extra seg u) sel (t_ins x) -> zlen (t_ins x) <= 252 -> zlen (t_outs x) <= 252 ->
  total (map out_len (t_outs x)) <= outs_total ->
  w <= total (map u_vsize sel) + total (map (extra seg) sel) + 4 * (10 + outs_total) + (if seg then 2 else 0) /\
  (EstimatedSize (map u_vsize sel) sizes seg s -> outs_total <= total sizes -> w <= 4 * s + total (map (extra seg) sel)).
Proof.
  intros E Wt F N1 N2 T. rewrite (weight_eq seg x b w E Wt). rewrite !csz_small by auto.
  assert (TI : total (map (in_weight seg) (t_ins x)) <= total (map u_vsize sel) + total (map (extra seg) sel)).
  { clear -F. induction F as [|u xi us xis H F IH]; cbn [map total]; lia. }
  split; [lia|]. intros (ki & ko & (K1 & _) & (K2 & _) & Es) To. cbv zeta in Es. lia.
Qed.

Context {W Amt : Type} {WD : World W Amt}.

Lemma message_chunks o msgs : ShortMessage o ->
  (match o_message o with None => msgs = [] | Some m => forall b, MsgBytes m (o_message_is_hex o) b ->
     exists chunks, msgs = map (fun c => (Data c, 0)) chunks /\ Chunks b chunks end) ->
  Forall (fun o : dest * Z => exists c, fst o = Data c /\ zlen c <= 78) msgs.
Proof.
  unfold ShortMessage. destruct (o_message o) as [m|]; intros S H; [|subst; constructor]. destruct S as (b & MB & Lb).
  destruct (H b MB) as (ch & -> & Cc & _). apply Forall_map, Forall_forall. intros c Hc. exists c. split; auto. cbn [fst].
  apply in_split in Hc as (c1 & c2 & ->). rewrite concat_app in Cc. cbn [concat] in Cc. unfold zlen in *. rewrite <- Cc in Lb. rewrite !app_length in Lb. lia.
Qed.

(** The fee paid for the transaction, the fee per byte [f] being asked for:
    covers the virtual size, or a changeless match was found and the fee lacks
    the rate for one byte, and the rounding and marker of segwit transactions. *)
Definition Covered (f : Z) (o : Options) (outputs : list (pystr * Amt * pystr)) (x : tx) (b : bytes) (sel : list Unspent) : Prop :=
  let paid := amounts sel - total (map o_value (t_outs x)) in
  exists w v, Weight x b w /\ VirtualSize x b v /\
    let seg := existsb u_is_segwit sel in
    let short := if seg then legacy_count sel else 0 in
    (f * (w - short) <= 4 * paid /\ (Uniform_coins sel -> f * v <= paid) \/
     o_combine o = false /\ f * (w - short - 4 - (if seg then 2 else 0)) <= 4 * paid).

Lemma covered f o outputs leftover us sel w0 sg h x b :
  0 <= f -> o_absolute_fee o = false -> ShortMessage o -> Small x -> Asked sg outputs f leftover o us sel w0 h x -> h = bytes_to_hex b ->
  (if existsb u_is_segwit sel then EncSegwit x b else EncLegacy x b) ->
  Forall2 (fun u xi => in_weight (existsb u_is_segwit sel) xi <= u_vsize u + extra (existsb u_is_segwit sel) u) sel (t_ins x) ->
  Covered f o outputs x b sel.
Proof.
  intros Hf Ab SM (N1 & N2 & N3) (outs & sats & w1 & change & msgs & back & B & _ & -> & Ls & Hc & _ & (_ & Hm) & _ & sizes & SZ & P) Hb E F.
  cbv zeta in P. set (seg := existsb u_is_segwit sel) in *. destruct (weight_exists seg x b E) as (w & Wt).
  assert (V : exists v, w <= 4 * v < w + 4). { exists ((w + 3) / 4). zdm. lia. }
  destruct V as (v & V). exists w, v. split; auto. split; [exists w; auto|]. cbv zeta.
  assert (LP : length sats = length (dests outputs)) by (unfold dests; rewrite map_length; auto).
  assert (Hc' : change = [] \/ exists n, change = [(Addr back, n)]) by (destruct Hc as [Hc|(n & _ & Hc)]; eauto).
  destruct B as (_ & _ & _ & FI & FO).
  destruct (outs_sizes _ _ _ _ _ _ _ LP FO SZ Hc' N3 (message_chunks _ _ SM Hm)) as (O1 & O2 & _).
  fold seg. rewrite <- (extra_count seg sel). destruct P as [(s & Es & Ep)|(_ & Cb & Cc & Ch)].
  - left. rewrite Ab in Ep. destruct (est_bound seg x b w sel sizes s _ E Wt F N1 N2 O1) as [_ Q]. specialize (Q Es (Z.le_refl _)). rewrite Ep. split; [nia|].
    intros U. apply extra_uniform in U. fold seg in U. rewrite U in Q. assert (v <= s) by lia. nia.
  - right. split; auto. destruct (est_bound seg x b w sel sizes 0 _ E Wt F N1 N2 (O2 Cc)) as [Q _]. unfold Changeless in Ch. cbv zeta in Ch. destruct Ch as [Ch _].
    assert (A1 : total (map fst (map coin sel)) = amounts sel) by (unfold amounts; rewrite map_map; reflexivity).
    assert (A2 : total (map snd (map coin sel)) = total (map u_vsize sel)) by (rewrite map_map; reflexivity).
    rewrite A1, A2 in Ch. assert (A3 : total (map o_value (t_outs x)) = total sats).
    { rewrite (outs_values _ _ FO), Cc, !map_app, !total_app. cbn [map total app]. assert (M0 : total (map snd msgs) = 0).
      { destruct (o_message o) as [m|] eqn:Em; [|subst; reflexivity]. unfold ShortMessage in SM. rewrite Em in SM. destruct SM as (bb & MB & _).
        destruct (Hm bb MB) as (ch & -> & _). clear. induction ch; cbn; auto. }
      rewrite M0. replace (map snd (combine (map Addr (dests outputs)) sats)) with sats; [lia|]. clear -LP. revert sats LP.
      generalize (dests outputs). intros l. induction l as [|a l IH]; intros [|n sats] L; try discriminate; cbn; auto. f_equal. apply IH. injection L; auto. }
    rewrite A3. destruct seg; nia.
Qed.

Theorem C43_single (RO : RandomOk WD) k outputs fee leftover unspents o s h s' us s1 :
  KeyOk k -> MsgOk o -> create_transaction (Single k) outputs fee leftover unspents o s = (Ok h, s') ->
  Available (Single k) unspents s us s1 -> Forall TxidOk us -> Distinct us -> Forall (SingleCoin k) us ->
  Forall (SizedSingle k) us -> (forall m, (length (ec_sign (k_secret k) m) <= 71)%nat) -> ShortMessage o -> o_absolute_fee o = false ->
  exists x sel f w b, FeeRate fee (wl_world s1) f w /\ Asked (Single k) outputs f leftover o us sel w h x /\ h = bytes_to_hex b /\
    (Uniform_coins us -> Uniform_coins sel) /\
    (0 <= f -> Small x -> Covered f o outputs x b sel).
Proof.
  intros K M E A T D SC SZ LS SM Ab. destruct (C50_create_single HO RO _ _ _ _ _ _ _ _ _ _ _ K M E A T D SC) as (x & sel & f & w & Ef & Ak & Sp).
  pose proof Ak as (outs & sats & w1 & change & msgs & back & B & _ & _ & _ & _ & _ & _ & (taken & unused & Pm & _ & _ & Hs) & _).
  destruct B as ((b & [Hb _] & Eb) & _ & _ & FI & _). exists x, sel, f, w, b. split; auto. split; auto. split; auto.
  assert (SEL : forall P : Unspent -> Prop, (forall u, P u -> P (opt_in_for_RBF u)) -> Forall P us -> Forall P sel).
  { intros P HP FP. eapply Permutation_Forall in FP; [|apply Permutation_sym; exact Pm]. apply Forall_app in FP as [FP _]. subst sel.
    destruct (o_replace_by_fee o); auto. apply Forall_map. eapply Forall_impl; eauto. }
  split.
  { intros [U|U]; [left|right]; revert U; apply SEL; intros u Hu; destruct (rbf_keep u) as (_ & _ & _ & -> & _); auto. }
  intros Hf Sm. eapply covered; eauto.
  assert (SC' : Forall (fun u => SingleCoin k u /\ SizedSingle k u) sel).
  { apply SEL; [|rewrite Forall_forall in *; auto]. intros u [H1 H2]. unfold SingleCoin, SizedSingle in *. destruct (rbf_keep u) as (_ & _ & -> & -> & _).
    destruct (rbf_same u) as (_ & -> & _). auto. }
  apply F2_nth_all; [apply (F2_len _ _ _ FI)|]. intros j u xi Hu Hx. rewrite Forall_forall in SC'. destruct (SC' u (nth_error_In _ _ Hu)) as [H1 H2].
  eapply single_weight; eauto.
Qed.

(** The same for a multisig wallet, once the transaction is signed by as many co-signers as needed. *)
Theorem C43_multi (RO : RandomOk WD) e k ks outputs fee leftover unspents o s h s' us s1 :
  EnvOk e -> Signers e (k :: ks) -> zlen (k :: ks) = e_m e -> MsgOk o -> create_transaction (Multi (wallet e k)) outputs fee leftover unspents o s = (Ok h, s') ->
  Available (Multi (wallet e k)) unspents s us s1 -> Forall TxidOk us -> Distinct us -> Forall (MultiCoin e) us ->
  Forall (SizedMulti e) us -> Forall (fun k => forall m, (length (ec_sign (k_secret k) m) <= 71)%nat) (k :: ks) -> ShortMessage o -> o_absolute_fee o = false ->
  exists h' x sel f w b, FeeRate fee (wl_world s1) f w /\ pass_all e sel h ks = Ok h' /\
    Asked (Multi (wallet e k)) outputs f leftover o us sel w h' x /\ h' = bytes_to_hex b /\
    (Uniform_coins us -> Uniform_coins sel) /\
    (0 <= f -> Small x -> Covered f o outputs x b sel).
Proof.
  intros EO SG LM M E A T D SC SZ LS SM Ab. destruct (C50_create_multi HO RO e k ks _ _ _ _ _ _ _ _ _ _ EO SG ltac:(lia) M E A T D SC) as (h' & x & sel & f & w & Ef & Ep & Ak & Sp).
  pose proof Ak as (outs & sats & w1 & change & msgs & back & B & _ & _ & _ & _ & _ & _ & (taken & unused & Pm & _ & _ & Hs) & _).
  destruct B as ((b & [Hb _] & Eb) & _ & _ & FI & _). exists h', x, sel, f, w, b. split; auto. split; auto. split; auto. split; auto.
  assert (SEL : forall P : Unspent -> Prop, (forall u, P u -> P (opt_in_for_RBF u)) -> Forall P us -> Forall P sel).
  { intros P HP FP. eapply Permutation_Forall in FP; [|apply Permutation_sym; exact Pm]. apply Forall_app in FP as [FP _]. subst sel.
    destruct (o_replace_by_fee o); auto. apply Forall_map. eapply Forall_impl; eauto. }
  split.
  { intros [U|U]; [left|right]; revert U; apply SEL; intros u Hu; destruct (rbf_keep u) as (_ & _ & _ & -> & _); auto. }
  intros Hf Sm. eapply covered; eauto.
  assert (SC' : Forall (fun u => MultiCoin e u /\ SizedMulti e u) sel).
  { apply SEL; [|rewrite Forall_forall in *; auto]. intros u [H1 H2]. unfold MultiCoin, SizedMulti in *. destruct (rbf_keep u) as (_ & _ & -> & -> & _).
    destruct (rbf_same u) as (_ & -> & _). auto. }
  apply F2_nth_all; [apply (F2_len _ _ _ FI)|]. intros j u xi Hu Hx. rewrite Forall_forall in SC'. destruct (SC' u (nth_error_In _ _ Hu)) as [H1 H2].
  destruct (Sp j u xi Hu Hx) as (z & PS & Z0). rewrite (Z0 LM) in PS. eapply multi_weight; eauto.
Qed.

(** The coins that the wallet fetches are so sized. *)
Lemma fetched_shape sg s us s' : get_unspents sg s = (Ok us, s') ->
  exists t1 v1 t2 v2 l1 l2, coin_types sg = Ok (t1, v1, (t2, v2)) /\ us = map (fun u => set_type u t1 v1) l1 ++ map (fun u => set_type u t2 v2) l2.
Proof.
  unfold get_unspents. intros E. apply ibind_ok in E as (((t1 & v1) & (t2 & v2)) & s0 & Et & E). apply ilift_ok in Et as (Et & ->). cbv beta iota in E.
  apply ibind_ok in E as (a & s0 & Ea & E). apply ilift_ok in Ea as (Ea & ->).
  apply ibind_ok in E as (l1 & s1 & E1 & E). unfold world, zoom in E1. destruct (w_unspent (sg_version sg) a (wl_world s)) as (r1 & w1) eqn:U1. injection E1 as -> <-.
  apply ibind_ok in E as (x & s2 & E2 & E). unfold modify, iget, iput, ibind in E2. injection E2 as <- <-.
  apply ibind_ok in E as (seg & s2 & Esg & E). apply ilift_ok in Esg as (Esg & ->).
  apply ibind_ok in E as (x & s3 & E3 & E). exists t1, v1, t2, v2, l1.
  destruct seg as [sa|].
  - apply ibind_ok in E3 as (l2 & s4 & E4 & E3). unfold world, zoom in E4.
    cbn [wl_world set_unspents set_world] in E4. destruct (w_unspent (sg_version sg) sa w1) as (r2 & w2) eqn:U2. injection E4 as -> <-.
    unfold modify, iget, iput, ibind in E3. injection E3 as <- <-. unfold modify, iget, iput, ibind in E. injection E as <- <-. exists l2. auto.
  - injection E3 as <- <-. unfold modify, iget, iput, ibind in E. injection E as <- <-. exists []. split; auto. cbn. rewrite app_nil_r. reflexivity.
Qed.
Theorem C43_fetched_single k s us s' : length (k_public_key k) = 33%nat \/ length (k_public_key k) = 65%nat ->
  get_unspents (Single k) s = (Ok us, s') -> Forall (SizedSingle k) us.
Proof.
  intros L E. destruct (fetched_shape _ _ _ _ E) as (t1 & v1 & t2 & v2 & l1 & l2 & Et & ->). cbn [coin_types] in Et. injection Et as <- <- <- <-.
  apply Forall_app. split; apply Forall_map, Forall_forall; intros u _; unfold SizedSingle, key_is_compressed, zlen.
  - destruct L as [-> | ->]; reflexivity.
  - reflexivity.
Qed.
Theorem C43_fetched_multi e k s us s' : EnvOk e -> get_unspents (Multi (wallet e k)) s = (Ok us, s') -> Forall (SizedMulti e) us.
Proof.
  intros O E. destruct (fetched_shape _ _ _ _ E) as (t1 & v1 & t2 & v2 & l1 & l2 & Et & ->). cbn [coin_types wallet ms_redeemscript ms_m] in Et.
  apply bind_ok in Et as (l & El & Et). cbv zeta in Et. apply bind_ok in Et as (n & En & Et).
  match type of Et with Ok (?a, ?b, (?c, ?d)) = _ => assert (t1 = a /\ v1 = b /\ t2 = c /\ v2 = d) as (-> & -> & -> & ->) by (repeat split; congruence) end. clear E Et.
  apply varint_spec, cs_len in El. apply varint_spec, cs_len in En. pose proof (eo_m _ O). pose proof (csz_ge (zlen (e_redeem e))).
  assert (0 <= zlen (e_redeem e)) by (unfold zlen; lia).
  assert (SV : forall u t v, v <> 0 -> u_vsize (set_type u t v) = v) by (intros u t v Hv; unfold set_type; cbn [u_vsize]; destruct (Z.eqb_spec v 0); congruence).
  apply Forall_app. split; apply Forall_map, Forall_forall; intros u _; unfold SizedMulti; cbv zeta.
  - change (u_is_segwit (set_type u (str "p2sh") _)) with false. cbv iota. rewrite En, El. unfold vb_len.
    pose proof (csz_ge (1 + e_m e * 74 + csz (zlen (e_redeem e)) + zlen (e_redeem e))).
    rewrite SV by lia. replace (1 + e_m e * 74 + csz (zlen (e_redeem e)) + zlen (e_redeem e)) with (1 + 74 * e_m e + (csz (zlen (e_redeem e)) + zlen (e_redeem e))) by lia. lia.
  - change (u_is_segwit (set_type u (str "np2wsh") _)) with true. cbv iota. rewrite El. unfold vb_len. rewrite SV by lia. lia.
Qed.

(** Where the estimate falls short: signatures of full length (71 bytes and the
    hash type), a change output, and three legacy coins beside a segwit coin, or
    253 inputs, or a message of 79 or 80 bytes. *)
Lemma count_one n k : CountBytes n k -> n < 256 -> k = 1.
Proof. intros (A & B & [C|C]) H; auto. destruct (Z.eq_dec k 1); auto. assert (256 ^ 1 <= 256 ^ (k - 1)) by (apply Z.pow_le_mono_r; lia). lia. Qed.
Lemma count_two n k : CountBytes n k -> n < 65536 -> k <= 2.
Proof. intros (A & B & [C|C]) H; [lia|]. destruct (Z_le_gt_dec k 2); auto. assert (256 ^ 2 <= 256 ^ (k - 1)) by (apply Z.pow_le_mono_r; lia). lia. Qed.

Theorem C43_underestimated (RO : RandomOk WD) k outputs fee leftover unspents o s h s' us s1 :
  KeyOk k -> MsgOk o -> create_transaction (Single k) outputs fee leftover unspents o s = (Ok h, s') ->
  Available (Single k) unspents s us s1 -> Forall TxidOk us -> Distinct us -> Forall (SingleCoin k) us ->
  Forall (SizedSingle k) us -> (forall m, length (ec_sign (k_secret k) m) = 71%nat) -> o_absolute_fee o = false ->
  (match o_message o with None => True | Some m => exists b, MsgBytes m (o_message_is_hex o) b /\ 79 <= zlen b <= 80 end) ->
  exists x sel f w b, FeeRate fee (wl_world s1) f w /\ Asked (Single k) outputs f leftover o us sel w h x /\ h = bytes_to_hex b /\
    (0 < f -> zlen (t_ins x) <= 65535 -> zlen (t_outs x) <= 252 -> Forall (fun o => zlen (o_script o) <= 252) (t_outs x) ->
     length (t_outs x) = (length outputs + 1 + if o_message o then 1 else 0)%nat ->
     (3 <= legacy_count sel /\ existsb u_is_segwit sel = true) \/ 253 <= zlen (t_ins x) \/ o_message o <> None ->
     exists v, VirtualSize x b v /\ amounts sel - total (map o_value (t_outs x)) < f * v).
Proof.
  intros K M E A T D SC SZ LS Ab HM. destruct (C50_create_single HO RO _ _ _ _ _ _ _ _ _ _ _ K M E A T D SC) as (x & sel & f & w & Ef & Ak & Sp).
  pose proof Ak as (outs & sats & w1 & change & msgs & back & B & _ & -> & Ls & Hc & _ & (_ & Hm) & (taken & unused & Pm & _ & _ & Hs) & sizes & OS & P).
  destruct B as ((b & [Hb _] & Eb) & _ & _ & FI & FO). exists x, sel, f, w, b. split; auto. split; auto. split; auto.
  intros Hf N1 N2 N3 NO Why.
  assert (SEL : forall P : Unspent -> Prop, (forall u, P u -> P (opt_in_for_RBF u)) -> Forall P us -> Forall P sel).
  { intros P0 HP FP. eapply Permutation_Forall in FP; [|apply Permutation_sym; exact Pm]. apply Forall_app in FP as [FP _]. subst sel.
    destruct (o_replace_by_fee o); auto. apply Forall_map. eapply Forall_impl; eauto. }
  assert (SC' : Forall (fun u => SingleCoin k u /\ SizedSingle k u) sel).
  { apply SEL; [|rewrite Forall_forall in *; auto]. intros u [H1 H2]. unfold SingleCoin, SizedSingle in *. destruct (rbf_keep u) as (_ & _ & -> & -> & _).
    destruct (rbf_same u) as (_ & -> & _). auto. }
  set (seg := existsb u_is_segwit sel) in *.
  assert (F : Forall2 (fun u xi => in_weight seg xi = u_vsize u + extra seg u) sel (t_ins x)).
  { apply F2_nth_all; [apply (F2_len _ _ _ FI)|]. intros j u xi Hu Hx. pose proof (nth_error_In _ _ Hu) as Iu. rewrite Forall_forall in SC'. destruct (SC' u Iu) as [H1 H2].
    eapply single_weight_eq; eauto. intros Q. apply existsb_exists. eauto. }
  assert (TI : total (map (in_weight seg) (t_ins x)) = total (map u_vsize sel) + total (map (extra seg) sel)).
  { clear -F. clearbody seg. induction F as [|u xi l l' H F IH]; cbn [map total]; lia. }
  assert (T4 : exists q, total (map u_vsize sel) = 4 * q).
  { clear -SC'. induction SC' as [|u l [_ H] F (q & IH)]; [exists 0; reflexivity|]. cbn [map total]. rewrite IH. unfold SizedSingle in H. rewrite H.
    eexists. rewrite <- Z.mul_add_distr_l. reflexivity. }
  destruct T4 as (q & T4). destruct (weight_exists seg x b Eb) as (wt & Wt). assert (V : exists v, wt <= 4 * v < wt + 4). { exists ((wt + 3) / 4). zdm. lia. }
  destruct V as (v & V). exists v. split; [exists wt; auto|]. pose proof (weight_eq seg x b wt Eb Wt) as We. rewrite TI, T4, extra_count in We. rewrite (csz_small (zlen (t_outs x))) in We by auto.
  (* the messages *)
  assert (MS : length msgs = (if o_message o then 1 else 0)%nat /\ Forall (fun o => exists c, fst o = Data c /\ 79 <= zlen c <= 80) msgs).
  { destruct (o_message o) as [m|]; [|subst msgs; split; constructor]. destruct HM as (mb & MB & Lb). destruct (Hm mb MB) as (ch & -> & Cc & Cs). rewrite map_length.
    destruct ch as [|c [|c' ch]]; cbn [concat] in Cc.
    - subst mb. cbn in Lb. lia.
    - rewrite app_nil_r in Cc. subst c. split; auto. constructor; [|constructor]. exists mb. auto.
    - exfalso. destruct (Cs 0%nat c eq_refl) as [_ Q]. destruct (Cs 1%nat c' eq_refl) as [Q' _]. specialize (Q ltac:(cbn; lia)). subst mb. unfold zlen in Lb. rewrite !app_length in Lb. lia. }
  destruct MS as [NM FM].
  assert (LP : length sats = length (dests outputs)) by (unfold dests; rewrite map_length; auto).
  assert (LD : length (dests outputs) = length outputs) by (unfold dests; apply map_length).
  (* there is change *)
  assert (NC : exists n, change = [(Addr back, n)]).
  { destruct Hc as [-> |(n & _ & ->)]; [exfalso|eauto]. pose proof (F2_len _ _ _ FO) as Q. rewrite app_length, combine_length, map_length in Q. cbn [app length] in Q. unfold bytes, pystr in *. lia. }
  destruct NC as (n & NC).
  destruct P as [(s0 & Es & Ep)|(_ & _ & Q & _)]; [|congruence]. rewrite Ab in Ep. rewrite Ep.
  destruct Es as (ki & ko & CI & CO & Es). cbv zeta in Es. rewrite T4 in Es. rewrite map_length in CI.
  pose proof (F2_len _ _ _ FI) as NI.
  (* the outputs *)
  destruct OS as (l & c & Fl & (script & Eb' & ->) & ->). pose proof (F2_len _ _ _ Fl) as Nl.
  apply Forall2_app_inv_l in FO as (x1 & x23 & F1 & F23 & Ex). apply Forall2_app_inv_l in F23 as (x2 & x3 & F2 & F3 & ->). rewrite Ex in N3, We, NO, N2.
  assert (ko = 1) as ->. { apply (count_one _ _ CO). rewrite app_length. cbn [length]. unfold zlen in N2. rewrite NO in N2. unfold bytes, pystr in *. lia. }
  apply Forall_app in N3 as [S1 S23]. apply Forall_app in S23 as [S2 S3].
  assert (T1 : total (map out_len x1) = total l).
  { clear -LP F1 Fl S1. revert sats x1 LP F1 S1. induction Fl as [|a s pay l (sc & Ea & ->) Fl IH]; intros [|n sats] x1 L F1 S1; try discriminate; inversion F1; subst; auto.
    match goal with H : OutFor _ _ |- _ => destruct H as [_ HS]; cbn [fst] in HS; rewrite Ea in HS; injection HS as HS end.
    apply Forall_cons_iff in S1 as [S1 S1']. match goal with H : Forall2 _ _ _ |- _ => pose proof (IH sats _ ltac:(injection L; auto) H S1') as I1 end.
    cbn [map total]. rewrite I1. unfold out_len, vb_len. rewrite csz_small by auto. rewrite <- HS. unfold zlen. lia. }
  assert (T2 : total (map out_len x2) = zlen script + 9).
  { subst change. inversion F2 as [|? ? ? ? [_ H] F2']; subst. inversion F2'; subst. cbn [fst] in H. rewrite Eb' in H. injection H as H.
    apply Forall_cons_iff in S2 as [S2 _]. cbn [map total]. unfold out_len, vb_len. rewrite csz_small by auto. rewrite <- H. unfold zlen. lia. }
  assert (T3 : total (map out_len x3) >= 90 * Z.of_nat (length msgs)).
  { clear -F3 FM S3. revert x3 F3 S3. induction FM as [|o msgs (c & Ec & Lc) Fm IH]; intros x3 F3 S3; inversion F3; subst; [cbn; lia|].
    match goal with H : OutFor _ _ |- _ => destruct H as [_ HS]; rewrite Ec in HS end.
    apply Forall_cons_iff in S3 as [S3 S3']. match goal with H : Forall2 _ _ _ |- _ => specialize (IH _ H S3') end.
    cbn [map total length]. unfold out_len at 1. unfold vb_len. rewrite csz_small by auto. rewrite HS.
    assert (E2 : zlen ([106; zlen c] ++ c) = 2 + zlen c) by (unfold zlen; rewrite app_length; cbn [length]; lia). rewrite E2. lia. }
  rewrite !map_app, !total_app, T1, T2 in We. rewrite total_app in Es. cbn [total] in Es. unfold zlen in We, N1, Why. rewrite <- NI in We, N1, Why.
  assert (CK : csz (Z.of_nat (length sel)) >= ki /\ (253 <= Z.of_nat (length sel) -> csz (Z.of_nat (length sel)) >= ki + 1)).
  { destruct (Z_le_gt_dec (Z.of_nat (length sel)) 252).
    - rewrite csz_small by auto. rewrite (count_one _ _ CI) by lia. lia.
    - pose proof (count_two _ _ CI ltac:(lia)). unfold csz. replace (Z.of_nat (length sel) <? 253) with false by lia. replace (Z.of_nat (length sel) <? 65536) with true by lia. lia. }
  destruct CK as [CK1 CK2].
  assert (0 <= legacy_count sel) by (unfold legacy_count, zlen; lia).
  enough (s0 < v) by nia. fold seg in Es. clear -Es We V CK1 CK2 Why T3 NM H. clearbody seg. unfold zlen in *.
  destruct Why as [[Y1 Y2]|[Y|Y]].
  - subst seg. lia.
  - specialize (CK2 Y). destruct seg; lia.
  - destruct (o_message o); [|contradiction]. rewrite NM in *. destruct seg; lia.
Qed.
End WithCrypto.
Print Assumptions C43_single.
Print Assumptions C43_multi.
Print Assumptions C43_fetched_single.
Print Assumptions C43_fetched_multi.
Print Assumptions C43_underestimated.

(** ** The default sizes: of inputs of single keys and of 2-of-3 wallets with
    compressed keys, for signatures of 72 bytes (73 for the wallets). *)
Theorem C43_default_sizes {CR : Crypto} a c script txid i segwit seq :
  let u t := new_unspent a c script txid i (str t) None segwit seq in
  (forall k, length (k_public_key k) = 33%nat -> SizedSingle k (u "p2pkh"%string) /\ SizedSingle k (u "np2wkh"%string)) /\
  (forall k, length (k_public_key k) = 65%nat -> SizedSingle k (u "p2pkh-uncompressed"%string)) /\
  (forall e, e_m e = 2 -> zlen (e_redeem e) = 3 + 3 * 34 -> SizedMulti e (u "p2sh"%string) /\ SizedMulti e (u "np2wsh"%string)) /\
  (forall sig pub, (length sig = 72)%nat -> (length pub = 33)%nat -> u_vsize (u "p2wkh"%string) = 4 * 41 + wit_len [sig; pub]) /\
  (forall sig1 sig2 redeem, (length sig1 = 73)%nat -> (length sig2 = 73)%nat -> zlen redeem = 3 + 3 * 34 ->
     u_vsize (u "p2wsh"%string) = 4 * 41 + wit_len [[]; sig1; sig2; redeem]) /\
  (u_vsize (u "p2pkh-uncompressed"%string) <= u_vsize (u "unknown"%string)).
Proof.
  intros u. split; [|split; [|split; [|split; [|split]]]].
  - intros k H. unfold SizedSingle. rewrite H. split; reflexivity.
  - intros k H. unfold SizedSingle. rewrite H. reflexivity.
  - intros e H1 H2. unfold SizedMulti, vb_len. rewrite H1, H2. split; reflexivity.
  - intros sig pub H1 H2. unfold wit_len, vb_len, zlen. cbn [map total length]. rewrite H1, H2. reflexivity.
  - intros s1 s2 r H1 H2 H3. unfold wit_len, vb_len. cbn [map total]. rewrite H3. unfold zlen. cbn [length]. rewrite H1, H2. reflexivity.
  - unfold u. vm_compute. discriminate.
Qed.
Print Assumptions C43_default_sizes.

(** ** The hypotheses are met. *)
Definition mixed_coins : list Unspent := legacy_coins ++ [wcoin (addr_of wkey) "p2pkh" 4 7 50000] ++ segwit_coins.
Definition sized_opts : Options := mkOptions true None false false false.
Definition one_out : list (pystr * Z * pystr) := [(addr_of other_key, 25000, str "satoshi")].
(** All coins together: mixed, legacy only; fetched, given. *)
Definition create_mixed := @create_transaction toy _ _ toy_world (Single wkey) one_out (Some 10) None (Some mixed_coins) sized_opts wallet0.
Definition create_legacy := @create_transaction toy _ _ toy_world (Single wkey) one_out (Some 10) None (Some legacy_coins) sized_opts wallet0.
Definition shape_of (r : result pystr * @Wallet (list pystr)) : option (nat * nat) :=
  match r with (Ok h, _) => match deserialize_hex h with Ok t => Some (length (TxIns t), length (TxOuts t)) | _ => None end | _ => None end.
Lemma toy_key_sigs b m : length (@ec_sign toy b m) = 71%nat.
Proof. apply toy_sign_len. Qed.
Definition sized_singleb (u : Unspent) : bool := u_vsize u =? 4 * (if u_is_segwit u then 91 else 148).
Lemma coins_good us : forallb txid_okb us && distinctb (map u_txindex us) && forallb single_coinb us && forallb sized_singleb us = true ->
  Forall TxidOk us /\ Distinct us /\ Forall (@SingleCoin toy wkey) us /\ Forall (SizedSingle wkey) us.
Proof.
  intros G. apply andb_true_iff in G as [G G4]. apply andb_true_iff in G as [G G3]. apply andb_true_iff in G as [G1 G2].
  rewrite forallb_forall in G1, G3, G4. split; [apply Forall_forall; intros u Hu; apply txid_okb_ok; auto|]. split; [apply distinct_index; auto|].
  split; apply Forall_forall; intros u Hu; [apply single_coinb_ok; auto|]. unfold SizedSingle. apply Z.eqb_eq. apply (G4 u Hu).
Qed.
Example C43_single_hypotheses : @KeyOk toy wkey /\ MsgOk sized_opts /\ ShortMessage sized_opts /\
  (exists h s', create_legacy = (Ok h, s')) /\ shape_of create_legacy = Some (2%nat, 2%nat) /\
  @Available toy _ _ toy_world (Single wkey) (Some legacy_coins) wallet0 legacy_coins (set_caller legacy_coins wallet0) /\
  Forall TxidOk legacy_coins /\ Distinct legacy_coins /\ Forall (@SingleCoin toy wkey) legacy_coins /\ Forall (SizedSingle wkey) legacy_coins /\ Uniform_coins legacy_coins.
Proof.
  split; [apply toy_key_ok|]. split; [exact I|]. split; [exact I|]. split; [apply is_ok; vm_compute; reflexivity|]. split; [vm_compute; reflexivity|].
  split; [split; reflexivity|]. assert (G := coins_good legacy_coins). destruct G as (A & B & C & D); [vm_compute; reflexivity|]. do 4 (split; auto). right. repeat constructor.
Qed.
(** A mixed one, for which too little is paid. *)
Example C43_underestimated_hypotheses : @KeyOk toy wkey /\ MsgOk sized_opts /\
  (exists h s', create_mixed = (Ok h, s')) /\ shape_of create_mixed = Some (4%nat, 2%nat) /\
  @Available toy _ _ toy_world (Single wkey) (Some mixed_coins) wallet0 mixed_coins (set_caller mixed_coins wallet0) /\
  Forall TxidOk mixed_coins /\ Distinct mixed_coins /\ Forall (@SingleCoin toy wkey) mixed_coins /\ Forall (SizedSingle wkey) mixed_coins /\
  3 <= legacy_count mixed_coins /\ existsb u_is_segwit mixed_coins = true.
Proof.
  split; [apply toy_key_ok|]. split; [exact I|]. split; [apply is_ok; vm_compute; reflexivity|]. split; [vm_compute; reflexivity|].
  split; [split; reflexivity|]. assert (G := coins_good mixed_coins). destruct G as (A & B & C & D); [vm_compute; reflexivity|]. do 4 (split; auto). split; [vm_compute; discriminate|reflexivity].
Qed.
(** A 2-of-3 wallet. *)
Definition sized_mus : list Unspent := filter (fun u => negb (u_is_segwit u)) (map (fun u => set_type u (type_name (u_type u)) (4 * (40 + 3 + 255))) toy_mus).
Definition create_multi0 := @create_transaction toy _ _ toy_world (Multi (wallet toy_env (toy_k 5))) [(addr_of other_key, 2000, str "satoshi")] (Some 3) None (Some sized_mus) sized_opts wallet0.
Example C43_multi_hypotheses : @EnvOk toy toy_env /\ @Signers toy toy_env [toy_k 5; toy_k 7] /\ zlen [toy_k 5; toy_k 7] = e_m toy_env /\
  (exists h s', create_multi0 = (Ok h, s')) /\ shape_of create_multi0 = Some (1%nat, 2%nat) /\ Forall TxidOk sized_mus /\ Distinct sized_mus /\
  Forall (@MultiCoin toy toy_env) sized_mus /\ Forall (SizedMulti toy_env) sized_mus /\ Uniform_coins sized_mus.
Proof.
  split; [apply toy_env_ok|]. split; [apply toy_signers; auto; lia|]. split; [reflexivity|]. split; [apply is_ok; vm_compute; reflexivity|]. split; [vm_compute; reflexivity|].
  split; [constructor; [apply txid_okb_ok; vm_compute; reflexivity|]; constructor|].
  split; [apply distinct_index; reflexivity|]. split; [constructor; [reflexivity|constructor]|]. split; [constructor; [vm_compute; reflexivity|constructor]|]. right. repeat constructor.
Qed.
