(** C108: the fee is not much higher than what was asked for. *)
From Coq Require Import String Permutation.
From Verif Require Import F_wallet F_utf8 F_spend F_cosign F_cosigntx X_world F_build P_outputs P_select P_sign P_multi P_wallet P_create P_state F_size P_size.
From Verif Require Import P_consensus P_live P_again.

(** The message of [len] bytes is written to [n] outputs of up to 80 bytes. *)
Definition Messages (o : Options) (n len : Z) : Prop :=
  match o_message o with
  | None => n = 0 /\ len = 0
  | Some m => exists b, MsgBytes m (o_message_is_hex o) b /\ len = zlen b /\ 80 * (n - 1) < len <= 80 * n
  end.
Lemma chunks_count b ch : Chunks b ch -> 80 * (zlen ch - 1) < zlen b <= 80 * zlen ch.
Proof.
  intros [<- H]. assert (G : forall l : list bytes, (forall i c, nth_error l i = Some c -> (1 <= length c <= 80)%nat /\ (S i < length l -> length c = 80)%nat) -> 80 * (zlen l - 1) < zlen (concat l) <= 80 * zlen l).
  { clear. induction l as [|c l IH]; intros H; [cbn; lia|]. destruct l as [|c' l].
    - destruct (H 0%nat c eq_refl) as [H1 _]. unfold zlen in *. cbn [concat length]. rewrite app_nil_r. lia.
    - destruct (H 0%nat c eq_refl) as [_ H1]. specialize (H1 ltac:(cbn; lia)). assert (H' : forall i d, nth_error (c' :: l) i = Some d -> (1 <= length d <= 80)%nat /\ (S i < length (c' :: l) -> length d = 80)%nat) by (intros i d E; destruct (H (S i) d E) as [Ha Hb]; split; [exact Ha|intros L; apply Hb; cbn [length] in *; lia]). specialize (IH H').
      change (concat (c :: c' :: l)) with (c ++ concat (c' :: l)). rewrite zlen_app'. unfold zlen in *. cbn [length] in *. lia. }
  apply G. exact H.
Qed.
Lemma count_csz n k : 0 <= n < 2 ^ 64 -> CountBytes n k -> k <= csz n.
Proof.
  intros Hn (A & B & C). destruct C as [->|C]; [apply csz_ge|]. unfold csz.
  assert (G : forall j, 0 <= j -> n < 256 ^ j -> k <= j).
  { intros j Hj L. destruct (Z_le_gt_dec k j); auto. assert (256 ^ j <= 256 ^ (k - 1)) by (apply Z.pow_le_mono_r; lia). lia. }
  repeat (match goal with |- context [?a <? ?c] => destruct (Z.ltb_spec a c) end); apply G; lia.
Qed.
(** The count of sizes is one or two higher than the one of outputs. *)
Lemma count_csz2 m n k : 0 <= m < 2 ^ 64 -> n <= m + 2 -> 0 <= n -> CountBytes n k -> k <= csz m.
Proof.
  intros Hm Hn H0 (A & B & C). destruct C as [->|C]; [apply csz_ge|]. unfold csz.
  assert (G : forall j, 0 <= j -> n < 256 ^ j -> k <= j).
  { intros j Hj L. destruct (Z_le_gt_dec k j); auto. assert (256 ^ j <= 256 ^ (k - 1)) by (apply Z.pow_le_mono_r; lia). lia. }
  repeat (match goal with |- context [?a <? ?c] => destruct (Z.ltb_spec a c) end); apply G; lia.
Qed.
Lemma vec_count {A} (E : A -> bytes -> Prop) l b : EncVec E l b -> 0 <= zlen l < 2 ^ 64.
Proof. intros (c & d & C & _). unfold zlen. inversion C; subst; lia. Qed.
Lemma enc_counts (seg : bool) x b : (if seg then EncSegwit x b else EncLegacy x b) -> 0 <= zlen (t_ins x) < 2 ^ 64 /\ 0 <= zlen (t_outs x) < 2 ^ 64.
Proof.
  destruct seg.
  - intros (v & i & o & w & l & _ & I & O & _). split; eapply vec_count; eassumption.
  - intros (v & i & o & l & _ & I & O & _). split; eapply vec_count; eassumption.
Qed.

Section WithCrypto.
Context {CR : Crypto} (HO : HashOk CR).

(** Inputs are no lighter than reckoned with, but for shorter signatures. *)
Lemma single_least k x j u xi (seg : bool) l : KeyOk k -> (forall m, l <= zlen (ec_sign (k_secret k) m)) -> l <= 71 -> SingleCoin k u -> SizedSingle k u ->
  (u_is_segwit u = true -> seg = true) -> spends_single k x j u xi -> u_vsize u <= in_weight seg xi + 4 * (71 - l).
Proof.
  intros K L L71 SC SZ S SP. destruct (single_lens HO k x j u xi K SP SC) as (m & Q). cbv zeta in Q. specialize (L m). unfold zlen in *. destruct (ko_len _ K) as [KL|KL];
    unfold in_weight; rewrite SZ, KL; rewrite KL in Q; cbn [Nat.eqb]; destruct (u_is_segwit u).
  - destruct Q as (_ & -> & ->). rewrite (S eq_refl). lia.
  - destruct Q as (-> & ->). destruct seg; lia.
  - lia.
  - destruct Q as (-> & ->). destruct seg; lia.
Qed.
Lemma push_cost_least d : (length d <= 520)%nat -> vb_len d - 1 <= Z.of_nat (push_cost d).
Proof.
  intros L. unfold push_cost, vb_len, csz. assert (0 <= zlen d <= 520) by (unfold zlen; lia). assert (E : Z.of_nat (length d) = zlen d) by reflexivity.
  repeat (match goal with |- context [?a <? ?c] => destruct (Z.ltb_spec a c) | |- context [?a <=? ?c] => destruct (Z.leb_spec a c) end); lia.
Qed.
Lemma multi_least e ks x j u xi (seg : bool) l : EnvOk e -> Forall (fun k => forall m, l <= zlen (ec_sign (k_secret k) m) <= 72) ks -> 0 <= l <= 72 ->
  zlen ks = e_m e -> MultiCoin e u -> SizedMulti e u -> (u_is_segwit u = true -> seg = true) -> part_spends e ks x j u 0 xi ->
  u_vsize u <= in_weight seg xi + 4 * (e_m e * (72 - l) + 3).
Proof.
  intros O L L72 LK MC SZ S (msg & sigs & _ & LS & _ & _ & FS & R). pose proof (eo_m _ O) as Hm. destruct (redeem_shape e O) as (LR & Hm15 & _).
  assert (FL : Forall (fun g => l + 1 <= zlen g <= 73) sigs).
  { eapply Forall_impl; [|exact FS]. intros g (k & I & ->). rewrite Forall_forall in L. specialize (L k I (sha256 msg)). unfold zlen in *. rewrite app_length. cbn [length]. lia. }
  assert (LM : Z.of_nat (length sigs) = e_m e) by (rewrite LS; exact LK). clear LS FS.
  assert (T : (l + 2) * Z.of_nat (length sigs) <= total (map vb_len sigs) /\ (l + 2) * Z.of_nat (length sigs) <= Z.of_nat (list_sum (map push_cost sigs))).
  { clear -FL. induction FL as [|g gs Lg F [IH1 IH2]]; [cbn; lia|]. cbn [map total list_sum fold_right length]. unfold list_sum in IH2.
    rewrite Nat2Z.inj_add, push_cost_z by (unfold zlen in *; lia). unfold vb_len at 1. rewrite csz_small by (unfold zlen in *; lia). unfold zlen in *. lia. }
  destruct T as [T1 T2]. rewrite LM in T1, T2. cbn [repeat app] in R. unfold in_weight, in_len. unfold SizedMulti in SZ. cbv zeta in SZ. rewrite SZ. clear SZ. destruct (u_is_segwit u).
  - destruct R as [[_ R] W]. rewrite W, (S eq_refl). cbn [map list_sum fold_right] in R.
    assert (L34 : length ([0x00; 0x20] ++ sha256 (e_redeem e)) = 34%nat) by (rewrite app_length, (sha256_len _ HO); reflexivity).
    rewrite push_cost_small, Nat.add_0_r in R by (eapply Nat.le_trans; [apply Nat.eq_le_incl; exact L34|lia]).
    assert (R35 : zlen (i_script xi) = 35) by (unfold zlen; rewrite R; change 35 with (Z.of_nat 35); f_equal; f_equal; exact L34).
    unfold vb_len at 2. rewrite R35. rewrite (csz_small 35) by lia.
    unfold wit_len. cbn [map total]. rewrite map_app, total_app. cbn [map total]. rewrite csz_small by (unfold zlen; cbn [length]; rewrite app_length; cbn [length]; lia).
    change (vb_len []) with 1. unfold bytes in *. nia.
  - destruct R as [[_ R] W]. rewrite W. change (wit_len []) with 1.
    cbn [map list_sum fold_right] in R. change (push_cost []) with 1%nat in R. rewrite map_app, fold_right_app in R. cbn [map fold_right] in R.
    assert (E : forall l z, fold_right Nat.add z l = (list_sum l + z)%nat) by (clear; induction l as [|a l IH]; intros z; cbn; [auto|rewrite IH; unfold list_sum; lia]).
    rewrite E in R. pose proof (push_cost_least (e_redeem e) ltac:(lia)) as PR.
    set (un := 1 + 74 * e_m e + vb_len (e_redeem e)).
    assert (Q : un - e_m e * (72 - l) - 1 <= zlen (i_script xi)) by (unfold zlen, un; rewrite R; lia).
    assert (U : un < 0x10000).
    { unfold un, vb_len. assert (csz (zlen (e_redeem e)) <= 3). { unfold csz, zlen. destruct (_ <? _); [lia|]. destruct (Z.ltb_spec (Z.of_nat (length (e_redeem e))) 0x10000); lia. } unfold zlen in *. lia. }
    unfold vb_len at 1. assert (CU : csz un <= 3). { unfold csz. destruct (_ <? _); [lia|]. destruct (Z.ltb_spec un 0x10000); lia. }
    pose proof (csz_ge (zlen (i_script xi))). destruct seg; lia.
Qed.

Context {W Amt : Type} {WD : World W Amt}.
(** The address for what is left *)
Definition GoesBack (sg : signer) (leftover : option pystr) (us : list Unspent) (back : pystr) : Prop :=
  match leftover with
  | Some (c :: r) => back = c :: r
  | _ => if existsb u_is_segwit us then sg_segwit_address sg = Ok (Some back) else sg_address sg = Ok back
  end.
(** At a rate of [f], what is paid is for the size and less than one byte, [short]
    bytes per input, what messages lack of the 78 bytes reckoned with, and without
    an output for what is left one such output or 182 bytes. *)
Definition AtMost (f short : Z) (sg : signer) (leftover : option pystr) (us : list Unspent) (o : Options) (outputs : list (pystr * Amt * pystr)) (x : tx) (b : bytes) (sel : list Unspent) : Prop :=
  let paid := amounts sel - total (map o_value (t_outs x)) in
  exists w v, Weight x b w /\ VirtualSize x b v /\
    forall n len back c, Messages o n len -> GoesBack sg leftover us back -> OutputSize back c ->
      let more := short * zlen (t_ins x) + (78 * n - len) + (if zlen (t_outs x) =? zlen outputs + n + 1 then 0 else Z.max 182 c) in
      4 * paid <= f * (w + 3 + 4 * more) /\ paid <= f * (v + 1 + more).

Lemma at_most_fee f short o outputs leftover us sel w0 sg h x b :
  0 <= f -> 0 <= short -> o_absolute_fee o = false -> Asked sg outputs f leftover o us sel w0 h x ->
  (if existsb u_is_segwit sel then EncSegwit x b else EncLegacy x b) ->
  Forall2 (fun u xi => u_vsize u <= in_weight (existsb u_is_segwit sel) xi + 4 * short) sel (t_ins x) ->
  AtMost f short sg leftover us o outputs x b sel.
Proof.
  intros Hf Hs Ab (outs & sats & w1 & change & msgs & back & B & _ & -> & Ls & Hc & GB & (_ & Hm) & _ & sizes & SZ & P) E F.
  cbv zeta in P. set (seg := existsb u_is_segwit sel) in *. destruct (weight_exists seg x b E) as (w & Wt).
  assert (V : exists v, w <= 4 * v < w + 4). { exists ((w + 3) / 4). zdm. lia. }
  destruct V as (v & V). exists w, v. split; auto. split; [exists w; auto|]. intros n len back' c' MS GB' OS more.
  assert (back' = back) as ->.
  { unfold GoesBack in GB'. destruct leftover as [[|a r]|]; [destruct (existsb _ us)| |destruct (existsb _ us)]; congruence. }
  enough (G : 4 * (amounts sel - total (map o_value (t_outs x))) <= f * (w + 3 + 4 * more)).
  { split; [exact G|]. assert (f * (w + 3 + 4 * more) <= f * (4 * (v + 1 + more))) by (apply Z.mul_le_mono_nonneg_l; lia). lia. }
  subst more. destruct SZ as (l & c & Fl & OB & ->). assert (c' = c) as -> by (destruct OB as (s1 & H1 & ->), OS as (s2 & H2 & ->); congruence). clear OS GB'.
  destruct (enc_counts seg x b E) as [CI CO]. pose proof (weight_eq seg x b w E Wt) as WE.
  assert (LP : length sats = length (dests outputs)) by (unfold dests; rewrite map_length; auto).
  assert (LD : length (dests outputs) = length outputs) by (unfold dests; apply map_length). pose proof (F2_len _ _ _ Fl) as Nl.
  destruct B as (_ & _ & _ & FI & FO).
  (* inputs *)
  assert (TI : total (map u_vsize sel) <= total (map (in_weight seg) (t_ins x)) + 4 * (short * zlen (t_ins x))).
  { clear -F. clearbody seg. unfold zlen. induction F as [|u xi us xis H F IH]; cbn [map total length]; lia. }
  (* messages *)
  assert (MM : zlen msgs = n /\ exists ch, msgs = map (fun c => (Data c, 0)) ch /\ zlen (concat ch) = len).
  { unfold Messages in MS. destruct (o_message o) as [m|].
    - destruct MS as (mb & MB & -> & R). destruct (Hm mb MB) as (ch & -> & CH). pose proof (chunks_count _ _ CH). split; [unfold zlen in *; rewrite map_length; lia|]. exists ch. split; [reflexivity|]. destruct CH as [-> _]. reflexivity.
    - destruct MS as [-> ->]. subst msgs. split; [reflexivity|]. exists []. split; reflexivity. }
  destruct MM as (NM & ch & EM & LC).
  (* outputs *)
  pose proof (outs_values _ _ FO) as OV.
  apply Forall2_app_inv_l in FO as (x1 & x23 & F1 & F23 & EX). apply Forall2_app_inv_l in F23 as (x2 & x3 & F2 & F3 & ->).
  assert (T1 : total l <= total (map out_len x1) /\ length x1 = length l).
  { clear -LP F1 Fl. revert sats x1 LP F1. induction Fl as [|a s pay l (sc & Ea & ->) Fl IH]; intros [|n sats] x1 L F1; try discriminate; inversion F1; subst; [cbn; lia|].
    match goal with H : OutFor _ _ |- _ => destruct H as [_ HS]; cbn [fst] in HS; rewrite Ea in HS; injection HS as HS end.
    match goal with H : Forall2 _ _ _ |- _ => destruct (IH sats _ ltac:(injection L; auto) H) as [I1 I2] end.
    cbn [map total length]. split; [|lia]. unfold out_len at 1. unfold vb_len. rewrite <- HS. pose proof (csz_ge (zlen sc)). unfold zlen in *. lia. }
  assert (T3 : 11 * zlen ch + zlen (concat ch) <= total (map out_len x3) /\ length x3 = length ch).
  { subst msgs. clear -F3. revert x3 F3. induction ch as [|d ch IH]; intros x3 F3; inversion F3; subst; [cbn; lia|].
    match goal with H : OutFor _ _ |- _ => destruct H as [_ HS]; cbn [fst] in HS end. match goal with H : Forall2 _ _ _ |- _ => destruct (IH _ H) as [I1 I2] end.
    cbn [map total length]. unfold out_len at 1. unfold vb_len. rewrite HS. match goal with |- context [csz ?z] => pose proof (csz_ge z) end.
    assert (E2 : zlen ([106; zlen d] ++ d) = 2 + zlen d) by (unfold zlen; rewrite app_length; cbn [length]; lia). rewrite E2 in *. cbn [concat]. unfold zlen in *. rewrite app_length. cbn [length]. lia. }
  assert (NC : zlen ch = n) by (subst msgs; unfold zlen in *; rewrite map_length in NM; exact NM).
  assert (T2 : change = [] /\ x2 = [] \/ (c <= total (map out_len x2) /\ length x2 = 1%nat /\ change <> [])).
  { destruct Hc as [->|(k & _ & ->)]; [left; inversion F2; auto|right]. inversion F2 as [|? ? ? ? [_ HS] F2']; subst. inversion F2'; subst. destruct OB as (sc & EB & ->). cbn [fst] in HS. rewrite EB in HS. injection HS as HS.
    cbn [map total length]. unfold out_len, vb_len. rewrite <- HS. pose proof (csz_ge (zlen sc)). unfold zlen in *. split; [lia|]. split; [reflexivity|discriminate]. }
  assert (TO : zlen (t_outs x) = Z.of_nat (length outputs) + zlen x2 + n) by (rewrite EX; unfold zlen in *; rewrite !app_length; lia).
  assert (WO : total (map out_len (t_outs x)) = total (map out_len x1) + (total (map out_len x2) + total (map out_len x3))) by (rewrite EX, !map_app, !total_app; reflexivity). rewrite WO in WE. unfold zlen in TO at 2. destruct T1 as [T1 L1], T3 as [T3 L3]. rewrite LC, NC in T3.
  assert (CS : 0 <= c) by (destruct OB as (sc & _ & ->); lia).
  set (gone := if zlen (t_outs x) =? zlen outputs + n + 1 then 0 else Z.max 182 c).
  assert (GONE : (change = [] -> 182 <= gone /\ c <= gone) /\ 0 <= gone).
  { split; [|unfold gone; destruct (_ =? _); lia]. intros Q. destruct T2 as [[_ ->]|(_ & _ & Q')]; [|contradiction]. unfold gone. rewrite TO. cbn [length]. unfold zlen. destruct (Z.eqb_spec (Z.of_nat (length outputs) + Z.of_nat 0 + n) (Z.of_nat (length outputs) + n + 1)); lia. }
  clearbody gone. destruct GONE as [GONE G0].
  destruct P as [(s & Es & Ep)|(_ & Cb & Cc & Ch)].
  - rewrite Ab in Ep. rewrite Ep. enough (4 * s <= w + 3 + 4 * (short * zlen (t_ins x) + (78 * n - len) + gone)) by nia.
    destruct Es as (ki & ko & CK & CO' & Es). cbv zeta in Es. rewrite map_length in CK. rewrite (F2_len _ _ _ F) in CK.
    pose proof (count_csz _ _ CI CK) as K1.
    assert (K2 : ko <= csz (zlen (t_outs x))).
    { apply (count_csz2 _ _ _ CO) in CO'; [exact CO'| |lia]. rewrite TO, app_length. cbn [length]. unfold zlen in *. lia. }
    rewrite total_app in Es. cbn [total] in Es. fold seg in Es. rewrite NM in Es || (replace (Z.of_nat (length msgs)) with n in Es by exact (eq_sym NM)).
    destruct T2 as [[Q ->]|(Q1 & Q2 & Q3)]; [destruct (GONE Q); cbn [map total] in WE|]; destruct seg; lia.
  - unfold Changeless in Ch. cbv zeta in Ch. destruct Ch as [_ Ch]. destruct (GONE Cc) as [G1 _].
    assert (A1 : total (map fst (map coin sel)) = amounts sel) by (unfold amounts; rewrite map_map; reflexivity).
    assert (A2 : total (map snd (map coin sel)) = total (map u_vsize sel)) by (rewrite map_map; reflexivity).
    assert (A4 : total (all_but_last (l ++ [89 * Z.of_nat (length msgs); c])) = total l + 89 * n).
    { unfold all_but_last. rewrite app_length. cbn [length]. replace (length l + 2 - 1)%nat with (length l + 1)%nat by lia. rewrite firstn_app_2. cbn [firstn]. rewrite total_app. cbn [total]. unfold zlen in NM. lia. }
    rewrite A1, A2, A4 in Ch. assert (A3 : total (map o_value (t_outs x)) = total sats).
    { rewrite OV, Cc, !map_app, !total_app. cbn [map total app]. assert (M0 : total (map snd msgs) = 0) by (rewrite EM; clear; induction ch; cbn; auto).
      rewrite M0. replace (map snd (combine (map Addr (dests outputs)) sats)) with sats; [lia|]. clear -LP. revert sats LP.
      generalize (dests outputs). intros l. induction l as [|a l IH]; intros [|n sats] L; try discriminate; cbn; auto. f_equal. apply IH. injection L; auto. }
    rewrite A3. pose proof (csz_ge (zlen (t_ins x))). pose proof (csz_ge (zlen (t_outs x))).
    enough (total (map u_vsize sel) + 4 * (9 + (total l + 89 * n)) + 4 * 182 <= w + 3 + 4 * (short * zlen (t_ins x) + (78 * n - len) + gone)) by nia.
    destruct T2 as [[_ ->]|(_ & _ & Q)]; [|contradiction]. cbn [map total] in WE. destruct seg; lia.
Qed.

(** A key whose signatures have at least [l] bytes *)
Theorem C108_single (RO : RandomOk WD) k outputs fee leftover unspents o s h s' us s1 l :
  KeyOk k -> MsgOk o -> create_transaction (Single k) outputs fee leftover unspents o s = (Ok h, s') ->
  Available (Single k) unspents s us s1 -> Forall TxidOk us -> Distinct us -> Forall (SingleCoin k) us ->
  Forall (SizedSingle k) us -> (forall m, l <= zlen (ec_sign (k_secret k) m)) -> l <= 71 -> o_absolute_fee o = false ->
  exists x sel f w b, FeeRate fee (wl_world s1) f w /\ Asked (Single k) outputs f leftover o us sel w h x /\ h = bytes_to_hex b /\
    (0 <= f -> AtMost f (71 - l) (Single k) leftover us o outputs x b sel).
Proof.
  intros K M E A T D SC SZ LS L71 Ab. destruct (C50_create_single HO RO _ _ _ _ _ _ _ _ _ _ _ K M E A T D SC) as (x & sel & f & w & Ef & Ak & Sp).
  pose proof Ak as (outs & sats & w1 & change & msgs & back & B & _ & _ & _ & _ & _ & _ & (taken & unused & Pm & _ & _ & Hs) & _).
  destruct B as ((b & [Hb _] & Eb) & _ & _ & FI & _). exists x, sel, f, w, b. split; auto. split; auto. split; auto.
  assert (SEL : forall P : Unspent -> Prop, (forall u, P u -> P (opt_in_for_RBF u)) -> Forall P us -> Forall P sel).
  { intros P HP FP. eapply Permutation_Forall in FP; [|apply Permutation_sym; exact Pm]. apply Forall_app in FP as [FP _]. subst sel.
    destruct (o_replace_by_fee o); auto. apply Forall_map. eapply Forall_impl; eauto. }
  intros Hf. eapply at_most_fee; eauto; [lia|].
  assert (SC' : Forall (fun u => SingleCoin k u /\ SizedSingle k u) sel).
  { apply SEL; [|rewrite Forall_forall in *; auto]. intros u [H1 H2]. unfold SingleCoin, SizedSingle in *. destruct (rbf_keep u) as (_ & _ & -> & -> & _).
    destruct (rbf_same u) as (_ & -> & _). auto. }
  apply F2_nth_all; [apply (F2_len _ _ _ FI)|]. intros j u xi Hu Hx. pose proof (nth_error_In _ _ Hu) as Iu. rewrite Forall_forall in SC'. destruct (SC' u Iu) as [H1 H2].
  eapply single_least; eauto. intros Q. apply existsb_exists. eauto.
Qed.

(** A wallet of several keys, once enough of them have signed *)
Theorem C108_multi (RO : RandomOk WD) e k ks outputs fee leftover unspents o s h s' us s1 l :
  EnvOk e -> Signers e (k :: ks) -> zlen (k :: ks) = e_m e -> MsgOk o -> create_transaction (Multi (wallet e k)) outputs fee leftover unspents o s = (Ok h, s') ->
  Available (Multi (wallet e k)) unspents s us s1 -> Forall TxidOk us -> Distinct us -> Forall (MultiCoin e) us ->
  Forall (SizedMulti e) us -> Forall (fun k => forall m, l <= zlen (ec_sign (k_secret k) m) <= 72) (k :: ks) -> 0 <= l <= 72 -> o_absolute_fee o = false ->
  exists h' x sel f w b, FeeRate fee (wl_world s1) f w /\ pass_all e sel h ks = Ok h' /\
    Asked (Multi (wallet e k)) outputs f leftover o us sel w h' x /\ h' = bytes_to_hex b /\
    (0 <= f -> AtMost f (e_m e * (72 - l) + 3) (Multi (wallet e k)) leftover us o outputs x b sel).
Proof.
  intros EO SG LM M E A T D SC SZ LS L72 Ab. destruct (C50_create_multi HO RO e k ks _ _ _ _ _ _ _ _ _ _ EO SG ltac:(lia) M E A T D SC) as (h' & x & sel & f & w & Ef & Ep & Ak & Sp).
  pose proof Ak as (outs & sats & w1 & change & msgs & back & B & _ & _ & _ & _ & _ & _ & (taken & unused & Pm & _ & _ & Hs) & _).
  destruct B as ((b & [Hb _] & Eb) & _ & _ & FI & _). exists h', x, sel, f, w, b. split; auto. split; auto. split; auto. split; auto.
  assert (SEL : forall P : Unspent -> Prop, (forall u, P u -> P (opt_in_for_RBF u)) -> Forall P us -> Forall P sel).
  { intros P HP FP. eapply Permutation_Forall in FP; [|apply Permutation_sym; exact Pm]. apply Forall_app in FP as [FP _]. subst sel.
    destruct (o_replace_by_fee o); auto. apply Forall_map. eapply Forall_impl; eauto. }
  intros Hf. eapply at_most_fee; eauto; [pose proof (eo_m _ EO); nia|].
  assert (SC' : Forall (fun u => MultiCoin e u /\ SizedMulti e u) sel).
  { apply SEL; [|rewrite Forall_forall in *; auto]. intros u [H1 H2]. unfold MultiCoin, SizedMulti in *. destruct (rbf_keep u) as (_ & _ & -> & -> & _).
    destruct (rbf_same u) as (_ & -> & _). auto. }
  apply F2_nth_all; [apply (F2_len _ _ _ FI)|]. intros j u xi Hu Hx. pose proof (nth_error_In _ _ Hu) as Iu. rewrite Forall_forall in SC'. destruct (SC' u Iu) as [H1 H2].
  destruct (Sp j u xi Hu Hx) as (z & PS & Z0). rewrite (Z0 LM) in PS. eapply multi_least; eauto. intros Q. apply existsb_exists. eauto.
Qed.
End WithCrypto.
Print Assumptions C108_single.
Print Assumptions C108_multi.


(** ** The hypotheses are met: two coins, a payment and change, at 10 per byte *)
#[local] Opaque create_transaction get_unspents.
Example C108_case : exists h s' x sel w b, create_legacy = (Ok h, s') /\ @Asked toy _ _ toy_world (Single wkey) one_out 10 None sized_opts legacy_coins sel w h x /\ h = bytes_to_hex b /\
  (zlen (t_outs x) = 2 -> exists v, VirtualSize x b v /\ amounts sel - total (map o_value (t_outs x)) <= 10 * (v + 1)).
Proof.
  destruct C43_single_hypotheses as (K & M & _ & (h & s' & E) & _ & A & T & D & SC & SZ & _).
  destruct (@C108_single toy toy_ok _ _ toy_world toy_random_ok wkey one_out (Some 10) None (Some legacy_coins) sized_opts wallet0 h s' legacy_coins _ 71 K M E A T D SC SZ) as (x & sel & f & w & b & F & Ak & EB & AM).
  - intros m. unfold zlen. rewrite toy_key_sigs. lia.
  - lia.
  - reflexivity.
  - assert (f = 10) as -> by (apply (@rate_given _ _ toy_world 10 f w _ ltac:(lia) F)). exists h, s', x, sel, w, b. split; [exact E|]. split; [exact Ak|]. split; [exact EB|].
    intros L2. destruct (AM ltac:(lia)) as (wt & v & _ & V & H). exists v. split; [exact V|].
    assert (SA : exists back c, GoesBack (CR:=toy) (Single wkey) None legacy_coins back /\ @OutputSize toy back c).
    { exists (addr_of wkey), 34. split; [vm_compute; reflexivity|apply outsize_b; vm_compute; reflexivity]. }
    destruct SA as (back & c & GB & OS). destruct (H 0 0 back c (conj eq_refl eq_refl) GB OS) as [_ Q]. rewrite L2 in Q. replace (zlen one_out) with 1 in Q by reflexivity. replace (1 + 0 + 1) with 2 in Q by reflexivity. rewrite Z.eqb_refl in Q. lia.
Qed.
