(** C92: what services can lie about. *)
From Coq Require Import String Permutation.
From Verif Require Import F_signtx F_wallet F_spend F_cosigntx F_build F_redeem P_select P_sign P_multi P_wallet P_create X_world.
From Verif Require Import S_Consensus P_consensus P_txid.

Section WithCrypto.
Context {CR : Crypto} (HO : HashOk CR).

(** A signature made for one amount is not good for another: no coincidence
    between these two messages. *)
Definition Bound (secret pub : bytes) (x : tx) (j : nat) (code : bytes) (told held : Z) : Prop :=
  forall msg msg', BIP143Msg x j code told msg -> BIP143Msg x j code held msg' -> msg <> msg' ->
    ec_verify (ec_sign secret (sha256 msg)) (sha256 msg') pub <> Ok true.

(** ** Messages for different amounts differ *)
Lemma msg_amount x j code v v' msg : BIP143Msg x j code v msg -> BIP143Msg x j code v' msg -> v = v'.
Proof.
  intros (i & a & p & s & op & sc & am & sq & os & l & h & N & A & _ & _ & O1 & C & M & _ & _ & _ & _ & E)
    (i' & a' & p' & s' & op' & sc' & am' & sq' & os' & l' & h' & N' & A' & _ & _ & O1' & C' & M' & _ & _ & _ & _ & E').
  rewrite N in N'. injection N' as <-. rewrite E in E'. clear E.
  destruct (LEnum_prefix _ _ _ _ _ _ _ A A' E') as (_ & _ & E). clear E'.
  apply app_len_inj in E as [_ E]; [|rewrite !(sha256_len _ HO); reflexivity]. apply app_len_inj in E as [_ E]; [|rewrite !(sha256_len _ HO); reflexivity].
  destruct (EncOutpoint_prefix _ _ _ _ _ _ O1 O1' E) as (_ & _ & E2). destruct (VarBytes_prefix _ _ _ _ _ _ C C' E2) as (_ & _ & E3).
  destruct (LEnum_prefix _ _ _ _ _ _ _ M M' E3) as (E4 & _). exact E4.
Qed.

(** ** Inputs with witnesses *)
Lemma witness_nonempty x j v p : ~ WitnessOk x j v p [].
Proof. intros H. inversion H. destruct items; discriminate. Qed.
Lemma accepts_witness x j i v spk redeem : (1 <= length redeem <= 75)%nat -> MinPushes [redeem] (i_script i) -> i_wit i <> [] ->
  Accepts x j i v spk -> WitnessOk x j v redeem (i_wit i).
Proof.
  intros L P W A. inversion A as [| |r t s P' _ _ _ WO|E].
  - contradiction.
  - contradiction.
  - destruct P as [P _], P' as [P' _]. pose proof (ParsesTo_fun _ _ P _ P') as E. injection E as <-. exact WO.
  - apply (one_push _ _ L) in P. congruence.
Qed.
(** Without a witness the amount does not matter. *)
Lemma accepts_any x j i v v' spk : i_wit i = [] -> Accepts x j i v spk -> Accepts x j i v' spk.
Proof.
  intros W A. inversion A as [items t s P X T N1 N2 _|items r t s t' s' P F SH X T X' T' N _|r t s P _ _ _ WO|E WO].
  - eapply a_plain; eauto.
  - eapply a_scripthash; eauto.
  - rewrite W in WO. destruct (witness_nonempty _ _ _ _ WO).
  - rewrite W in WO. destruct (witness_nonempty _ _ _ _ WO).
Qed.

Lemma good_der msg pub der : GoodSig msg pub (der ++ [0x01]) -> ec_verify der (sha256 msg) pub = Ok true.
Proof. intros (d & E & V). apply app_inj_tail in E as [<- _]. exact V. Qed.
Lemma commits_single k x j u xi v spk : KeyOk k -> u_is_segwit u = true -> spends_single k x j u xi ->
  Bound (k_secret k) (k_public_key k) x j (p2pkh_script (k_public_key k)) (u_amount u) v -> Accepts x j xi v spk -> v = u_amount u.
Proof.
  intros K SG (msg & sig & SM & _ & Es & S) B A. rewrite SG in *. unfold SigMsg in SM. destruct S as (S1 & S2).
  pose proof (h160_len HO (k_public_key k)) as L3.
  apply accepts_witness with (redeem := [0x00; 0x14] ++ hash160 (k_public_key k)) in A; auto; [|rewrite app_length, L3; cbn; lia|rewrite S2; discriminate].
  rewrite S2 in A. remember ([0x00; 0x14] ++ hash160 (k_public_key k)) as p eqn:Ep. remember [sig; k_public_key k] as w eqn:Ew.
  destruct A as [h sig' pub t code Lh _ _ (ops & _ & P & R) _|code items t Lc]; [|exfalso; discriminate].
  injection Ew as -> ->. injection Ep as ->. subst code.
  destruct (p2pkh_parse _ Lh) as [_ P']. pose proof (ParsesTo_fun _ _ P _ P') as E. subst ops. apply run_keyhash in R as (pub' & sig' & r & E & _ & (_ & msg' & M' & G)).
  injection E as <- <- _. rewrite Es in G. apply good_der in G.
  destruct (bytes_dec msg msg') as [<-|NE]; [symmetry; eapply msg_amount; eauto|]. destruct (B msg msg' SM M' NE G).
Qed.

Lemma step_num chk c s t : OP_1 <= c <= OP_16 -> Step chk (Op c) s t -> t = [c - 0x50] :: s.
Proof. intros H S. inversion S; subst; auto; exfalso; unfold OP_1, OP_16, OP_DUP_code, OP_HASH160_code, OP_EQUAL_code, OP_EQUALVERIFY_code, OP_CHECKSIG_code, OP_CHECKMULTISIG_code in *; lia. Qed.
Lemma step_multi chk s t : Step chk (Op OP_CHECKMULTISIG_code) s t -> exists n m keys sigs r,
  1 <= m <= n /\ Z.of_nat (length keys) = n /\ Z.of_nat (length sigs) = m /\ Matched chk sigs keys /\ s = [n] :: rev keys ++ [m] :: rev sigs ++ [] :: r.
Proof. intros S. inversion S; subst; [exfalso; unfold OP_CHECKMULTISIG_code, OP_16 in *; lia|]. eexists _, _, keys, sigs, _. eauto 6. Qed.
Lemma run_cons chk o ops s u : Run chk (o :: ops) s u -> exists t, Step chk o s t /\ Run chk ops t u.
Proof. intros R. inversion R; subst. eauto. Qed.
Lemma run_pushes_inv chk l ops : forall s t, Run chk (map Push l ++ ops) s t -> Run chk ops (rev l ++ s) t.
Proof.
  induction l as [|d l IH]; intros s t R; auto. cbn [map app] in R. inversion R as [|? ? ? s1 ? S1 R1]; subst. inversion S1; subst.
  cbn [rev]. rewrite <- app_assoc. apply IH. exact R1.
Qed.
Lemma exec_multi_inv chk e sigs t : EnvOk e -> zlen sigs = e_m e -> Exec chk (e_redeem e) (rev ([] :: sigs)) t -> Matched chk sigs (e_pubs e).
Proof.
  intros EO Ls (ops & _ & P & R). destruct (redeem_multisig _ _ _ (eo_m _ EO) (eo_redeem _ EO)) as ((Hm & Hn & P') & L1 & L2 & K).
  rewrite (ParsesTo_fun _ _ P _ P') in R. clear P P'. cbn [app] in R.
  apply run_cons in R as (s1 & S1 & R1). apply step_num in S1; [|unfold OP_1, OP_16; lia]. subst s1. apply run_pushes_inv in R1.
  apply run_cons in R1 as (s2 & S2 & R2). apply step_num in S2; [|unfold OP_1, OP_16; lia]. subst s2.
  apply run_cons in R2 as (s3 & S3 & _).
  replace (OP_1 + Z.of_nat (length (e_pubs e)) - 1 - 80) with (Z.of_nat (length (e_pubs e))) in S3 by (unfold OP_1; lia).
  replace (OP_1 + e_m e - 1 - 80) with (e_m e) in S3 by (unfold OP_1; lia).
  apply step_multi in S3 as (n & m & keys & sigs' & s & H1 & H3 & H4 & M & H).
  injection H as H5 H6. apply app_len_inj in H6 as [H6 H7]; [|rewrite !rev_length; lia].
  injection H7 as H7 H8. cbn [rev] in H8. unfold zlen in Ls.
  apply app_len_inj in H8 as [H8 _]; [|rewrite !rev_length; lia].
  apply (f_equal (@rev bytes)) in H6, H8. rewrite !rev_involutive in H6, H8. subst. exact M.
Qed.
Lemma matched_some (chk : bytes -> bytes -> Prop) g sigs keys : Matched chk (g :: sigs) keys -> exists key, In key keys /\ chk g key.
Proof.
  induction keys as [|key keys IH]; intros M; inversion M; subst; [exists key; split; [left|]; auto|].
  destruct IH as (key' & I & C); auto. exists key'. split; [right|]; auto.
Qed.
Lemma commits_multi e ks x j u xi v spk : EnvOk e -> u_is_segwit u = true -> part_spends e ks x j u 0 xi -> zlen ks = e_m e ->
  (forall k pub, In k ks -> In pub (e_pubs e) -> Bound (k_secret k) pub x j (e_redeem e) (u_amount u) v) -> Accepts x j xi v spk -> v = u_amount u.
Proof.
  intros EO SG (msg & sigs & SM & Ls & _ & _ & FS & S) Lk B A. rewrite SG in *. unfold SigMsg in SM. destruct S as (S1 & S2). cbn [repeat app] in S2.
  pose proof (sha256_len _ HO (e_redeem e)) as L3. assert (Lm : zlen sigs = e_m e) by (unfold zlen in *; lia).
  apply accepts_witness with (redeem := [0x00; 0x20] ++ sha256 (e_redeem e)) in A; auto; [|rewrite app_length, L3; cbn; lia|rewrite S2; discriminate].
  rewrite S2 in A. remember ([0x00; 0x20] ++ sha256 (e_redeem e)) as p eqn:Ep. change ([] :: sigs ++ [e_redeem e]) with (([] :: sigs) ++ [e_redeem e]) in A.
  remember (([] :: sigs) ++ [e_redeem e]) as w eqn:Ew.
  destruct A as [h sig' pub t code Lh _ _ _ _|code items t Lc _ X _]; [exfalso; discriminate|].
  apply app_inj_tail in Ew as [-> ->]. apply exec_multi_inv in X; auto. destruct sigs as [|g sigs].
  { pose proof (eo_m _ EO). unfold zlen in Lm. cbn in Lm. lia. }
  apply matched_some in X as (pub & I & _ & msg' & M' & G). apply Forall_cons_iff in FS as [(k & Hk & ->) _]. apply good_der in G.
  destruct (bytes_dec msg msg') as [<-|NE]; [symmetry; eapply msg_amount; eauto|]. destruct (B k pub Hk I msg msg' SM M' NE G).
Qed.

Context {W Amt : Type} {WD : World W Amt}.

Lemma f2_nth {A B} (R : A -> B -> Prop) l : forall m, length l = length m -> (forall j a b, nth_error l j = Some a -> nth_error m j = Some b -> R a b) -> Forall2 R l m.
Proof.
  induction l as [|a l IH]; intros [|b m] L H; try discriminate; constructor; [exact (H O a b eq_refl eq_refl)|]. apply IH; [injection L; auto|].
  intros j. exact (H (S j)).
Qed.
Lemma valid_lengths sg outputs f leftover o us sel w h x L coins : Asked (WD:=WD) sg outputs f leftover o us sel w h x -> Valid L x coins ->
  length sel = length (t_ins x) /\ length (t_ins x) = length coins.
Proof. intros (outs & sats & w1 & change & msgs & back & (_ & _ & _ & FI & _) & _) V. split; [eapply F2_len; eauto|eapply F2_len; apply (v_coins _ _ _ V)]. Qed.
Lemma told_right sg outputs f leftover o us sel w h x L coins : Asked (WD:=WD) sg outputs f leftover o us sel w h x -> Valid L x coins ->
  (forall j u xi c, nth_error sel j = Some u -> nth_error (t_ins x) j = Some xi -> nth_error coins j = Some c -> u_is_segwit u = true -> Accepts x j xi (fst c) (snd c) -> fst c = u_amount u) ->
  Forall2 (fun u c => u_is_segwit u = true -> fst c = u_amount u) sel coins /\
  (Forall (fun u => u_is_segwit u = true) sel -> total (map fst coins) = amounts sel).
Proof.
  intros Ak V H. destruct (valid_lengths _ _ _ _ _ _ _ _ _ _ _ _ Ak V) as [L1 L2].
  assert (F : Forall2 (fun u c => u_is_segwit u = true -> fst c = u_amount u) sel coins).
  { apply f2_nth; [lia|]. intros j u c Hu Hc SG. destruct (nth_error (t_ins x) j) as [xi|] eqn:Hx.
    - apply (H j u xi c); auto. destruct c as [v spk]. apply (v_accepts _ _ _ V j xi v spk); auto.
    - apply nth_error_None in Hx. apply nth_error_Some_lt in Hu || (assert (j < length sel)%nat by (apply nth_error_Some; congruence)); lia. }
  split; auto. intros S. unfold amounts. clear -F S. induction F as [|u c l cs E F IH]; cbn; auto. apply Forall_cons_iff in S as [S1 S2]. rewrite E, IH; auto.
Qed.

(** ** C92 *)

(** If the transaction can be confirmed, the segwit coins that it spends hold what
    they were said to hold, whatever the ledger; if all of them are segwit, the
    fee is the one that was computed. *)
Theorem C92_single (RO : RandomOk WD) k outputs fee leftover unspents o s h s' us s1 :
  KeyOk k -> MsgOk o -> create_transaction (Single k) outputs fee leftover unspents o s = (Ok h, s') ->
  Available (Single k) unspents s us s1 -> Forall TxidOk us -> Distinct us -> Forall (SingleCoin k) us ->
  exists x sel f w, FeeRate fee (wl_world s1) f w /\ Asked (Single k) outputs f leftover o us sel w h x /\
    forall L coins, Valid L x coins ->
      (forall j u c, nth_error sel j = Some u -> nth_error coins j = Some c ->
         Bound (k_secret k) (k_public_key k) x j (p2pkh_script (k_public_key k)) (u_amount u) (fst c)) ->
      Forall2 (fun u c => u_is_segwit u = true -> fst c = u_amount u) sel coins /\
      (Forall (fun u => u_is_segwit u = true) sel -> total (map fst coins) = amounts sel).
Proof.
  intros K M E A T D SC. destruct (C50_create_single HO RO k outputs fee leftover unspents o s h s' us s1 K M E A T D SC) as (x & sel & f & w & F & Ak & Sp).
  exists x, sel, f, w. split; auto. split; auto. intros L coins V B. eapply told_right; eauto.
  intros j u xi c Hu Hx Hc SG Ac. eapply commits_single; eauto.
Qed.
(** The same for a wallet and its co-signers. *)
Theorem C92_multi (RO : RandomOk WD) e k ks outputs fee leftover unspents o s h s' us s1 :
  EnvOk e -> Signers e (k :: ks) -> zlen (k :: ks) = e_m e -> MsgOk o ->
  create_transaction (Multi (wallet e k)) outputs fee leftover unspents o s = (Ok h, s') ->
  Available (Multi (wallet e k)) unspents s us s1 -> Forall TxidOk us -> Distinct us -> Forall (MultiCoin e) us ->
  exists h' x sel f w, FeeRate fee (wl_world s1) f w /\ pass_all e sel h ks = Ok h' /\ Asked (Multi (wallet e k)) outputs f leftover o us sel w h' x /\
    forall L coins, Valid L x coins ->
      (forall j u c k' pub, nth_error sel j = Some u -> nth_error coins j = Some c -> In k' (k :: ks) -> In pub (e_pubs e) ->
         Bound (k_secret k') pub x j (e_redeem e) (u_amount u) (fst c)) ->
      Forall2 (fun u c => u_is_segwit u = true -> fst c = u_amount u) sel coins /\
      (Forall (fun u => u_is_segwit u = true) sel -> total (map fst coins) = amounts sel).
Proof.
  intros EO SG Lm M E A T D SC.
  destruct (C50_create_multi HO RO e k ks outputs fee leftover unspents o s h s' us s1 EO SG ltac:(lia) M E A T D SC) as (h' & x & sel & f & w & F & Ep & Ak & Sp).
  exists h', x, sel, f, w. split; auto. split; auto. split; auto. intros L coins V B. eapply told_right; eauto.
  intros j u xi c Hu Hx Hc S Ac. destruct (Sp j u xi Hu Hx) as (z & PS & Z0). rewrite (Z0 Lm) in PS. eapply commits_multi; eauto.
Qed.

(** Legacy coins are another matter: if they hold more than they were said to,
    the transaction is valid all the same, and what they hold beyond that goes to
    the miner. *)
Definition Understated (L : ledger) (u : Unspent) : Prop :=
  exists v, Holds L u v /\ if u_is_segwit u then v = u_amount u else u_amount u <= v.
Lemma understated_rbf L u : Understated L u -> Understated L (opt_in_for_RBF u).
Proof. intros (v & H1 & H2). exists v. split; [apply holds_rbf; auto|]. destruct (rbf_keep u) as (_ & _ & _ & -> & ->). exact H2. Qed.
Lemma holds_fun L u v v' : Holds L u v -> Holds L u v' -> v = v'.
Proof. intros (t & spk & H1 & _ & _ & H4) (t' & spk' & G1 & _ & _ & G4). rewrite H1 in G1. injection G1 as <-. congruence. Qed.
Theorem C92_excess (RO : RandomOk WD) k outputs fee leftover unspents o s h s' us s1 L :
  KeyOk k -> MsgOk o -> create_transaction (Single k) outputs fee leftover unspents o s = (Ok h, s') ->
  Available (Single k) unspents s us s1 -> Forall TxidOk us -> Distinct us -> Forall (SingleCoin k) us ->
  Sensible us -> Forall (Understated L) us -> outputs <> [] -> (forall f w, FeeRate fee (wl_world s1) f w -> 0 <= f) ->
  exists x sel f w coins, FeeRate fee (wl_world s1) f w /\ Asked (Single k) outputs f leftover o us sel w h x /\
    Forall2 (fun u c => Holds L u (fst c)) sel coins /\ Valid L x coins.
Proof.
  intros K M E A T D SC SE DE NO Hf. destruct (C50_create_single HO RO k outputs fee leftover unspents o s h s' us s1 K M E A T D SC) as (x & sel & f & w & F & Ak & Sp).
  assert (FS : Forall (fun u => SingleCoin k u /\ Understated L u) sel).
  { destruct Ak as (_ & _ & _ & _ & _ & _ & _ & _ & _ & _ & _ & _ & _ & (taken & unused & Pm & _ & _ & Hs) & _). rewrite Hs. apply Forall_rbf.
    - intros v [H1 H2]. split; [|apply understated_rbf; auto]. unfold SingleCoin in *. destruct (rbf_keep v) as (_ & _ & -> & -> & _). auto.
    - assert (P : Forall (fun u => SingleCoin k u /\ Understated L u) us) by (rewrite Forall_forall in *; auto).
      eapply Permutation_Forall in P; [|apply Permutation_sym; exact Pm]. apply Forall_app in P as [P _]. exact P. }
  destruct (valid_told _ _ _ _ _ _ _ _ _ _ L Ak NO (Hf f w F) D SE) as (coins & MF & V); [| |exists x, sel, f, w, coins; auto 6].
  - eapply Forall_impl; [|exact DE]. intros u (v & H1 & H2). exists v. split; auto. destruct (u_is_segwit u); lia.
  - intros j u xi v Hu Hx Hv. rewrite Forall_forall in FS. destruct (FS u (nth_error_In _ _ Hu)) as [C (v' & H1 & H2)].
    pose proof (Sp j u xi Hu Hx) as S. destruct (accepts_single HO k x j u xi K C S) as (spk & E1 & E2 & E3). exists spk. split; auto. split; auto.
    rewrite (holds_fun _ _ _ _ Hv H1) in *. destruct (u_is_segwit u) eqn:SG; [subst v'; auto|].
    destruct S as (msg & sig & _ & _ & _ & S). rewrite SG in S. destruct S as [_ S]. eapply accepts_any; eauto.
Qed.
End WithCrypto.
Print Assumptions C92_single.
Print Assumptions C92_multi.
Print Assumptions C92_excess.

Local Opaque create_transaction get_unspents.
(** ** Examples *)

(** Amounts that differ in the lowest byte only: the toy signatures tell them apart. *)
Lemma fold_inj l : forall a b, 0 <= a < 256 -> 0 <= b < 256 ->
  fold_left (fun a z => (7 * a + z) mod 256) l a = fold_left (fun a z => (7 * a + z) mod 256) l b -> a = b.
Proof.
  induction l as [|z l IH]; intros a b A B E; [exact E|]. cbn [fold_left] in E. apply IH in E; try (apply Z.mod_pos_bound; lia).
  assert (Q : (183 * ((7 * a + z) mod 256 - z)) mod 256 = (183 * ((7 * b + z) mod 256 - z)) mod 256) by congruence.
  assert (G : forall c, 0 <= c < 256 -> (183 * ((7 * c + z) mod 256 - z)) mod 256 = c).
  { intros c C. rewrite Z.mul_mod, Zminus_mod_idemp_l by lia. replace (7 * c + z - z) with (7 * c) by lia. rewrite <- Z.mul_mod by lia.
    replace (183 * (7 * c)) with (c + 5 * c * 256) by lia. rewrite Z_mod_plus_full. apply Z.mod_small. lia. }
  rewrite !G in Q by auto. exact Q.
Qed.
Lemma toy_verify_same s m m' pub : toy_verify (toy_sign s m) m' pub = Ok true -> fix32 m = fix32 m'.
Proof.
  unfold toy_verify. intros V. assert (E : list_eqb (toy_sign s m) (toy_sign (firstn 32 (skipn 1 pub)) m') = true) by congruence.
  clear V. apply list_eqb_eq in E. revert E. unfold toy_sign. generalize (firstn 32 (skipn 1 pub)) as s'. intros s' E.
  assert (Q : fix32 s ++ fix32 m ++ repeat 0 6 = fix32 s' ++ fix32 m' ++ repeat 0 6) by congruence.
  apply app_len_inj in Q as [_ Q]; [|rewrite !fix32_len; reflexivity]. apply app_len_inj in Q as [Q _]; [exact Q|rewrite !fix32_len; reflexivity].
Qed.
Lemma fix32_head a b l l' : 0 <= a < 256 -> 0 <= b < 256 -> fix32 (a :: l) = fix32 (b :: l') -> a = b.
Proof.
  intros A B E. assert (Q : nth 0 (fix32 (a :: l)) 0 = nth 0 (fix32 (b :: l')) 0) by congruence. unfold fix32 in Q. cbn [map app firstn nth] in Q.
  rewrite !Z.mod_small in Q by auto. exact Q.
Qed.
Lemma toy_hash_byte pre suf c c' : 0 <= c < 256 -> 0 <= c' < 256 -> fix32 (toy_hash (pre ++ c :: suf)) = fix32 (toy_hash (pre ++ c' :: suf)) -> c = c'.
Proof.
  intros C C' V. unfold toy_hash in V. rewrite !fix32_idem in V. rewrite !fold_left_app in V. cbn [fold_left] in V.
  set (q := fold_left _ pre 1) in V.
  assert (RG : forall l0 a0, 0 <= a0 < 256 -> 0 <= fold_left (fun a z : Z => (7 * a + z) mod 256) l0 a0 < 256).
  { clear. induction l0 as [|z l0 IH]; intros a0 A; auto. cbn [fold_left]. apply IH. apply Z.mod_pos_bound. lia. }
  assert (Y : forall z, 0 <= (7 * q + z) mod 256 < 256) by (intros; apply Z.mod_pos_bound; lia).
  apply fix32_head in V; try (apply RG; apply Y). apply fold_inj in V; try apply Y.
  pose proof (Z.div_mod (7 * q + c) 256). pose proof (Z.div_mod (7 * q + c') 256). lia.
Qed.
Lemma toy_bound secret pub x j code v v' : v / 256 = v' / 256 -> @Bound toy secret pub x j code v v'.
Proof.
  intros DV msg msg' M M' NE V. apply NE.
  destruct (Z.eq_dec v v') as [<-|NV]; [eapply BIP143Msg_fun; eauto|]. exfalso.
  destruct M as (i & a & p & s & op & sc & am & sq & os & l & h & N & A & P1 & P2 & O1 & C & Mv & Sq & P3 & Ll & Lh & ->).
  destruct M' as (i' & a' & p' & s' & op' & sc' & am' & sq' & os' & l' & h' & N' & A' & P1' & P2' & O1' & C' & Mv' & Sq' & P3' & Ll' & Lh' & ->).
  rewrite N in N'. injection N' as <-. rewrite <- (LEnum_fun _ _ _ _ A A'), <- (EncOutpoint_fun _ _ _ O1 O1'), <- (VarBytes_fun _ _ _ C C'), <- (EncSequence_fun _ _ _ Sq Sq'),
    <- (LEnum_fun _ _ _ _ Ll Ll'), <- (LEnum_fun _ _ _ _ Lh Lh') in *. clear A' O1' C' Sq' Ll' Lh'.
  assert (p' = p) as -> by (eapply EncSeq_fun; eauto using EncOutpoint_fun). assert (s' = s) as -> by (eapply EncSeq_fun; eauto using EncSequence_fun).
  assert (os' = os) as -> by (eapply EncSeq_fun; eauto using EncOut_fun).
  destruct am as [|c am]; [apply LEnum_length in Mv; discriminate|]. destruct am' as [|c' am']; [apply LEnum_length in Mv'; discriminate|].
  apply LEnum_cons_inv in Mv as (r & Hc & Ev & R). apply LEnum_cons_inv in Mv' as (r' & Hc' & Ev' & R').
  assert (r = r') as <- by lia. pose proof (LEnum_fun _ _ _ _ R R') as <-.
  apply toy_verify_same in V. cbn [sha256 toy] in V. revert V.
  generalize (toy_hash (toy_hash p)) as h1, (toy_hash (toy_hash s)) as h2, (toy_hash (toy_hash os)) as h3. intros h1 h2 h3 V.
  assert (c = c'); [|lia]. apply (toy_hash_byte (a ++ h1 ++ h2 ++ op ++ sc) (am ++ sq ++ h3 ++ l ++ h)); auto. rewrite <- !app_assoc. exact V.
Qed.

(** The ledger on which every coin holds [d] more than it is said to. *)
Definition richer (d : Z) (us : list Unspent) : ledger := fun t n => option_map (fun c => (fst c + d, snd c)) (ledger_of us t n).
Lemma richer_holds d us u : describesb (ledger_of us) u = true -> Holds (richer d us) u (u_amount u + d).
Proof.
  intros H. apply describesb_ok in H as (t & spk & H1 & H2 & H3 & H4). exists t, spk. repeat (split; auto). unfold richer. rewrite H4. reflexivity.
Qed.
Definition one_opts : Options := mkOptions true None true false false.
Definition one_pay : list (pystr * Z * pystr) := [(addr_of other_key, 6000, str "satoshi")].
Definition pay_with (us : list Unspent) := @create_transaction toy _ _ toy_world (Single wkey) one_pay (Some 1000) None (Some us) one_opts wallet0.
Lemma coins_fit us : us <> [] -> forallb txid_okb us && distinctb (map u_txindex us) && forallb single_coinb us && sensibleb us && forallb (describesb (ledger_of us)) us = true ->
  @Available toy _ _ toy_world (Single wkey) (Some us) wallet0 us (set_caller us wallet0) /\
  Forall TxidOk us /\ Distinct us /\ Forall (@SingleCoin toy wkey) us /\ Sensible us /\ Forall (Describes (ledger_of us)) us /\
  forall d, Forall (fun u => Holds (richer d us) u (u_amount u + d)) us.
Proof.
  intros NE G. apply andb_true_iff in G as [G G5]. apply andb_true_iff in G as [G G4]. apply andb_true_iff in G as [G G3]. apply andb_true_iff in G as [G1 G2].
  rewrite forallb_forall in G1, G3, G5. split; [destruct us; [congruence|split; reflexivity]|].
  split; [apply Forall_forall; intros u Hu; apply txid_okb_ok; auto|]. split; [apply distinct_index; auto|].
  split; [apply Forall_forall; intros u Hu; apply single_coinb_ok; auto|]. split; [apply sensibleb_ok; auto|].
  split; [apply Forall_forall; intros u Hu; apply describesb_ok; auto|]. intros d. apply Forall_forall. intros u Hu. apply richer_holds. auto.
Qed.
Lemma given_rate f w s : @FeeRate _ _ toy_world (Some 1000) s f w -> f = 1000.
Proof. intros F. inversion F as [|? ? ? ? [Q|Q]]; subst; [reflexivity|discriminate|discriminate]. Qed.

Lemma segwit_inj x y b : EncSegwit x b -> EncSegwit y b -> x = y.
Proof.
  intros (v & i & o & w & l & Hv & Hi & Ho & Hw & Hl & ->) (v' & i' & o' & w' & l' & Hv' & Hi' & Ho' & Hw' & Hl' & E).
  destruct (LEnum_prefix _ _ _ _ _ _ _ Hv Hv' E) as (E1 & _ & E2). cbn [app] in E2.
  assert (E2' : i ++ o ++ w ++ l = i' ++ o' ++ w' ++ l') by congruence.
  destruct (EncVec_prefix _ _ EncIn_prefix _ _ _ _ _ _ Hi Hi' E2') as (E3 & _ & E4).
  destruct (EncVec_prefix _ _ EncOut_prefix _ _ _ _ _ _ Ho Ho' E4) as (E5 & _ & E6). rewrite !map_id in E5.
  assert (PS : PrefixInj EncStack (map (fun s : bytes => s))) by exact (EncVec_prefix _ _ VarBytes_prefix).
  assert (LI : length (map i_wit (t_ins x)) = length (map i_wit (t_ins y))) by (apply (f_equal (@length tin)) in E3; rewrite !map_length in *; exact E3).
  destruct (EncSeq_prefix EncStack (map (fun s : bytes => s)) (map i_wit (t_ins x)) PS (map i_wit (t_ins y)) w w' l l' LI Hw Hw' E6) as (E7 & _ & E8).
  assert (W : map i_wit (t_ins x) = map i_wit (t_ins y)).
  { rewrite !(map_ext (map (fun s : bytes => s)) (fun s => s)) in E7 by apply map_id. rewrite !map_id in E7. exact E7. }
  assert (Q : l ++ [] = l' ++ []) by (rewrite !app_nil_r; exact E8). destruct (LEnum_prefix _ _ _ _ _ _ _ Hl Hl' Q) as (E9 & _).
  assert (I : t_ins x = t_ins y).
  { clear -E3 W. revert E3 W. generalize (t_ins x) as a, (t_ins y) as b. induction a as [|i a IH]; intros [|i' b] E W; try discriminate; auto. cbn [map] in *.
    assert (H1 : no_wit i = no_wit i') by congruence. assert (H2 : i_wit i = i_wit i') by congruence. f_equal; [|apply IH; congruence].
    destruct i, i'. unfold no_wit in H1. cbn in *. congruence. }
  destruct x, y. cbn in *. congruence.
Qed.

(** One segwit coin, said to hold 40000.  On a chain where it does, the
    transaction is valid; on one where it holds 40001, it is not. *)
Example C92_single_case : exists h s' x, pay_with segwit_coins = (Ok h, s') /\
  (exists b, h = bytes_to_hex b /\ @EncSegwit x b) /\
  (exists coins, @Valid toy (ledger_of segwit_coins) x coins) /\ ~ (exists coins, @Valid toy (richer 1 segwit_coins) x coins).
Proof.
  assert (R : exists h s', pay_with segwit_coins = (Ok h, s')) by (apply is_ok; vm_compute; reflexivity). destruct R as (h & s' & E).
  destruct (coins_fit segwit_coins) as (A & T & D & SC & SE & DE & RI); [discriminate|vm_compute; reflexivity|].
  destruct C50_single_hypotheses as (K & _).
  destruct (@C79_single toy toy_ok _ _ toy_world toy_random_ok wkey one_pay (Some 1000) None (Some segwit_coins) one_opts wallet0 h s' segwit_coins _ (ledger_of segwit_coins) K I E A T D SC SE DE
    ltac:(discriminate) ltac:(intros f w F; rewrite (given_rate _ _ _ F); lia)) as (x & sel & f & w & coins & Ak & MF & V).
  destruct (@C92_single toy toy_ok _ _ toy_world toy_random_ok wkey one_pay (Some 1000) None (Some segwit_coins) one_opts wallet0 h s' segwit_coins _ K I E A T D SC)
    as (x2 & sel2 & f2 & w2 & _ & Ak2 & C).

  assert (SL : forall f w sel x, @Asked toy _ _ toy_world (Single wkey) one_pay f None one_opts segwit_coins sel w h x -> sel = segwit_coins /\ exists b, (h = bytes_to_hex b /\ bytes_ok b = true) /\ EncSegwit x b).
  { clear. intros f w sel x (outs & sats & w1 & change & msgs & back & B & _ & _ & _ & _ & _ & _ & (taken & unused & _ & _ & All & Hs) & _).
    cbn [o_replace_by_fee one_opts] in Hs. rewrite (All eq_refl) in Hs. subst sel. split; auto. destruct B as (B & _). exact B. }
  destruct (SL _ _ _ _ Ak) as (-> & b & (Eb & Ob) & EX). destruct (SL _ _ _ _ Ak2) as (-> & b2 & (Eb2 & Ob2) & EX2).
  assert (b2 = b) as -> by (apply bytes_to_hex_inj; congruence). rewrite (segwit_inj _ _ _ EX2 EX) in *.
  exists h, s', x. split; auto. split; [eauto|]. split; [eauto|]. intros (coins' & V').
  pose proof (v_coins _ _ _ V') as F.
  assert (RC : forall j u c, nth_error segwit_coins j = Some u -> nth_error coins' j = Some c -> fst c = u_amount u + 1).
  { destruct Ak as (outs & sats & w1 & change & msgs & back & (_ & _ & _ & FI & _) & _). intros j u c Hu Hc.
    destruct (F2_nth_l _ _ _ _ _ FI Hu) as (xi & Hx & (A1 & A2) & _). destruct (F2_nth_l _ _ _ _ _ F Hx) as (c' & Hc' & Lc). rewrite Hc in Hc'. injection Hc' as <-.
    specialize (RI 1). rewrite Forall_forall in RI. destruct (RI u (nth_error_In _ _ Hu)) as (t & spk & H1 & _ & _ & H4).
    rewrite A1 in H1. injection H1 as <-. rewrite rev_involutive, A2, Lc in H4. injection H4 as ->. reflexivity. }
  destruct (C _ _ V') as [C1 _].
  - intros j u c Hu Hc. rewrite (RC j u c Hu Hc). apply toy_bound. destruct j as [|j]; [injection Hu as <-; reflexivity|destruct j; discriminate].
  - inversion C1 as [|u c l l' H1 H2 E1 E2]; subst. specialize (RC O _ c eq_refl eq_refl). specialize (H1 eq_refl). lia.
Qed.

(** Two legacy coins, said to hold 50000 together: on a chain where each holds
    480000 more, the transaction is valid, and pays a fee of 961000 instead of 1000. *)
Theorem C92_refuted : ~ (forall (CR : Crypto) (W Amt : Type) (WD : World W Amt), HashOk CR -> RandomOk WD ->
  forall k outputs fee us o s h s' x b L coins, KeyOk k -> o_absolute_fee o = true -> o_combine o = true ->
  create_transaction (Single k) outputs (Some fee) None (Some us) o s = (Ok h, s') ->
  h = bytes_to_hex b -> EncSegwit x b \/ EncLegacy x b -> Valid L x coins ->
  total (map fst coins) - total (map o_value (t_outs x)) = fee).
Proof.
  intros H.
  assert (R : exists h s', pay_with legacy_coins = (Ok h, s')) by (apply is_ok; vm_compute; reflexivity). destruct R as (h & s' & E).
  destruct (coins_fit legacy_coins) as (A & T & D & SC & SE & DE & RI); [discriminate|vm_compute; reflexivity|].
  destruct C50_single_hypotheses as (K & _).
  destruct (@C92_excess toy toy_ok _ _ toy_world toy_random_ok wkey one_pay (Some 1000) None (Some legacy_coins) one_opts wallet0 h s' legacy_coins _ (richer 480000 legacy_coins) K I E A T D SC SE)
    as (x & sel & f & w & coins & FR & Ak & MF & V).
  { specialize (RI 480000). rewrite Forall_forall in *. intros u Hu. exists (u_amount u + 480000). split; auto.
    assert (SG : u_is_segwit u = false) by (destruct Hu as [<-|[<-|[]]]; reflexivity). rewrite SG. lia. }
  { discriminate. }
  { intros f w F. rewrite (given_rate _ _ _ F). lia. }
  destruct Ak as (outs & sats & w1 & change & msgs & back & B & _ & _ & _ & _ & _ & _ & (taken & unused & _ & _ & All & Hs) & sizes & _ & Fee).
  cbn [o_replace_by_fee one_opts] in Hs. rewrite (All eq_refl) in Hs. subst sel.
  destruct B as ((b & (Eh & _) & Eb) & _).
  specialize (H toy _ _ toy_world toy_ok toy_random_ok wkey one_pay 1000 legacy_coins one_opts wallet0 h s' x b (richer 480000 legacy_coins) coins K eq_refl eq_refl E Eh).
  specialize (H ltac:(destruct (existsb u_is_segwit legacy_coins); auto) V).
  cbv zeta in Fee. destruct Fee as [(z & _ & Fee)|(Q & _)]; [|discriminate]. cbn [o_absolute_fee one_opts] in Fee.
  assert (TT : total (map fst coins) = amounts legacy_coins + 960000).
  { specialize (RI 480000). clear -MF RI. unfold legacy_coins in *. inversion MF as [|u1 c1 l1 l1' H1 F1]; subst. inversion F1 as [|u2 c2 l2 l2' H2 F2]; subst. inversion F2; subst.
    apply Forall_cons_iff in RI as [R1 RI]. apply Forall_cons_iff in RI as [R2 _].
    cbn [map total]. rewrite (holds_fun _ _ _ _ H1 R1), (holds_fun _ _ _ _ H2 R2). unfold amounts. cbn [map total]. lia. }
  apply given_rate in FR. lia.
Qed.
Print Assumptions C92_refuted.
(** The wallet of C79_multi_case: its transaction is valid on the chain as told,
    and its signatures for 6000 satoshis are not good for 6001. *)
Example C92_multi_hypotheses :
  (exists h s' sel h' x coins, create_toy_multi = (Ok h, s') /\ @pass_all toy toy_env sel h [toy_k 7] = Ok h' /\
    @Valid toy (ledger_of toy_mus) x coins /\ length coins = 2%nat) /\
  (forall x j k pub, @Bound toy (k_secret k) pub x j (e_redeem toy_env) 6000 6001).
Proof. split; [exact C79_multi_case|]. intros. apply toy_bound. reflexivity. Qed.
