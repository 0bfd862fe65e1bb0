(** C96: whether nodes pass on the transactions that are created. *)
From Coq Require Import String Permutation.
From Verif Require Import F_cosign F_cosigntx F_signtx F_wallet F_utf8 F_spend F_wire F_build F_base58 F_address F_redeem P_outputs P_select P_sign P_multi P_wallet P_create P_state P_size X_world.
From Verif Require Import S_Size F_size P_live S_Consensus P_consensus S_Standard.

(** ** Reading scripts *)
Lemma op_first s o ops : Unspendable s -> ParsesTo s (o :: ops) -> o = Op OP_RETURN_code.
Proof. intros (r & ->) P. inversion P as [|? ? ? ? N _]; subst. cbn in N. congruence. Qed.
Lemma take_exact_sum n : forall s d r, take_exact n s = Some (d, r) -> length s = (length d + length r)%nat.
Proof.
  induction n as [|n IH]; intros s d r E; cbn in E; [injection E as <- <-; reflexivity|]. destruct s as [|b s]; [discriminate|].
  destruct (take_exact n s) as [(d' & r')|] eqn:Q; [|discriminate]. injection E as <- <-. cbn. rewrite (IH _ _ _ Q). reflexivity.
Qed.
Lemma take_push_sum n s o r : take_push n s = Some (o, r) -> exists d, o = Push d /\ length s = (length d + length r)%nat.
Proof.
  unfold take_push. destruct (_ <? n); [discriminate|]. destruct (take_exact _ s) as [(d & r')|] eqn:Q; [|discriminate]. intros E. injection E as <- <-.
  exists d. split; auto. eapply take_exact_sum; eauto.
Qed.
Definition op_bound (o : op) : nat := match o with Push d => 5 + length d | Op _ => 1 end.
Lemma next_op_bound s o r : next_op s = Some (o, r) -> (length s <= op_bound o + length r)%nat.
Proof.
  destruct s as [|c s]; [discriminate|]. unfold next_op.
  assert (G : forall n t, take_push n t = Some (o, r) -> (length s <= 4 + length t)%nat -> (length (c :: s) <= op_bound o + length r)%nat).
  { intros n t E L. apply take_push_sum in E as (d & -> & E). cbn. lia. }
  destruct (c <=? _); [intros E; eapply G; eauto; lia|]. destruct (c =? _).
  { destruct s as [|a s]; [discriminate|]. intros E. eapply G; [exact E|cbn; lia]. }
  destruct (c =? _).
  { destruct s as [|a [|b s]]; try discriminate. intros E. eapply G; [exact E|cbn; lia]. }
  destruct (c =? _).
  { destruct s as [|a [|b [|a' [|b' s]]]]; try discriminate. intros E. eapply G; [exact E|cbn; lia]. }
  intros E. injection E as <- <-. cbn. lia.
Qed.
Lemma parse_bound s ops : ParsesTo s ops -> (length s <= list_sum (map op_bound ops))%nat.
Proof. induction 1 as [|s o r ops N P IH]; cbn [map list_sum fold_right]; [cbn; lia|]. apply next_op_bound in N. unfold list_sum in IH. lia. Qed.
Lemma Op_inj a b : Op a = Op b -> a = b.
Proof. congruence. Qed.
Lemma witness_not_data s : Witness s -> ~ Unspendable s.
Proof. intros (v & p & Hv & _ & P) U. pose proof (op_first _ _ _ U P) as E. destruct (v =? 0); [discriminate|]. apply Op_inj in E. unfold OP_1, OP_RETURN_code in E. lia. Qed.
Lemma p2pkh_not h s : IsP2PKH h s -> ~ Unspendable s /\ ~ Witness s.
Proof.
  intros [_ P]. split; [intros U; pose proof (op_first _ _ _ U P); discriminate|]. intros (v & p & _ & _ & P'). pose proof (ParsesTo_fun _ _ P _ P') as E. discriminate.
Qed.
Lemma p2sh_not h s : IsP2SH h s -> ~ Unspendable s /\ ~ Witness s.
Proof.
  intros [_ P]. split; [intros U; pose proof (op_first _ _ _ U P); discriminate|]. intros (v & p & _ & _ & P'). pose proof (ParsesTo_fun _ _ P _ P') as E. discriminate.
Qed.
(** The limit is determined by the script. *)
Lemma dust_fun s n n' : DustLimit s n -> DustLimit s n' -> n = n'.
Proof. intros H H'. inversion H; subst; inversion H'; subst; auto; try contradiction; exfalso; eapply witness_not_data; eauto. Qed.

(** What a payment to an address must look like: 546 satoshis are enough. *)
Record OutStd (s : bytes) : Prop := {
  os_script : StandardScript s;
  os_data : ~ Unspendable s;
  os_len : zlen s <= 51;
  os_dust : exists n, DustLimit s n /\ n <= 546
}.
Lemma std_p2pkh h s : IsP2PKH h s -> zlen s = 25 -> OutStd s.
Proof.
  intros H L. destruct (p2pkh_not h s H) as [A B]. constructor; auto; [eapply ss_p2pkh; eauto|lia|]. eexists. split; [apply dl_other; auto|]. lia.
Qed.
Lemma std_p2sh h s : IsP2SH h s -> zlen s = 23 -> OutStd s.
Proof.
  intros H L. destruct (p2sh_not h s H) as [A B]. constructor; auto; [eapply ss_p2sh; eauto|lia|]. eexists. split; [apply dl_other; auto|]. lia.
Qed.
Lemma std_witness s : Witness s -> OutStd s.
Proof.
  intros H. assert (L : zlen s <= 51).
  { destruct H as (v & p & _ & Lp & P). apply parse_bound in P. cbn [map list_sum fold_right op_bound] in P. destruct (v =? 0); cbn [op_bound length] in P; unfold zlen; lia. }
  constructor; auto; [apply ss_witness; auto|apply witness_not_data; auto|]. eexists. split; [apply dl_witness; auto|]. lia.
Qed.

(** Notes that a reader gets whole. *)
Definition NoteOk (o : Options) : Prop :=
  match o_message o with None => True | Some m => exists b, MsgBytes m (o_message_is_hex o) b /\ (length b <= 75)%nat end.
Definition Enough (x : tx) : Prop := Forall (fun o => ~ Unspendable (o_script o) -> 546 <= o_value o) (t_outs x).
Lemma chunks_short b chunks : Chunks b chunks -> (length b <= 75)%nat -> (length chunks <= 1)%nat /\ Forall (fun c => (length c <= 75)%nat) chunks.
Proof.
  intros (E & H) L. destruct chunks as [|c [|d r]].
  - split; [cbn; lia|constructor].
  - split; [cbn; lia|]. cbn in E. rewrite app_nil_r in E. subst c. auto.
  - exfalso. destruct (H 0%nat c eq_refl) as [_ Q]. cbn [length] in Q. specialize (Q ltac:(lia)). apply (f_equal (@length Z)) in E. cbn [concat] in E. rewrite app_length in E. lia.
Qed.

Section WithCrypto.
Context {CR : Crypto} (HO : HashOk CR).

Lemma p2pkh_std pub : OutStd (p2pkh_script pub).
Proof.
  apply (std_p2pkh (hash160 pub)); [apply p2pkh_parse, (h160_len HO)|]. unfold zlen, p2pkh_script. rewrite !app_length, (h160_len HO). reflexivity.
Qed.
Lemma p2sh_std r : OutStd (p2sh_script r).
Proof.
  apply (std_p2sh (hash160 r)); [apply p2sh_parse, (h160_len HO)|]. unfold zlen, p2sh_script. rewrite !app_length, (h160_len HO). reflexivity.
Qed.

(** Base58Check addresses of a 20-byte hash, or segwit addresses. *)
Definition Ordinary (a : pystr) : Prop :=
  (exists c, In c a /\ c <> 49) /\ forall p, bytes_ok p = true -> Base58CheckStr p a -> length p = 21%nat.
Lemma ordinary_std a s : Ordinary a -> address_to_scriptpubkey a = Ok (Some s) -> OutStd s.
Proof.
  intros [Hn Hp] E. destruct (accepted_script HO a s Hn E) as [(v & h & A & B & C)|(ver & prog & _ & C)].
  - specialize (Hp _ A B). injection Hp as Hp. destruct C as [[_ ->]|[_ ->]].
    + apply (std_p2pkh h); [apply p2pkh_parse; auto|]. unfold zlen. rewrite !app_length, Hp. reflexivity.
    + apply (std_p2sh h); [apply p2sh_parse; auto|]. unfold zlen. rewrite !app_length, Hp. reflexivity.
  - apply std_witness. exists ver, prog. auto.
Qed.

(** ** Outputs *)
Definition StdDest (o : dest * Z) : Prop := exists a, fst o = Addr a /\ forall s, address_to_scriptpubkey a = Ok (Some s) -> OutStd s.
Lemma data_unspendable c n x : OutFor (Data c, n) x -> Unspendable (o_script x).
Proof. intros [_ E]. cbn [fst] in E. rewrite E. eexists. reflexivity. Qed.
Lemma std_outs pre msgs xs : Forall2 OutFor (pre ++ msgs) xs -> Forall StdDest pre ->
  Forall (fun o => exists c, fst o = Data c /\ (length c <= 75)%nat /\ snd o = 0) msgs -> (length msgs <= 1)%nat ->
  Forall (fun o => ~ Unspendable (o_script o) -> 546 <= o_value o) xs ->
  Forall (fun o => StandardScript (o_script o) /\ exists n, DustLimit (o_script o) n /\ n <= o_value o) xs /\
  (forall i j o o', nth_error xs i = Some o -> nth_error xs j = Some o' -> Unspendable (o_script o) -> Unspendable (o_script o') -> i = j) /\
  Forall (fun o => out_len o <= 86) xs.
Proof.
  intros F A M N En. assert (L : length xs = (length pre + length msgs)%nat) by (rewrite <- (F2_len _ _ _ F), app_length; reflexivity).
  assert (G : forall i o, nth_error xs i = Some o -> Unspendable (o_script o) -> (length pre <= i < length pre + length msgs)%nat).
  { intros i o Hi U. assert (Li : (i < length xs)%nat) by (apply nth_error_Some; congruence). split; [|lia].
    destruct (Nat.le_gt_cases (length pre) i) as [H|H]; auto. exfalso.
    destruct (nth_error pre i) as [p|] eqn:Hp; [|apply nth_error_None in Hp; lia].
    assert (Hp' : nth_error (pre ++ msgs) i = Some p) by (rewrite nth_error_app1; auto).
    destruct (F2_nth_l _ _ _ _ _ F Hp') as (o' & Ho' & [_ O]). rewrite Hi in Ho'. injection Ho' as <-.
    rewrite Forall_forall in A. destruct (A p (nth_error_In _ _ Hp)) as (a & Ea & Sa). rewrite Ea in O. apply (os_data _ (Sa _ O)). exact U. }
  split; [|split].
  - clear -F A M En. revert xs F En. induction A as [|p pre (a & Ea & Sa) A IH]; cbn [app]; intros xs F En.
    + clear -F M. induction F as [|o x msgs xs [V O] F IH]; constructor; apply Forall_cons_iff in M as [(c & Ec & Lc & Vc) M]; auto. rewrite Ec in O. rewrite O. split.
      * apply ss_data with [c]; [unfold zlen; rewrite app_length; cbn; lia|]. cbn [app map]. apply parse_op; [reflexivity|].
        pose proof (parse_push c [] [] Lc parse_nil) as P. rewrite app_nil_r in P. exact P.
      * exists 0. split; [apply dl_data; eexists; reflexivity|]. rewrite V, Vc. lia.
    + inversion F as [|? x ? xs' [V O] F']; subst. apply Forall_cons_iff in En as [E1 En]. rewrite Ea in O. specialize (Sa _ O). constructor; auto. split; [apply (os_script _ Sa)|].
      destruct (os_dust _ Sa) as (n & D & Ln). exists n. split; auto. specialize (E1 (os_data _ Sa)). lia.
  - intros i j o o' Hi Hj Ui Uj. apply (G i o Hi) in Ui. apply (G j o' Hj) in Uj. lia.
  - clear -F A M. revert xs F. induction A as [|p pre (a & Ea & Sa) A IH]; cbn [app]; intros xs F.
    + induction F as [|o x msgs xs [V O] F IH]; constructor; apply Forall_cons_iff in M as [(c & Ec & Lc & Vc) M]; auto. rewrite Ec in O. unfold out_len, vb_len. rewrite O, zlen_app'.
      change (zlen [106; zlen c]) with 2. assert (zlen c <= 75) by (unfold zlen; lia). rewrite csz_small; lia.
    + inversion F as [|? x ? xs' [V O] F']; subst. rewrite Ea in O. specialize (Sa _ O). constructor; auto. pose proof (os_len _ Sa). unfold out_len, vb_len. rewrite csz_small; lia.
Qed.

(** ** Inputs *)
(** Nothing in an input signed for a coin with the script [spk] is out of the ordinary. *)
Definition StdIn (B : Z) (seg : bool) (i : tin) (spk : bytes) : Prop :=
  (zlen (i_script i) <= 1650 /\ exists items, ParsesTo (i_script i) (map Push items)) /\
  (StandardScript spk /\ (ScriptHash spk -> forall items redeem ops,
    ParsesTo (i_script i) (map Push (items ++ [redeem])) -> ParsesTo redeem ops -> sig_ops 0 ops <= 15)) /\
  (i_wit i = [] \/ exists items code, i_wit i = items ++ [code] /\
    (length items <= 100)%nat /\ Forall (fun d => (length d <= 80)%nat) items /\ (length code <= 3600)%nat) /\
  in_weight seg i <= B.
Lemma push_inj l : forall m, map Push l = map Push m -> l = m.
Proof. induction l as [|a l IH]; intros [|b m] E; try discriminate; auto. cbn in E. injection E as -> E. f_equal. auto. Qed.
Lemma last_push script items redeem items' : ParsesTo script (map Push (items ++ [redeem])) -> ParsesTo script (map Push items') ->
  exists l, items' = l ++ [redeem].
Proof. intros P P'. exists items. symmetry. apply push_inj. eapply ParsesTo_fun; eauto. Qed.
Lemma program_ops n h ops : zlen h = n -> n <= 75 -> ParsesTo ([0x00; n] ++ h) ops -> sig_ops 0 ops = 0.
Proof.
  intros L N P. assert (Q : ParsesTo ([0x00; n] ++ h) [Push []; Push h]).
  { cbn [app]. apply (parse_push [] (n :: h) [Push h]); [cbn; lia|]. rewrite <- L. pose proof (parse_push h [] []) as R. rewrite app_nil_r in R. apply R; [unfold zlen in *; lia|constructor]. }
  rewrite (ParsesTo_fun _ _ P _ Q). reflexivity.
Qed.
Lemma std_single k x j u xi (seg : bool) : KeyOk k -> SingleCoin k u -> spends_single k x j u xi ->
  exists spk, u_script u = bytes_to_hex spk /\ StdIn 725 seg xi spk.
Proof.
  intros K C S. pose proof (single_lens HO k x j u xi K S C) as (m & Q). pose proof (ko_sig_len _ K m) as Lm. pose proof (ko_len _ K) as Lp. cbv zeta in Q.
  destruct S as (msg & sig & _ & _ & Es & S). pose proof (ko_sig_len _ K (sha256 msg)) as Ls.
  assert (Lg : (length sig <= 73)%nat) by (rewrite Es, app_length; cbn; lia).
  unfold SingleCoin in C. unfold StdIn, in_weight. destruct (u_is_segwit u).
  - destruct C as (C1 & C2), S as ((P & Lc) & Wt), Q as (Q1 & Q2 & Q3). eexists. split; [exact C2|]. split; [|split; [|split]].
    + split; [|eauto]. assert (in_len xi <= 64) by lia. unfold in_len, vb_len in *. pose proof (csz_ge (zlen (i_script xi))). lia.
    + split; [apply (os_script _ (p2sh_std _))|]. intros _ items redeem ops P1 P2. apply (last_push _ _ _ _ P1) in P as ([|a l] & E); [|destruct l; discriminate]. injection E as <-.
      assert (sig_ops 0 ops = 0); [|lia]. refine (program_ops 20 _ _ _ _ P2); [unfold zlen; rewrite (h160_len HO); reflexivity|lia].
    + right. exists [sig], (k_public_key k). rewrite Wt. split; auto. split; [cbn; lia|]. split; [constructor; [lia|constructor]|]. lia.
    + rewrite Q2, Q3. unfold zlen in *. destruct seg; lia.
  - destruct S as ((P & Lc) & Wt), Q as (Q1 & Q2). eexists. split; [exact C|]. split; [|split; [|split]].
    + split; [|eauto]. unfold in_len, vb_len, zlen in *. pose proof (csz_ge (Z.of_nat (length (i_script xi)))). lia.
    + split; [apply (os_script _ (p2pkh_std _))|]. intros H. destruct (not_scripthash_p2pkh _ H).
    + auto.
    + rewrite Q1, Q2. unfold zlen in *. destruct seg; lia.
Qed.
Lemma multi_ops m keys s ops : IsMultisig m keys s -> (length keys <= 15)%nat -> ParsesTo s ops -> sig_ops 0 ops <= 15.
Proof.
  intros (Hm & _ & P) L P'. rewrite (ParsesTo_fun _ _ P' _ P). clear P P'. cbn [app]. assert (G : forall ks l, sig_ops 0 (map Push ks ++ l) = sig_ops 0 l) by (induction ks; cbn; auto).
  assert (G' : forall last ks l, ks <> [] -> sig_ops last (map Push ks ++ l) = sig_ops 0 l) by (intros last [|k ks] l N; [congruence|cbn; apply G]).
  destruct keys as [|q keys]; [cbn in Hm; lia|]. cbn [sig_ops].
  replace ((OP_1 + m - 1 =? OP_CHECKSIG_code) || (OP_1 + m - 1 =? OP_CHECKSIGVERIFY_code)) with false by (unfold OP_1, OP_CHECKSIG_code, OP_CHECKSIGVERIFY_code; cbn [length] in *; lia).
  replace ((OP_1 + m - 1 =? OP_CHECKMULTISIG_code) || (OP_1 + m - 1 =? OP_CHECKMULTISIGVERIFY_code)) with false by (unfold OP_1, OP_CHECKMULTISIG_code, OP_CHECKMULTISIGVERIFY_code; cbn [length] in *; lia).
  rewrite G' by discriminate. set (n := Z.of_nat (length (q :: keys))) in *. cbn [sig_ops].
  replace ((OP_1 + n - 1 =? OP_CHECKSIG_code) || (OP_1 + n - 1 =? OP_CHECKSIGVERIFY_code)) with false by (unfold OP_1, OP_CHECKSIG_code, OP_CHECKSIGVERIFY_code; lia).
  replace ((OP_1 + n - 1 =? OP_CHECKMULTISIG_code) || (OP_1 + n - 1 =? OP_CHECKMULTISIGVERIFY_code)) with false by (unfold OP_1, OP_CHECKMULTISIG_code, OP_CHECKMULTISIGVERIFY_code; lia).
  replace ((OP_1 <=? OP_1 + n - 1) && (OP_1 + n - 1 <=? OP_16)) with true by (unfold OP_1, OP_16; lia).
  change ((OP_CHECKMULTISIG_code =? OP_CHECKSIG_code) || (OP_CHECKMULTISIG_code =? OP_CHECKSIGVERIFY_code)) with false.
  change ((OP_CHECKMULTISIG_code =? OP_CHECKMULTISIG_code) || (OP_CHECKMULTISIG_code =? OP_CHECKMULTISIGVERIFY_code)) with true. cbn [sig_ops]. lia.
Qed.
Lemma std_multi e ks x j u xi (seg : bool) : EnvOk e -> Forall (CoSigner e) ks -> zlen ks = e_m e -> MultiCoin e u -> part_spends e ks x j u 0 xi ->
  exists spk, u_script u = bytes_to_hex spk /\ StdIn 6709 seg xi spk.
Proof.
  intros EO CS LK MC (msg & sigs & _ & LS & _ & _ & FS & R). destruct (redeem_shape e EO) as (LR & Hm & _).
  destruct (redeem_multisig _ _ _ (eo_m _ EO) (eo_redeem _ EO)) as (IM & L15 & _ & _).
  assert (FL : Forall (fun g => (length g <= 73)%nat) sigs).
  { eapply Forall_impl; [|exact FS]. intros g (k & I & ->). rewrite Forall_forall in CS. pose proof (F_cosign.cs_len _ _ (CS k I) (sha256 msg)). rewrite app_length. cbn [length]. lia. }
  assert (LM : (length sigs <= 15)%nat) by (rewrite LS; unfold zlen in LK; lia).
  assert (T : total (map vb_len sigs) <= 74 * Z.of_nat (length sigs) /\ Z.of_nat (list_sum (map push_cost sigs)) <= 74 * Z.of_nat (length sigs)).
  { clear -FL. induction FL as [|g gs Lg F [IH1 IH2]]; [cbn; lia|]. cbn [map total list_sum fold_right length]. unfold list_sum in IH2.
    rewrite Nat2Z.inj_add, push_cost_z by lia. unfold vb_len at 1. rewrite csz_small by (unfold zlen; lia). unfold zlen. lia. }
  destruct T as [T1 T2]. cbn [repeat app] in R. unfold StdIn, in_weight, in_len. unfold MultiCoin in MC.
  assert (ZR : zlen (e_redeem e) <= 520) by (unfold zlen; lia).
  assert (VR : vb_len (e_redeem e) <= 523) by (unfold vb_len; pose proof (csz_mono _ _ ZR) as Q; change (csz 520) with 3 in Q; lia).
  destruct (u_is_segwit u).
  - destruct MC as (_ & MC), R as ((P & Lc) & Wt). eexists. split; [exact MC|]. cbn [map list_sum fold_right] in Lc.
    assert (L34 : length ([0x00; 0x20] ++ sha256 (e_redeem e)) = 34%nat) by (rewrite app_length, (sha256_len _ HO); reflexivity).
    rewrite push_cost_small, Nat.add_0_r in Lc by (eapply Nat.le_trans; [apply Nat.eq_le_incl; exact L34|lia]).
    assert (R35 : zlen (i_script xi) = 35) by (unfold zlen; rewrite Lc; change 35 with (Z.of_nat 35); f_equal; f_equal; exact L34).
    split; [|split; [|split]].
    + split; [lia|eauto].
    + split; [apply (os_script _ (p2sh_std _))|]. intros _ items redeem ops P1 P2. apply (last_push _ _ _ _ P1) in P as ([|a l] & E); [|destruct l; discriminate]. injection E as <-.
      assert (sig_ops 0 ops = 0); [|lia]. refine (program_ops 32 _ _ _ _ P2); [unfold zlen; rewrite (sha256_len _ HO); reflexivity|lia].
    + right. exists ([] :: sigs), (e_redeem e). rewrite Wt. split; [reflexivity|]. split; [cbn; lia|]. split; [|lia].
      constructor; [cbn; lia|]. eapply Forall_impl; [|exact FL]. cbv beta. lia.
    + unfold vb_len at 1. rewrite R35, (csz_small 35) by lia. rewrite Wt. unfold wit_len. cbn [map total]. rewrite map_app, total_app. cbn [map total].
      rewrite csz_small by (unfold zlen; cbn [length]; rewrite app_length; cbn [length]; lia). change (vb_len []) with 1. unfold bytes in *. destruct seg; lia.
  - destruct R as ((P & Lc) & Wt). eexists. split; [exact MC|].
    cbn [map list_sum fold_right] in Lc. change (push_cost []) with 1%nat in Lc. rewrite map_app, fold_right_app in Lc. cbn [map fold_right] in Lc.
    assert (E : forall l z, fold_right Nat.add z l = (list_sum l + z)%nat) by (clear; induction l as [|a l IH]; intros z; cbn; [auto|rewrite IH; unfold list_sum; lia]).
    rewrite E in Lc. assert (PR : Z.of_nat (push_cost (e_redeem e)) <= 523).
    { unfold push_cost. unfold zlen in ZR |- *. repeat (match goal with |- context [?a <=? ?c] => destruct (Z.leb_spec a c) end); lia. }
    assert (Q : zlen (i_script xi) <= 1634) by (unfold zlen; rewrite Lc; lia).
    split; [|split; [|split]].
    + split; [lia|eauto].
    + split; [apply (os_script _ (p2sh_std _))|]. intros _ items redeem ops P1 P2.
      change ([] :: sigs ++ [e_redeem e]) with (([] :: sigs) ++ [e_redeem e]) in P. apply (last_push _ _ _ _ P1) in P as (l & E').
      apply app_inj_tail in E' as [_ <-]. eapply multi_ops; eauto.
    + auto.
    + rewrite Wt. change (wit_len []) with 1. unfold vb_len. pose proof (csz_mono _ _ Q) as Q'. change (csz 1634) with 3 in Q'. destruct seg; lia.
Qed.

(** ** The whole transaction *)
Context {W Amt : Type} {WD : World W Amt}.

Lemma F2_split {A B} (P : A -> B -> Prop) (Q : B -> Prop) l m : Forall2 P l m -> (forall a b, P a b -> Q b) -> Forall Q m.
Proof. intros F H. induction F; constructor; eauto. Qed.
Definition Described (us : list Unspent) (spks : list bytes) : Prop := Forall2 (fun u s => u_script u = bytes_to_hex s) us spks.
Lemma described B seg sel (ins : list tin) : length sel = length ins ->
  (forall j u xi, nth_error sel j = Some u -> nth_error ins j = Some xi -> exists spk, u_script u = bytes_to_hex spk /\ StdIn B seg xi spk) ->
  exists spks, Described sel spks /\ Forall2 (StdIn B seg) ins spks.
Proof.
  revert ins. induction sel as [|u sel IH]; intros [|i ins] L H; try discriminate.
  - exists []. split; constructor.
  - destruct (H 0%nat u i eq_refl eq_refl) as (s & E & St). destruct (IH ins ltac:(injection L; auto) (fun j => H (S j))) as (ss & E' & S').
    exists (s :: ss). split; constructor; auto.
Qed.

Lemma standard_asked B sg (outputs : list (pystr * Amt * pystr)) f leftover o us sel w h x b spks :
  Asked sg outputs f leftover o us sel w h x -> h = bytes_to_hex b -> (if existsb u_is_segwit sel then EncSegwit x b else EncLegacy x b) ->
  (forall back, match leftover with Some (c :: r) => back = c :: r | _ => if existsb u_is_segwit us then sg_segwit_address sg = Ok (Some back) else sg_address sg = Ok back end ->
     forall s, address_to_scriptpubkey back = Ok (Some s) -> OutStd s) ->
  Forall Ordinary (dests outputs) -> NoteOk o -> Forall2 (StdIn B (existsb u_is_segwit sel)) (t_ins x) spks ->
  0 <= B -> B * zlen (t_ins x) <= 365000 -> zlen (t_ins x) <= 65535 -> zlen (t_outs x) <= 100 -> Enough x -> Standard x b spks.
Proof.
  intros (outs & sats & w1 & change & msgs & back & Bu & _ & -> & Ls & Hc & Hb & (_ & Hm) & _) Eh Eb HB OA NO FI B0 B1 N1 N2 En.
  destruct Bu as (_ & V & _ & _ & FO). specialize (HB back Hb). rewrite app_assoc in FO.
  assert (MS : Forall (fun o => exists c, fst o = Data c /\ (length c <= 75)%nat /\ snd o = 0) msgs /\ (length msgs <= 1)%nat).
  { unfold NoteOk in NO. destruct (o_message o) as [m|]; [|subst msgs; split; [constructor|cbn; lia]]. destruct NO as (mb & MB & Lb). destruct (Hm mb MB) as (ch & -> & CH).
    destruct (chunks_short _ _ CH Lb) as [L1 L2]. rewrite map_length. split; auto. apply Forall_map. eapply Forall_impl; [|exact L2]. intros c Hcl. exists c. auto. }
  destruct MS as [MS ML].
  assert (PS : Forall StdDest (combine (map Addr (dests outputs)) sats ++ change)).
  { apply Forall_app. split.
    - apply Forall_forall. intros (d & n) I. apply in_combine_l in I. apply in_map_iff in I as (a & <- & I). exists a. split; auto. intros s. apply ordinary_std. rewrite Forall_forall in OA. auto.
    - destruct Hc as [->|(n & _ & ->)]; constructor; [|constructor]. exists back. auto. }
  destruct (std_outs _ _ _ FO PS MS ML En) as (O1 & O2 & O3).
  constructor; auto.
  - rewrite V. lia.
  - destruct (weight_exists _ x b Eb) as (wt & Wt). exists wt. split; auto. rewrite (weight_eq _ x b wt Eb Wt).
    assert (TI : total (map (in_weight (existsb u_is_segwit sel)) (t_ins x)) <= B * zlen (t_ins x)).
    { clear -FI. induction FI as [|i s l m (_ & _ & _ & H) F IH]; [cbn; lia|]. cbn [map total]. unfold zlen in *. cbn [length]. lia. }
    assert (TO : total (map out_len (t_outs x)) <= 86 * zlen (t_outs x)).
    { clear -O3. induction O3 as [|a l H F IH]; [cbn; lia|]. cbn [map total]. unfold zlen in *. cbn [length]. lia. }
    pose proof (csz_mono _ _ N1) as C1. change (csz 65535) with 3 in C1. rewrite (csz_small (zlen (t_outs x))) by lia. destruct (existsb _ sel); lia.
  - clear -FI. induction FI as [|i s l m (H & _) F IH]; constructor; auto.
  - clear -FI. induction FI as [|i s l m (_ & H & _) F IH]; constructor; auto.
  - clear -FI. induction FI as [|i s l m (_ & _ & H & _) F IH]; constructor; auto.
Qed.

(** ** C96 *)
Definition ChangeOk (leftover : option pystr) : Prop := match leftover with Some (c :: r) => Ordinary (c :: r) | _ => True end.
Lemma back_single k leftover us back s : KeyOk k -> ChangeOk leftover ->
  (match leftover with Some (c :: r) => back = c :: r | _ => if existsb u_is_segwit us then sg_segwit_address (Single k) = Ok (Some back) else sg_address (Single k) = Ok back end) ->
  address_to_scriptpubkey back = Ok (Some s) -> OutStd s.
Proof.
  intros K C H E.
  assert (G : (if existsb u_is_segwit us then sg_segwit_address (Single k) = Ok (Some back) else sg_address (Single k) = Ok back) -> OutStd s).
  { clear H C. cbn [sg_segwit_address sg_address]. destruct (existsb u_is_segwit us); intros H.
    - unfold key_segwit_address, public_key_to_segwit_address in H. destruct (key_is_compressed k) eqn:Q; [|discriminate]. unfold key_is_compressed in Q. rewrite Q in H.
      cbn [negb rmap] in H. injection H as <-. apply (b58_p2sh HO) in E. injection E as ->. apply p2sh_std.
    - pose proof (key_address_script HO k back _ (ko_hash _ K) H E) as Q. injection Q as ->. apply p2pkh_std. }
  destruct leftover as [[|c r]|]; auto. subst back. eapply ordinary_std; eauto.
Qed.
Lemma back_multi e k leftover us back s : EnvOk e -> ChangeOk leftover ->
  (match leftover with Some (c :: r) => back = c :: r | _ => if existsb u_is_segwit us then sg_segwit_address (Multi (wallet e k)) = Ok (Some back) else sg_address (Multi (wallet e k)) = Ok back end) ->
  address_to_scriptpubkey back = Ok (Some s) -> OutStd s.
Proof.
  intros EO C H E.
  assert (G : (if existsb u_is_segwit us then sg_segwit_address (Multi (wallet e k)) = Ok (Some back) else sg_address (Multi (wallet e k)) = Ok back) -> OutStd s).
  { clear H C. cbn [sg_segwit_address sg_address]. pose proof (eo_redeem _ EO) as N. destruct (existsb u_is_segwit us); intros H.
    - unfold ms_segwit_address, multisig_to_segwit_address in H. cbn [wallet ms_public_keys ms_m ms_version] in H. destruct (ms_is_compressed _); [|discriminate]. rewrite N in H.
      cbn [bind rmap] in H. injection H as <-. apply (b58_p2sh HO) in E. injection E as ->. apply p2sh_std.
    - unfold ms_address, multisig_to_address in H. cbn [wallet ms_public_keys ms_m ms_version] in H. rewrite N in H. cbn [bind] in H. injection H as <-.
      apply (b58_p2sh HO) in E. injection E as ->. apply p2sh_std. }
  destruct leftover as [[|c r]|]; auto. subst back. eapply ordinary_std; eauto.
Qed.

(** Up to 500 coins of a key. *)
Theorem C96_single (RO : RandomOk WD) k outputs fee leftover unspents o s h s' us s1 :
  KeyOk k -> MsgOk o -> create_transaction (Single k) outputs fee leftover unspents o s = (Ok h, s') ->
  Available (Single k) unspents s us s1 -> Forall TxidOk us -> Distinct us -> Forall (SingleCoin k) us ->
  Forall Ordinary (dests outputs) -> ChangeOk leftover -> NoteOk o ->
  exists x sel f w b spks, FeeRate fee (wl_world s1) f w /\ Asked (Single k) outputs f leftover o us sel w h x /\ h = bytes_to_hex b /\ Described sel spks /\
    (zlen (t_ins x) <= 500 -> zlen (t_outs x) <= 100 -> Enough x -> Standard x b spks).
Proof.
  intros K M E A T D SC OA CO NO. destruct (C50_create_single HO RO _ _ _ _ _ _ _ _ _ _ _ K M E A T D SC) as (x & sel & f & w & Ef & Ak & Sp).
  pose proof Ak as (outs & sats & w1 & change & msgs & back & B & _ & _ & _ & _ & _ & _ & (taken & unused & Pm & _ & _ & Hs) & _).
  destruct B as ((b & [Hb _] & Eb) & _ & _ & FI & _).
  assert (FS : Forall (SingleCoin k) sel).
  { rewrite Hs. apply Forall_rbf.
    - intros v. unfold SingleCoin. destruct (rbf_keep v) as (_ & _ & -> & -> & _). auto.
    - eapply Permutation_Forall in SC; [|apply Permutation_sym; exact Pm]. apply Forall_app in SC as [SC _]. exact SC. }
  rewrite Forall_forall in FS.
  destruct (described 725 (existsb u_is_segwit sel) sel (t_ins x) (F2_len _ _ _ FI)) as (spks & Ds & St).
  { intros j u xi Hu Hx. eapply std_single; eauto. apply FS. eapply nth_error_In; eauto. }
  exists x, sel, f, w, b, spks. do 4 (split; auto). intros N1 N2 En.
  eapply standard_asked; eauto; try lia. intros bk Hk sc. eapply back_single; eauto.
Qed.
(** Up to 50 coins of a multisig wallet, once enough co-signers have signed. *)
Theorem C96_multi (RO : RandomOk WD) e k ks outputs fee leftover unspents o s h s' us s1 :
  EnvOk e -> Signers e (k :: ks) -> zlen (k :: ks) = e_m e -> MsgOk o -> create_transaction (Multi (wallet e k)) outputs fee leftover unspents o s = (Ok h, s') ->
  Available (Multi (wallet e k)) unspents s us s1 -> Forall TxidOk us -> Distinct us -> Forall (MultiCoin e) us ->
  Forall Ordinary (dests outputs) -> ChangeOk leftover -> NoteOk o ->
  exists h' x sel f w b spks, FeeRate fee (wl_world s1) f w /\ pass_all e sel h ks = Ok h' /\ Asked (Multi (wallet e k)) outputs f leftover o us sel w h' x /\
    h' = bytes_to_hex b /\ Described sel spks /\
    (zlen (t_ins x) <= 50 -> zlen (t_outs x) <= 100 -> Enough x -> Standard x b spks).
Proof.
  intros EO SG LM M E A T D SC OA CO NO. destruct (C50_create_multi HO RO e k ks _ _ _ _ _ _ _ _ _ _ EO SG ltac:(lia) M E A T D SC) as (h' & x & sel & f & w & Ef & Ep & Ak & Sp).
  pose proof Ak as (outs & sats & w1 & change & msgs & back & B & _ & _ & _ & _ & _ & _ & (taken & unused & Pm & _ & _ & Hs) & _).
  destruct B as ((b & [Hb _] & Eb) & _ & _ & FI & _).
  assert (FS : Forall (MultiCoin e) sel).
  { rewrite Hs. apply Forall_rbf.
    - intros v. unfold MultiCoin. destruct (rbf_keep v) as (_ & _ & -> & -> & _). auto.
    - eapply Permutation_Forall in SC; [|apply Permutation_sym; exact Pm]. apply Forall_app in SC as [SC _]. exact SC. }
  rewrite Forall_forall in FS.
  destruct (described 6709 (existsb u_is_segwit sel) sel (t_ins x) (F2_len _ _ _ FI)) as (spks & Ds & St).
  { intros j u xi Hu Hx. destruct (Sp j u xi Hu Hx) as (z & PS & Z0). rewrite (Z0 LM) in PS. destruct SG as [SG _].
    eapply std_multi; eauto. apply FS. eapply nth_error_In; eauto. }
  exists h', x, sel, f, w, b, spks. do 5 (split; auto). intros N1 N2 En.
  eapply standard_asked; eauto; try lia. intros bk Hk sc. eapply back_multi; eauto.
Qed.

(** *** Where the conditions are not met *)
(** Payments below the limit are made all the same, and not passed on. *)
Theorem C96_dust sg (outputs : list (pystr * Amt * pystr)) f leftover o us sel w h x j a amount cur sats w1 n script m :
  Asked sg outputs f leftover o us sel w h x -> nth_error outputs j = Some (a, amount, cur) -> Converted w outputs sats w1 -> nth_error sats j = Some n ->
  address_to_scriptpubkey a = Ok (Some script) -> DustLimit script m -> n < m -> forall b spks, ~ Standard x b spks.
Proof.
  intros (outs & sats' & w1' & change & msgs & back & (_ & _ & _ & _ & FO) & C' & -> & Ls & _) Hj C Hn Ea Dl Lt b spks St.
  destruct (Converted_fun _ _ _ _ _ _ C C') as [<- _].
  assert (Hd : nth_error (map Addr (dests outputs)) j = Some (Addr a)).
  { unfold dests. rewrite map_map. erewrite map_nth_error; [|exact Hj]. reflexivity. }
  pose proof (nth_combine _ _ _ _ _ Hd Hn) as Hc.
  assert (Hp : nth_error (combine (map Addr (dests outputs)) sats ++ change ++ msgs) j = Some (Addr a, n)).
  { rewrite nth_error_app1; auto. apply nth_error_Some. congruence. }
  destruct (F2_nth_l _ _ _ _ _ FO Hp) as (y & Hy & [V O]). cbn [fst snd] in *. rewrite Ea in O. injection O as ->.
  destruct St as [_ _ _ St _ _ _]. rewrite Forall_forall in St. destruct (St y (nth_error_In _ _ Hy)) as (_ & m' & D' & L'). rewrite (dust_fun _ _ _ D' Dl) in L'. lia.
Qed.
(** A message of more than 80 bytes takes two outputs. *)
Theorem C96_long_message sg (outputs : list (pystr * Amt * pystr)) f leftover o us sel w h x m mb :
  Asked sg outputs f leftover o us sel w h x -> o_message o = Some m -> MsgBytes m (o_message_is_hex o) mb -> (80 < length mb)%nat ->
  forall b spks, ~ Standard x b spks.
Proof.
  intros (outs & sats & w1 & change & msgs & back & (_ & _ & _ & _ & FO) & _ & -> & _ & _ & _ & (_ & Hm) & _) Em MB L b spks St.
  rewrite Em in Hm. destruct (Hm mb MB) as (ch & -> & Cc & CH). clear Hm.
  destruct ch as [|c1 [|c2 r]].
  - cbn in Cc. subst mb. cbn in L. lia.
  - cbn in Cc. rewrite app_nil_r in Cc. subst mb. destruct (CH 0%nat c1 eq_refl) as [Q _]. lia.
  - rewrite app_assoc in FO. set (pre := combine (map Addr (dests outputs)) sats ++ change) in *.
    assert (H1 : nth_error (pre ++ map (fun c => (Data c, 0)) (c1 :: c2 :: r)) (length pre) = Some (Data c1, 0)) by (rewrite nth_error_app2, Nat.sub_diag by lia; reflexivity).
    assert (H2 : nth_error (pre ++ map (fun c => (Data c, 0)) (c1 :: c2 :: r)) (S (length pre)) = Some (Data c2, 0))
      by (rewrite nth_error_app2 by lia; replace (S (length pre) - length pre)%nat with 1%nat by lia; reflexivity).
    destruct (F2_nth_l _ _ _ _ _ FO H1) as (y1 & Y1 & O1). destruct (F2_nth_l _ _ _ _ _ FO H2) as (y2 & Y2 & O2).
    pose proof (st_data _ _ _ St _ _ _ _ Y1 Y2 (data_unspendable _ _ _ O1) (data_unspendable _ _ _ O2)). lia.
Qed.
(** With all coins combined, which is the default, a wallet of 2440 coins sends
    what no node passes on. *)
Lemma in_len_ge i : 41 <= in_len i.
Proof. unfold in_len, vb_len. pose proof (csz_ge (zlen (i_script i))). unfold zlen in *. lia. Qed.
Lemma wit_len_ge w : 0 <= wit_len w.
Proof.
  unfold wit_len. pose proof (csz_ge (zlen w)). assert (0 <= total (map vb_len w)); [|lia]. clear H. induction w as [|d w IH]; [cbn; lia|]. cbn [map total].
  unfold vb_len at 1. pose proof (csz_ge (zlen d)). unfold zlen in *. lia.
Qed.
Theorem C96_heavy sg (outputs : list (pystr * Amt * pystr)) f leftover o us sel w h x :
  Asked sg outputs f leftover o us sel w h x -> o_combine o = true -> 2440 <= zlen us ->
  forall b spks, h = bytes_to_hex b -> bytes_ok b = true -> ~ Standard x b spks.
Proof.
  intros (outs & sats & w1 & change & msgs & back & ((b' & [Hb Ob] & Eb) & _ & _ & FI & FO) & _ & _ & _ & _ & _ & _ & (taken & unused & _ & _ & All & Hs) & _) Cm L b spks Hh Obb St.
  assert (b' = b) as ->.
  { rewrite Hh in Hb. apply (f_equal hex_to_bytes) in Hb. rewrite !hex_to_bytes_to_hex in Hb by auto. congruence. }
  destruct (st_weight _ _ _ St) as (wt & Wt & Lw). rewrite (weight_eq _ x b wt Eb Wt) in Lw.
  assert (N : zlen (t_ins x) = zlen us).
  { unfold zlen. rewrite <- (F2_len _ _ _ FI), Hs, (All Cm). destruct (o_replace_by_fee o); [rewrite map_length|]; reflexivity. }
  assert (TI : 164 * zlen (t_ins x) <= total (map (in_weight (existsb u_is_segwit sel)) (t_ins x))).
  { clear. induction (t_ins x) as [|i l IH]; [cbn; lia|]. cbn [map total]. unfold in_weight at 1. pose proof (in_len_ge i). pose proof (wit_len_ge (i_wit i)).
    unfold zlen in *. cbn [length]. destruct (existsb _ sel); lia. }
  assert (TO : 0 <= total (map out_len (t_outs x))).
  { clear. induction (t_outs x) as [|a l IH]; [cbn; lia|]. cbn [map total]. unfold out_len at 1, vb_len. pose proof (csz_ge (zlen (o_script a))). unfold zlen in *. lia. }
  pose proof (csz_ge (zlen (t_ins x))). pose proof (csz_ge (zlen (t_outs x))). destruct (existsb _ sel); lia.
Qed.
End WithCrypto.
Print Assumptions C96_single.
Print Assumptions C96_multi.
Print Assumptions C96_dust.
Print Assumptions C96_long_message.
Print Assumptions C96_heavy.

(** ** Cases *)
(** Addresses of this library are ordinary. *)
Lemma ordinary_check {CR : Crypto} (HO : HashOk CR) p : bytes_ok p = true -> length p = 21%nat -> (exists c, In c (b58encode_check p) /\ c <> 49) -> Ordinary (b58encode_check p).
Proof.
  intros Hp L N. split; auto. intros q Hq B. assert (q = p); [|congruence].
  assert (C : forall z, bytes_ok z = true -> bytes_ok (z ++ firstn 4 (sha256 (sha256 z))) = true).
  { intros z Hz. apply ok_app; auto. apply bytes_ok_Forall. pose proof (sha256_byte _ HO (sha256 z)) as F. rewrite <- (firstn_skipn 4 (sha256 (sha256 z))) in F. apply Forall_app in F as [F _]. exact F. }
  pose proof (Base58_inj _ _ _ (C q Hq) (C p Hp) B (encode_check_str HO p Hp)) as E.
  apply (f_equal (drop_last 4)) in E. rewrite !drop_last_app in E by (rewrite firstn_length, (sha256_len _ HO); reflexivity). exact E.
Qed.
Lemma toy_ordinary : Forall (@Ordinary toy) [addr_of other_key].
Proof.
  constructor; [|constructor]. pose proof (ordinary_check toy_ok (0 :: @hash160 toy (k_public_key other_key))) as G.
  assert (E : @b58encode_check toy (0 :: @hash160 toy (k_public_key other_key)) = addr_of other_key) by (vm_compute; reflexivity). rewrite E in G. apply G; [vm_compute; reflexivity..|].
  assert (X : existsb (fun c => negb (c =? 49)) (addr_of other_key) = true) by (vm_compute; reflexivity). apply existsb_exists in X as (c & I & N). exists c. split; auto. lia.
Qed.
Lemma hello_note : NoteOk (mkOptions true (Some (MText (str "hello"))) true false false).
Proof.
  exists (str "hello"). split; [|vm_compute; lia]. split; [reflexivity|]. apply utf8_sound; [|reflexivity].
  apply Forall_forall. intros c Hc. cbn in Hc. unfold is_char. intuition lia.
Qed.
(** With an absolute fee and all coins, the change is what is left. *)
Lemma enough_case {CR : Crypto} {W Amt} {WD : World W Amt} sg (outputs : list (pystr * Amt * pystr)) f leftover o us sel w h x sats w1 :
  Asked sg outputs f leftover o us sel w h x -> o_absolute_fee o = true -> o_combine o = true -> o_replace_by_fee o = false -> Converted w outputs sats w1 ->
  Forall (fun n => 546 <= n) sats -> 546 <= amounts us - f - S_Fee.total sats -> NoteOk o -> zlen (t_ins x) = zlen us /\ zlen (t_outs x) <= zlen outputs + 2 /\ Enough x.
Proof.
  intros (outs & sats' & w1' & change & msgs & back & (_ & _ & _ & FI & FO) & C' & -> & Ls & Hc & _ & (M0 & Hm) & (taken & unused & _ & _ & All & Hs) & sizes & _ & P) Ab Cm Rb C FS En NO.
  destruct (Converted_fun _ _ _ _ _ _ C C') as [<- _]. rewrite Rb, (All Cm) in Hs. subst sel. clear taken unused All. cbv zeta in P.
  destruct P as [(s & _ & P)|(Q & _)]; [|congruence]. rewrite Ab in P. rewrite (outs_values _ _ FO), !map_app, !total_app in P.
  assert (LD : length sats = length (map Addr (dests outputs))) by (unfold dests; rewrite !map_length; auto).
  assert (E1 : map snd (combine (map Addr (dests outputs)) sats) = sats).
  { clear -LD. revert sats LD. generalize (map Addr (dests outputs)). induction l as [|a l IH]; intros [|n sats] L; try discriminate; cbn; auto. f_equal. apply IH. injection L; auto. }
  assert (E2 : S_Fee.total (map snd msgs) = 0) by (clear -M0; induction M0 as [|m l H F IH]; cbn [map S_Fee.total fold_right]; auto; unfold S_Fee.total in *; lia).
  rewrite E1, E2 in P.
  assert (MS : (length msgs <= 1)%nat /\ Forall (fun p : dest * Z => exists d, fst p = Data d) msgs).
  { unfold NoteOk in NO. destruct (o_message o) as [m|]; [|subst msgs; split; [cbn; lia|constructor]].
    destruct NO as (b & MB & L). destruct (Hm b MB) as (ch & -> & CH). rewrite map_length. split; [apply (chunks_short _ _ CH L)|]. apply Forall_map, Forall_forall. intros c _. exists c. reflexivity. }
  destruct MS as [ML MS]. split; [unfold zlen; rewrite (F2_len _ _ _ FI); reflexivity|]. split.
  - unfold zlen. rewrite <- (F2_len _ _ _ FO), !app_length, combine_length, <- LD, Nat.min_id, Ls.
    assert (length change <= 1)%nat by (destruct Hc as [->|(n & _ & ->)]; cbn; lia). lia.
  - assert (G : Forall (fun p : dest * Z => (exists d, fst p = Data d) \/ 546 <= snd p) (combine (map Addr (dests outputs)) sats ++ change ++ msgs)).
    { apply Forall_app. split; [|apply Forall_app; split].
      - apply Forall_forall. intros (d & n) I. right. apply in_combine_r in I. rewrite Forall_forall in FS. apply FS. auto.
      - destruct Hc as [->|(n & _ & ->)]; constructor; [|constructor]. right. cbn [snd]. change (S_Fee.total (map snd [(Addr back, n)])) with (n + 0) in P. lia.
      - eapply Forall_impl; [|exact MS]. auto. }
    unfold Enough. clear -FO G. induction FO as [|p y l ys [V O] F IH]; constructor; apply Forall_cons_iff in G as [G1 G]; auto.
    intros NU. destruct G1 as [(d & Ed)|G1]; [|lia]. exfalso. apply NU. rewrite Ed in O. rewrite O. eexists. reflexivity.
Qed.

Lemma asked_all {CR : Crypto} {W Amt} {WD : World W Amt} sg (outputs : list (pystr * Amt * pystr)) f leftover o us sel w h x :
  Asked sg outputs f leftover o us sel w h x -> o_combine o = true -> o_replace_by_fee o = false -> sel = us.
Proof.
  intros (_ & _ & _ & _ & _ & _ & _ & _ & _ & _ & _ & _ & _ & (taken & unused & _ & _ & All & Hs) & _) C R. rewrite R, (All C) in Hs. exact Hs.
Qed.
Definition std_opts : Options := mkOptions true (Some (MText (str "hello"))) true false false.
Definition create_std := @create_transaction toy _ _ toy_world (Single wkey) one_out (Some 10000) None (Some mixed_coins) std_opts wallet0.
Lemma hello_ok : MsgOk std_opts.
Proof. apply Forall_forall. intros c Hc. cbn in Hc. unfold is_char. intuition lia. Qed.
Local Opaque create_transaction.
(** Four coins of both kinds, a payment, change and a message: passed on. *)
Example C96_case : exists h s' x b spks, create_std = (Ok h, s') /\ h = bytes_to_hex b /\ Described mixed_coins spks /\ zlen (t_ins x) = 4 /\ Standard x b spks.
Proof.
  destruct (is_ok create_std) as (h & s' & E); [vm_compute; reflexivity|]. exists h, s'.
  destruct C43_underestimated_hypotheses as (K & _ & _ & _ & A & T & D & SC & _).
  destruct (@C96_single toy toy_ok _ _ toy_world toy_random_ok wkey one_out (Some 10000) None (Some mixed_coins) std_opts wallet0 h s' mixed_coins _ K hello_ok E A T D SC toy_ordinary I hello_note)
    as (x & sel & f & w & b & spks & F & Ak & Eb & Ds & G).
  assert (f = 10000 /\ w = wl_world wallet0) as [-> ->] by (inversion F as [|? ? ? ? [Q|Q] ?]; [split; auto|discriminate|discriminate]).
  destruct (enough_case _ _ _ _ _ _ _ _ _ _ [25000] (wl_world wallet0) Ak eq_refl eq_refl eq_refl) as (N1 & N2 & En).
  - econstructor; [reflexivity|constructor].
  - repeat constructor. lia.
  - vm_compute. discriminate.
  - apply hello_note.
  - exists x, b, spks. split; auto. split; auto. split.
    { rewrite (asked_all _ _ _ _ _ _ _ _ _ _ Ak eq_refl eq_refl) in Ds. exact Ds. }
    split; [exact N1|]. apply G; auto; [rewrite N1; vm_compute; discriminate|]. change (zlen one_out) with 1 in N2. lia.
Qed.
(** A 2-of-3 wallet, two co-signers. *)
Definition std_mouts : list (pystr * Z * pystr) := [(addr_of other_key, 2000, str "satoshi")].
Definition create_stdm := @create_transaction toy _ _ toy_world (Multi (wallet toy_env (toy_k 5))) std_mouts (Some 1000) None (Some toy_mus) std_opts wallet0.
Example C96_multi_case : exists h s' h' x b spks, create_stdm = (Ok h, s') /\ @pass_all toy toy_env toy_mus h [toy_k 7] = Ok h' /\ h' = bytes_to_hex b /\ Described toy_mus spks /\
  zlen (t_ins x) = 2 /\ Standard x b spks.
Proof.
  destruct (is_ok create_stdm) as (h & s' & E); [vm_compute; reflexivity|]. exists h, s'.
  destruct C50_multi_hypotheses as (EO & SG & LM & _ & _ & T & D & SC).
  destruct (@C96_multi toy toy_ok _ _ toy_world toy_random_ok toy_env (toy_k 5) [toy_k 7] std_mouts (Some 1000) None (Some toy_mus) std_opts wallet0 h s' toy_mus (set_caller toy_mus wallet0) EO SG eq_refl hello_ok E
    (conj eq_refl eq_refl) T D SC toy_ordinary I hello_note) as (h' & x & sel & f & w & b & spks & F & Ep & Ak & Eb & Ds & G).
  assert (f = 1000 /\ w = wl_world wallet0) as [-> ->] by (inversion F as [|? ? ? ? [Q|Q] ?]; [split; auto|discriminate|discriminate]).
  destruct (enough_case _ _ _ _ _ _ _ _ _ _ [2000] (wl_world wallet0) Ak eq_refl eq_refl eq_refl) as (N1 & N2 & En).
  - econstructor; [reflexivity|constructor].
  - repeat constructor. lia.
  - vm_compute. discriminate.
  - apply hello_note.
  - assert (sel = toy_mus) as ->.
    { exact (asked_all _ _ _ _ _ _ _ _ _ _ Ak eq_refl eq_refl). }
    exists h', x, b, spks. do 4 (split; auto).
    split; [exact N1|]. apply G; auto; [rewrite N1; vm_compute; discriminate|]. change (zlen std_mouts) with 1 in N2. lia.
Qed.

(** 100 satoshis to an ordinary address: created, and not passed on. *)
Definition dust_outs : list (pystr * Z * pystr) := [(addr_of other_key, 100, str "satoshi")].
Definition create_dust := @create_transaction toy _ _ toy_world (Single wkey) dust_outs (Some 10000) None (Some segwit_coins) std_opts wallet0.
Example C96_dust_case : exists h s' x, create_dust = (Ok h, s') /\
  (exists sel, @Asked toy _ _ toy_world (Single wkey) dust_outs 10000 None std_opts segwit_coins sel (wl_world wallet0) h x) /\ forall b spks, ~ Standard x b spks.
Proof.
  destruct (is_ok create_dust) as (h & s' & E); [vm_compute; reflexivity|]. exists h, s'.
  assert (K : @KeyOk toy wkey) by apply toy_key_ok. destruct (coins_good segwit_coins) as (T & D & SC & _); [vm_compute; reflexivity|].
  destruct (@C50_create_single toy toy_ok _ _ toy_world toy_random_ok wkey dust_outs (Some 10000) None (Some segwit_coins) std_opts wallet0 h s' segwit_coins (set_caller segwit_coins wallet0) K hello_ok E (conj eq_refl eq_refl) T D SC)
    as (x & sel & f & w & F & Ak & _).
  assert (f = 10000 /\ w = wl_world wallet0) as [-> ->] by (inversion F as [|? ? ? ? [Q|Q] ?]; [split; auto|discriminate|discriminate]).
  exists x. split; auto. split; [eauto|].
  refine (C96_dust _ _ _ _ _ _ _ _ _ _ 0%nat _ _ _ [100] (wl_world wallet0) 100 (@p2pkh_script toy (k_public_key other_key)) 546 Ak eq_refl _ eq_refl _ _ _).
  - econstructor; [reflexivity|constructor].
  - vm_compute. reflexivity.
  - destruct (p2pkh_not (@hash160 toy (k_public_key other_key)) (@p2pkh_script toy (k_public_key other_key))) as [U N]; [apply p2pkh_parse; reflexivity|].
    exact (dl_other _ U N).
  - lia.
Qed.
(** 81 letters. *)
Definition long_opts : Options := mkOptions true (Some (MText (repeat 97 81))) true false false.
Definition create_long := @create_transaction toy _ _ toy_world (Single wkey) one_out (Some 10000) None (Some segwit_coins) long_opts wallet0.
Example C96_long_case : exists h s' x, create_long = (Ok h, s') /\
  (exists sel, @Asked toy _ _ toy_world (Single wkey) one_out 10000 None long_opts segwit_coins sel (wl_world wallet0) h x) /\ forall b spks, ~ Standard x b spks.
Proof.
  destruct (is_ok create_long) as (h & s' & E); [vm_compute; reflexivity|]. exists h, s'.
  assert (K : @KeyOk toy wkey) by apply toy_key_ok. destruct (coins_good segwit_coins) as (T & D & SC & _); [vm_compute; reflexivity|].
  assert (CH : Forall is_char (repeat 97 81)) by (apply Forall_forall; intros c Hc; apply repeat_spec in Hc; subst; unfold is_char; lia).
  destruct (@C50_create_single toy toy_ok _ _ toy_world toy_random_ok wkey one_out (Some 10000) None (Some segwit_coins) long_opts wallet0 h s' segwit_coins (set_caller segwit_coins wallet0) K CH E (conj eq_refl eq_refl) T D SC)
    as (x & sel & f & w & F & Ak & _).
  assert (f = 10000 /\ w = wl_world wallet0) as [-> ->] by (inversion F as [|? ? ? ? [Q|Q] ?]; [split; auto|discriminate|discriminate]).
  exists x. split; auto. split; [eauto|].
  refine (C96_long_message _ _ _ _ _ _ _ _ _ _ _ (repeat 97 81) Ak eq_refl _ _); [|rewrite repeat_length; lia].
  split; [reflexivity|]. apply utf8_sound; [exact CH|reflexivity].
Qed.

(** A wallet of n coins of 10000 satoshis each. *)
Definition many (n : nat) : list Unspent := map (fun i => wcoin (addr_of wkey) "p2pkh" 1 (Z.of_nat i) 10000) (seq 0 n).
Lemma wcoin_facts i n : 0 <= i < 2 ^ 32 -> let u := wcoin (addr_of wkey) "p2pkh" 1 i n in
  TxidOk u /\ @SingleCoin toy wkey u /\ u_txindex u = i /\ u_amount u = n /\ u_is_segwit u = false /\ 0 <= u_vsize u /\ InRange u.
Proof.
  intros H. cbv zeta. split; [exists (repeat 1 32); split; vm_compute; reflexivity|]. split; [vm_compute; reflexivity|]. do 3 (split; [reflexivity|]). split; [vm_compute; discriminate|].
  unfold InRange. change (u_txindex (wcoin (addr_of wkey) "p2pkh" 1 i n)) with i. change (u_sequence (wcoin (addr_of wkey) "p2pkh" 1 i n)) with 0xffffffff. lia.
Qed.
Lemma many_forall (P : Unspent -> Prop) n : Z.of_nat n < 2 ^ 32 -> (forall i, 0 <= i < 2 ^ 32 -> P (wcoin (addr_of wkey) "p2pkh" 1 i 10000)) -> Forall P (many n).
Proof. intros L H. apply Forall_map, Forall_forall. intros i I. apply in_seq in I. apply H. lia. Qed.
Lemma many_amounts n : amounts (many n) = 10000 * Z.of_nat n.
Proof.
  unfold amounts, many. rewrite map_map. assert (G : forall l, S_Fee.total (map (fun i => u_amount (wcoin (addr_of wkey) "p2pkh" 1 (Z.of_nat i) 10000)) l) = 10000 * Z.of_nat (length l)).
  { induction l as [|a l IH]; [reflexivity|]. cbn [map length]. 
    change (10000 + S_Fee.total (map (fun i => u_amount (wcoin (addr_of wkey) "p2pkh" 1 (Z.of_nat i) 10000)) l) = 10000 * Z.of_nat (S (length l))). rewrite IH. lia. }
  rewrite G, seq_length. reflexivity.
Qed.
Definition all_opts : Options := mkOptions true None true false false.
Lemma many_spends n : Z.of_nat n < 2 ^ 32 -> Spends (many n).
Proof.
  intros L. constructor.
  - apply many_forall; auto. intros i H. apply (wcoin_facts i 10000 H).
  - unfold Distinct, many. rewrite map_map. apply FinFun.Injective_map_NoDup; [|apply seq_NoDup]. intros i j E. injection E as E. lia.
  - apply many_forall; auto. intros i H. apply (wcoin_facts i 10000 H).
  - apply many_forall; auto. intros i H. change (u_amount (wcoin (addr_of wkey) "p2pkh" 1 i 10000)) with 10000. lia.
  - unfold zlen, many. rewrite map_length, seq_length. lia.
Qed.
Lemma many_available n s : (0 < n)%nat -> @Available toy _ _ toy_world (Single wkey) (Some (many n)) s (many n) (set_caller (many n) s).
Proof. intros H. destruct n; [lia|]. split; reflexivity. Qed.
(** Created, and too heavy. *)
Example C96_heavy_case n : 2440 <= Z.of_nat n <= 100000 -> exists h s' x b,
  @create_transaction toy _ _ toy_world (Single wkey) one_out (Some 10000) None (Some (many n)) all_opts wallet0 = (Ok h, s') /\
  (exists sel, @Asked toy _ _ toy_world (Single wkey) one_out 10000 None all_opts (many n) sel (wl_world wallet0) h x) /\ h = bytes_to_hex b /\ forall spks, ~ Standard x b spks.
Proof.
  intros L. assert (SP : Spends (many n)) by (apply many_spends; lia). assert (K : @KeyOk toy wkey) by apply toy_key_ok.
  assert (SC : Forall (@SingleCoin toy wkey) (many n)) by (apply many_forall; [lia|]; intros i H; apply (wcoin_facts i 10000 H)).
  assert (SW : existsb u_is_segwit (many n) = false).
  { destruct (existsb u_is_segwit (many n)) eqn:Q; auto. apply existsb_exists in Q as (u & I & Q). unfold many in I. apply in_map_iff in I as (i & <- & _). discriminate Q. }
  assert (AV := many_available n wallet0 ltac:(lia)).
  destruct (@C82_single toy toy_ok _ _ toy_world toy_random_ok wkey one_out (Some 10000) None (Some (many n)) all_opts wallet0 (many n) _ (addr_of wkey) 10000 (wl_world wallet0) [25000]
    (wl_world wallet0) (wl_world wallet0) 0 [34; 0; 34] 10000 K own_toy AV) as (h & s' & E); auto.
  - destruct n; [lia|discriminate].
  - split; [apply many_forall; [lia|]; intros i H; change (u_amount (wcoin (addr_of wkey) "p2pkh" 1 i 10000)) with 10000; lia|].
    split; [apply many_forall; [lia|]; intros i H; apply (wcoin_facts i 10000 H)|]. rewrite many_amounts. unfold MAX_MONEY. lia.
  - constructor.
    + apply F_given. lia.
    + lia.
    + econstructor; [reflexivity|constructor].
    + repeat constructor.
    + eexists. reflexivity.
    + reflexivity.
    + rewrite SW. vm_compute. reflexivity.
    + constructor; [apply payable_b; vm_compute; reflexivity|]. constructor; [apply payable_b; vm_compute; reflexivity|constructor].
    + reflexivity.
    + exists [34], 34. split; [constructor; [apply outsize_b; vm_compute; reflexivity|constructor]|]. split; [apply outsize_b; vm_compute; reflexivity|reflexivity].
    + apply coin_fee_For. reflexivity.
    + rewrite many_amounts. change (S_Fee.total [25000]) with 25000. lia.
  - exists h, s'.
    destruct (@C50_create_single toy toy_ok _ _ toy_world toy_random_ok wkey one_out (Some 10000) None (Some (many n)) all_opts wallet0 h s' (many n) _ K I E AV (sp_id _ SP) (sp_once _ SP) SC)
      as (x & sel & f & w & F & Ak & _).
    assert (f = 10000 /\ w = wl_world wallet0) as [-> ->] by (inversion F as [|? ? ? ? [Q|Q] ?]; [split; auto|discriminate|discriminate]).
    pose proof Ak as (outs & sats & w1 & change & msgs & back & ((b & [Hb Ob] & _) & _) & _).
    exists x, b. split; auto. split; [eauto|]. split; auto. intros spks. eapply (C96_heavy _ _ _ _ _ _ _ _ _ _ Ak eq_refl); auto.
    unfold zlen, many. rewrite map_length, seq_length. lia.
Qed.
