(** sign_tx: what stays, which unspent is used, the signed transaction on the wire. *)
From Verif Require Export F_sign F_address F_redeem.

Section WithCrypto.
Context {CR : Crypto}.

(** ** What signing leaves alone; no assumption on the transaction *)
Definition frame_in (i i' : TxIn) : Prop :=
  txid i' = txid i /\ txindex i' = txindex i /\ sequence i' = sequence i /\ amount i' = amount i.

Lemma sign_tx_frame pk t us t' : sign_tx_obj pk t us = Ok t' ->
  exists d, build_dict pk us [] = Ok d /\
    version t' = version t /\ TxOuts t' = TxOuts t /\ locktime t' = locktime t /\
    Forall2 (fun i i' => frame_in i i' /\ (dict_get (outpoint i) d = None -> i' = i)) (TxIns t) (TxIns t').
Proof.
  intros E. unfold sign_tx_obj in E. apply bind_ok in E as (d & Ed & E). apply bind_ok in E as (stx & Es & E).
  apply bind_ok in E as (push & Ep & E). exists d. split; auto.
  pose proof (prepare_pointwise pk d (TxIns t) [] [] [] eq_refl) as PP. cbn [length app] in PP. rewrite PP in E. clear PP.
  destruct (mapM (prep pk d) (TxIns t)) as [r|e] eqn:Er; [|discriminate]. cbn [bind] in E.
  apply bind_ok in E as (pres & Epre & E). unfold calculate_preimages in Epre.
  apply bind_ok in Epre as (c1 & _ & Epre). apply bind_ok in Epre as (c2 & _ & Epre).
  apply bind_ok in E as (ins' & El & E). injection E as <-. cbn [version TxOuts locktime TxIns].
  repeat (split; auto). apply mapM_ok in Er.
  change (map p_in r) with ([] ++ map p_in r) in El at 1.
  apply (sign_loop_pointwise pk push stx (mkTx (version t) (map p_in r) (TxOuts t) (locktime t)) (map p_field r) r [] 0 pres ins' eq_refl) in El;
    [|intros j q Hq; rewrite nth_error_map; cbn [Nat.add]; rewrite Hq; reflexivity|exact Epre].
  destruct El as (suf & -> & F). cbn [app]. clear -Er F. revert r suf Er F. generalize 0%nat as n. generalize (TxIns t) as ins.
  generalize (mkTx (version t)) as mk. intros mk ins n r suf Er. revert n suf.
  set (T := mk _ _ _). clearbody T. clear mk.
  induction Er as [|i q ins r P Er IH]; intros n suf F; inversion F as [|? ? b ? m Hb F']; subst; constructor; eauto.
  unfold prep in P. unfold step2 in Hb. destruct (dict_get (outpoint i) d) as [u|] eqn:G.
  - split; [|discriminate].
    apply bind_ok in P as (c & _ & P). apply bind_ok in P as (l & _ & P).
    destruct (d_is_segwit u).
    + apply bind_ok in P as (a & _ & P). injection P as <-. cbn in Hb. destruct Hb as (h & ss & wit & l' & _ & _ & _ & ->). repeat split.
    + injection P as <-. cbn in Hb. destruct Hb as (h & ss & wit & l' & _ & _ & _ & ->). repeat split.
  - injection P as <-. cbn in Hb. subst b. split; auto. repeat split.
Qed.

(** ** Which unspent is used *)
Definition UnspentOutpoint (u : Unspent) (op : bytes) : Prop :=
  exists t x, hex_to_bytes (u_txid u) = Ok t /\ to_bytes_le (u_txindex u) 4 = Ok x /\ op = rev t ++ x.
Definition signable (pk : signer) (op : bytes) (u : Unspent) : Prop := sg_can_sign pk u = Ok true /\ UnspentOutpoint u op.
Definition LastMatch (pk : signer) (us : list Unspent) (op : bytes) (u : Unspent) : Prop :=
  exists l1 l2, us = l1 ++ u :: l2 /\ signable pk op u /\ Forall (fun v => ~ signable pk op v) l2.
Definition NoMatch (pk : signer) (us : list Unspent) (op : bytes) : Prop := Forall (fun v => ~ signable pk op v) us.

Lemma UnspentOutpoint_fun u a b : UnspentOutpoint u a -> UnspentOutpoint u b -> a = b.
Proof. intros (t & x & H1 & H2 & ->) (t' & x' & H1' & H2' & ->). congruence. Qed.

Lemma build_dict_spec pk us : forall d0 d, build_dict pk us d0 = Ok d -> forall op,
  (forall w, dict_get op d = Some w ->
     (exists u, LastMatch pk us op u /\ w = to_dict u) \/ (NoMatch pk us op /\ dict_get op d0 = Some w)) /\
  (dict_get op d = None -> NoMatch pk us op /\ dict_get op d0 = None).
Proof.
  induction us as [|u us IH]; intros d0 d E op; cbn [build_dict] in E.
  - injection E as <-. split; [right|]; split; auto; constructor.
  - apply bind_ok in E as (c & Ec & E). destruct c; cbn [negb] in E.
    + apply bind_ok in E as (t & Et & E). apply bind_ok in E as (x & Ex & E).
      assert (UO : UnspentOutpoint u (rev t ++ x)) by (exists t, x; auto).
      destruct (IH _ _ E op) as [I1 I2]. cbn [dict_get] in I1, I2. split.
      * intros w Hw. destruct (I1 w Hw) as [(v & (l1 & l2 & -> & S & F) & ->)|[N Hd]].
        -- left. exists v. split; auto. exists (u :: l1), l2. auto.
        -- destruct (list_eqb (rev t ++ x) op) eqn:Q.
           ++ apply list_eqb_eq in Q. subst op. injection Hd as <-. left. exists u. split; auto. exists [], us. split; auto. split; auto. split; auto.
           ++ right. split; auto. constructor; auto. intros [_ UO']. apply list_eqb_neq in Q. apply Q. eapply UnspentOutpoint_fun; eauto.
      * intros Hn. destruct (I2 Hn) as [N Hd]. destruct (list_eqb (rev t ++ x) op) eqn:Q; [discriminate|].
        split; auto. constructor; auto. intros [_ UO']. apply list_eqb_neq in Q. apply Q. eapply UnspentOutpoint_fun; eauto.
    + destruct (IH _ _ E op) as [I1 I2]. assert (NS : ~ signable pk op u) by (intros [C _]; congruence). split.
      * intros w Hw. destruct (I1 w Hw) as [(v & (l1 & l2 & -> & S & F) & ->)|[N Hd]].
        -- left. exists v. split; auto. exists (u :: l1), l2. auto.
        -- right. split; auto. constructor; auto.
      * intros Hn. destruct (I2 Hn) as [N Hd]. split; auto. constructor; auto.
Qed.

Lemma LastMatch_not_NoMatch pk us op u : LastMatch pk us op u -> NoMatch pk us op -> False.
Proof.
  intros (l1 & l2 & -> & S & _) N. unfold NoMatch in N. apply Forall_app in N as [_ N]. apply Forall_cons_iff in N as [N _]. auto.
Qed.
Lemma LastMatch_fun pk us op u v : LastMatch pk us op u -> LastMatch pk us op v -> u = v.
Proof.
  intros (l1 & l2 & -> & S & F) (l1' & l2' & E & S' & F'). revert l1' E. induction l1 as [|a l1 IH]; intros [|b l1'] E; cbn in E.
  - congruence.
  - injection E as -> ->. exfalso. apply Forall_app in F as [_ F]. apply Forall_cons_iff in F as [F _]. auto.
  - injection E as -> <-. exfalso. apply Forall_app in F' as [_ F']. apply Forall_cons_iff in F' as [F' _]. auto.
  - injection E as -> E. eauto.
Qed.

Lemma dict_match pk us d op : build_dict pk us [] = Ok d ->
  (forall u, LastMatch pk us op u -> dict_get op d = Some (to_dict u)) /\ (NoMatch pk us op -> dict_get op d = None) /\
  (forall w, dict_get op d = Some w -> exists u, LastMatch pk us op u /\ w = to_dict u) /\
  (dict_get op d = None -> NoMatch pk us op).
Proof.
  intros E. destruct (build_dict_spec pk us [] d E op) as [I1 I2]. split; [|split; [|split]].
  - intros u L. destruct (dict_get op d) as [w|] eqn:G.
    + destruct (I1 w eq_refl) as [(v & L' & ->)|[_ C]]; [|discriminate]. rewrite (LastMatch_fun _ _ _ _ _ L L'). reflexivity.
    + destruct (I2 eq_refl) as [N _]. exfalso. eapply LastMatch_not_NoMatch; eauto.
  - intros N. destruct (dict_get op d) as [w|] eqn:G; auto.
    destruct (I1 w eq_refl) as [(v & L' & ->)|[_ C]]; [|discriminate]. exfalso. eapply LastMatch_not_NoMatch; eauto.
  - intros w G. destruct (I1 w G) as [(v & L' & ->)|[_ C]]; [eauto|discriminate].
  - intros G. apply I2; auto.
Qed.

Lemma build_dict_total pk us : Forall (fun u => exists b, sg_can_sign pk u = Ok b) us ->
  Forall (fun u => exists op, UnspentOutpoint u op) us -> forall d0, exists d, build_dict pk us d0 = Ok d.
Proof.
  induction 1 as [|u us (b & Hb) F IH]; intros U d0; cbn [build_dict]; [eexists; reflexivity|].
  apply Forall_cons_iff in U as [(op & t & x & H1 & H2 & _) U]. rewrite Hb. cbn [bind]. destruct b; cbn [negb]; [|auto].
  rewrite H1, H2. cbn [bind]. auto.
Qed.

(** The outpoint of an input and of an unspent, in terms of the wire transaction. *)
Definition SpendsOutpoint (xi : tin) (u : Unspent) : Prop :=
  hex_to_bytes (u_txid u) = Ok (rev (i_txid xi)) /\ u_txindex u = i_vout xi.
Lemma spends_outpoint xi i u : RepIn xi i -> (UnspentOutpoint u (outpoint i) <-> SpendsOutpoint xi u).
Proof.
  intros [H1 H2 H2' H3 H4 H4' H5 H6]. unfold outpoint. split.
  - intros (t & x & Ht & Hx & E). apply to_bytes_le_ok in Hx as [Hx ->].
    assert (L : LEnum 4 (u_txindex u) (le_bytes 4 (u_txindex u))) by (apply LEnum_le_bytes; auto).
    assert (LL : length (rev t) = length (txid i)).
    { apply (f_equal (@length Z)) in E. rewrite !app_length, (LEnum_length _ _ _ L), (LEnum_length _ _ _ H3) in E. lia. }
    destruct (app_len_inj _ _ _ _ (eq_sym LL) E) as [E1 E2]. split.
    + rewrite Ht. f_equal. rewrite <- H1, E1, rev_involutive. reflexivity.
    + rewrite <- E2 in L. eapply LEnum_inj; eauto.
  - intros [Ht Hx]. exists (rev (i_txid xi)), (txindex i). split; auto. rewrite Hx. split.
    + pose proof (LEnum_range _ _ _ H3) as Rg. rewrite to_bytes_le_ok' by exact Rg. f_equal. eapply LEnum_fun; eauto. apply LEnum_le_bytes. auto.
    + rewrite rev_involutive, H1. reflexivity.
Qed.

(** ** Uniform transactions: as TxObj(...) and deserialize make them *)
Definition all_wit (t : TxObj) : Prop := Forall (fun i => witness i <> []) (TxIns t).
Definition no_wits (t : TxObj) : Prop := Forall (fun i => witness i = []) (TxIns t).

Lemma new_tx_full v ins outs l : Forall (fun i => witness i <> []) ins -> new_tx v ins outs l = mkTx v ins outs l.
Proof.
  intros F. destruct (seg_ins ins) eqn:S; [|apply new_tx_legacy; auto]. rewrite new_tx_seg by auto. f_equal.
  rewrite <- (map_id ins) at 2. apply map_ext_in. intros i Hi. rewrite Forall_forall in F. specialize (F i Hi).
  unfold fill, set_witness. destruct i as [ss sl ti tx w am sq sg]; cbn in *. destruct w; [contradiction|reflexivity].
Qed.
Lemma all_wit_seg ins : ins <> [] -> Forall (fun i => witness i <> []) ins -> seg_ins ins = true.
Proof.
  intros NE F. destruct ins as [|i r]; [contradiction|]. apply Forall_cons_iff in F as [F _]. unfold seg_ins. cbn [existsb].
  unfold in_is_segwit at 1. destruct (witness i); [contradiction|]. cbn [list_eqb negb]. rewrite orb_true_r. reflexivity.
Qed.
Lemma no_wits_concat ins : Forall (fun i => witness i = []) ins -> concat (map witness ins) = [].
Proof. induction 1 as [|i r H F IH]; cbn [map concat]; auto. rewrite H, IH. reflexivity. Qed.
Lemma no_wits_bytes t : no_wits t -> tx_bytes t = legacy_repr t.
Proof.
  intros H. unfold tx_bytes, legacy_repr. rewrite (no_wits_concat _ H). reflexivity.
Qed.

Lemma obj_bytes x t : RepObj x t -> TxIns t <> [] -> all_wit t \/ no_wits t ->
  exists b, tx_bytes t = Ok b /\
    (all_wit t -> EncSegwit x b /\ is_segwit_bytes b = true) /\ (no_wits t -> EncLegacy x b /\ is_segwit_bytes b = false).
Proof.
  intros [R] NE [W|W].
  - destruct (tx_bytes_spec _ _ _ _ _ R) as (b & E & S). rewrite new_tx_full in E by auto. rewrite (all_wit_seg _ NE W) in S.
    destruct t as [v ins outs l]. cbn [version TxIns TxOuts locktime] in *. exists b. split; auto. split.
    + intros _. split; auto. destruct S as (v' & i & o & w & l' & Hv & Hi & Ho & Hw & Hl & ->). apply is_segwit_marker. eapply LEnum_length; eauto.
    + intros N. exfalso. unfold all_wit, no_wits in *. cbn in *. destruct ins as [|i r]; [contradiction|]. apply Forall_cons_iff in N as [N _]. apply Forall_cons_iff in W as [W _]. auto.
  - destruct (legacy_repr_spec _ _ _ _ _ R) as (b & E & S). destruct t as [v ins outs l]. cbn [version TxIns TxOuts locktime] in *.
    exists b. rewrite no_wits_bytes by auto. split; auto. split.
    + intros N. exfalso. unfold all_wit, no_wits in *. cbn in *. destruct ins as [|i r]; [contradiction|]. apply Forall_cons_iff in N as [N _]. apply Forall_cons_iff in W as [W _]. auto.
    + intros _. split; auto. destruct R as [H1 H2 H3 H4 H5 H6 H7].
      destruct S as (v' & i & o & l' & Hv & (n & c & Hn & Sq & ->) & Ho & Hl & ->). rewrite <- !app_assoc.
      eapply is_segwit_cs; [eapply LEnum_length; eauto|exact Hn|]. rewrite (F2_len _ _ _ H2). destruct ins; [contradiction|]. cbn. lia.
Qed.
Lemma obj_segwit x t : RepObj x t -> TxIns t <> [] -> (all_wit t -> tx_is_segwit t = Ok true) /\ (no_wits t -> tx_is_segwit t = Ok false).
Proof.
  intros R NE. split; intros W; unfold tx_is_segwit.
  - destruct (obj_bytes x t R NE (or_introl W)) as (b & -> & H & _). cbn [rmap]. rewrite (proj2 (H W)). reflexivity.
  - destruct (obj_bytes x t R NE (or_intror W)) as (b & -> & _ & H). cbn [rmap]. rewrite (proj2 (H W)). reflexivity.
Qed.
Lemma obj_bytes_ok x t b : RepObj x t -> TxIns t <> [] -> all_wit t \/ no_wits t -> tx_bytes t = Ok b -> bytes_ok b = true.
Proof.
  intros R NE W E. destruct (obj_bytes x t R NE W) as (b' & E' & H1 & H2). rewrite E in E'. injection E' as <-.
  pose proof R as [R']. apply Rep_content in R'. destruct W as [W|W].
  - eapply EncSegwit_ok; eauto. apply H1; auto.
  - eapply EncLegacy_ok; eauto. apply H2; auto.
Qed.

(** Sending the hex string on to the next co-signer. *)
Lemma obj_roundtrip x t : RepObj x t -> TxIns t <> [] -> all_wit t \/ no_wits t ->
  exists h, to_hex t = Ok h /\ deserialize_hex h = Ok (mkTx (version t) (map known_in (TxIns t)) (TxOuts t) (locktime t)).
Proof.
  intros R NE W. destruct (obj_bytes x t R NE W) as (b & E & _). exists (bytes_to_hex b). unfold to_hex. rewrite E. split; [reflexivity|].
  rewrite deserialize_hex_bytes by (eapply obj_bytes_ok; eauto).
  pose proof R as [R']. destruct W as [W|W].
  - destruct (roundtrip_bytes x _ _ _ _ [] R' (or_introl NE)) as (b' & E' & D). rewrite new_tx_full in E', D by auto.
    destruct t as [v ins outs l]. cbn [version TxIns TxOuts locktime] in *. rewrite E in E'. injection E' as <-. rewrite app_nil_r in D. auto.
  - (* drop the flags: same bytes *)
    set (t0 := mkTx (version t) (map clear_in (TxIns t)) (TxOuts t) (locktime t)).
    assert (S0 : seg_ins (map clear_in (TxIns t)) = false) by (unfold seg_ins; clear; induction (TxIns t); auto).
    assert (R0 : Rep (strip_witness x) (version t) (map clear_in (TxIns t)) (TxOuts t) (locktime t)).
    { destruct R' as [H1 H2 H3 H4 H5 H6 H7]. constructor; auto.
      - cbn [strip_witness t_ins]. clear -H2. induction H2 as [|? ? ? ? [? ? ? ? ? ? ? ?]]; cbn [map]; constructor; auto. constructor; auto.
      - cbn [strip_witness t_ins]. clear -H2. induction H2; cbn [map]; constructor; auto. split; [constructor|left; auto].
      - unfold zlen in *. rewrite map_length. auto. }
    assert (NE0 : map clear_in (TxIns t) <> []) by (clear -NE; destruct (TxIns t); [contradiction|discriminate]).
    destruct (roundtrip_bytes _ _ _ _ _ [] R0 (or_introl NE0)) as (b' & E' & D).
    rewrite new_tx_legacy in E', D by auto. rewrite app_nil_r in D.
    assert (tx_bytes t = tx_bytes t0) as Q.
    { rewrite no_wits_bytes by auto. rewrite no_wits_bytes by (unfold no_wits, t0; cbn; clear; induction (TxIns t); constructor; auto).
      unfold t0, legacy_repr. cbn [TxIns TxOuts version locktime]. unfold zlen. rewrite map_length, map_map. reflexivity. }
    fold t0 in E'. rewrite Q, E' in E. injection E as <-. rewrite D. do 2 f_equal. cbn [TxIns]. rewrite map_map.
    apply map_ext_in. intros i Hi. unfold no_wits in W. rewrite Forall_forall in W. specialize (W i Hi).
    unfold known_in, clear_in. cbn. rewrite W. reflexivity.
Qed.

Lemma known_rep x t : RepObj x t -> RepObj x (mkTx (version t) (map known_in (TxIns t)) (TxOuts t) (locktime t)).
Proof.
  intros [[H1 H2 H3 H4 H5 H6 H7]]. constructor. cbn [version TxIns TxOuts locktime]. constructor; auto.
  - clear -H2. induction H2 as [|? ? ? ? [? ? ? ? ? ? ? ?]]; cbn [map]; constructor; auto. constructor; auto.
  - clear -H3. induction H3; cbn [map]; constructor; auto.
  - unfold zlen in *. rewrite map_length. auto.
Qed.

(** ** Keys: scripts and ownership *)
Definition p2pkh_script (pub : bytes) : bytes := [0x76; 0xa9; 0x14] ++ hash160 pub ++ [0x88; 0xac].
Definition p2sh_script (redeem : bytes) : bytes := [0xa9; 0x14] ++ hash160 redeem ++ [0x87].

Context (HO : HashOk CR).

Lemma h160_len b : length (hash160 b) = 20%nat. Proof. apply (ripemd160_len _ HO). Qed.
Lemma h160_ok b : bytes_ok (hash160 b) = true. Proof. apply bytes_ok_Forall, (ripemd160_byte _ HO). Qed.

Lemma b58_script v h n s : In v (match n with Main => main_vers | Test => test_vers end) ->
  bytes_ok h = true -> length h = 20%nat -> (exists x, In x (v :: h) /\ x <> 0) ->
  address_to_scriptpubkey (b58encode_check (v :: h)) = Ok s ->
  s = Some (if in_listb [v] [MAIN_PUBKEY_HASH; TEST_PUBKEY_HASH]
            then OP_DUP ++ OP_HASH160 ++ OP_PUSH_20 ++ h ++ OP_EQUALVERIFY ++ OP_CHECKSIG
            else OP_HASH160 ++ OP_PUSH_20 ++ h ++ OP_EQUAL).
Proof.
  intros Hv Hh Hl Hx E. destruct (address_exact HO v h n Hv Hh Hl Hx) as [A B]. cbv zeta in *.
  destruct (bech32_decode (b58encode_check (v :: h))) eqn:D.
  - destruct (B ltac:(discriminate)) as [_ C]. congruence.
  - destruct (A eq_refl) as (_ & _ & C). congruence.
Qed.

Definition nonzero_hash (pub : bytes) : Prop := exists b, In b (hash160 pub) /\ b <> 0.

Lemma key_address_script k a s : nonzero_hash (k_public_key k) -> key_address k = Ok a -> address_to_scriptpubkey a = Ok s ->
  s = Some (p2pkh_script (k_public_key k)).
Proof.
  intros (b & Hb & Nz) E S. unfold key_address, public_key_to_address in E. destruct ((zlen _ =? 33) || (zlen _ =? 65)); [|discriminate].
  cbn [negb] in E. injection E as <-. fold (hash160 (k_public_key k)) in *.
  destruct (k_version k).
  - refine (b58_script 0 _ Main s _ (h160_ok _) (h160_len _) _ S); [simpl; auto|]. exists b. split; auto. right. auto.
  - refine (b58_script 111 _ Test s _ (h160_ok _) (h160_len _) _ S); [simpl; auto|]. exists b. split; auto. right. auto.
Qed.

Lemma key_scriptcode_eq k code : nonzero_hash (k_public_key k) -> key_scriptcode k = Ok code -> code = p2pkh_script (k_public_key k).
Proof.
  intros N E. unfold key_scriptcode in E. apply bind_ok in E as (a & Ea & E). unfold some_script in E. apply bind_ok in E as (s & Es & E).
  rewrite (key_address_script k a s N Ea Es) in E. injection E as <-. reflexivity.
Qed.

Lemma b58_p2sh n redeem s :
  address_to_scriptpubkey (b58encode_check ((match n with Test => TEST_SCRIPT_HASH | Main => MAIN_SCRIPT_HASH end) ++ ripemd160_sha256 redeem)) = Ok s ->
  s = Some (p2sh_script redeem).
Proof.
  intros S. fold (hash160 redeem) in S. destruct n.
  - refine (b58_script 5 _ Main s _ (h160_ok _) (h160_len _) _ S); [simpl; auto|]. exists 5. split; [left; auto|lia].
  - refine (b58_script 196 _ Test s _ (h160_ok _) (h160_len _) _ S); [simpl; auto|]. exists 196. split; [left; auto|lia].
Qed.

Lemma script_hex_eq a s : script_hex a = Ok s -> exists b, address_to_scriptpubkey a = Ok (Some b) /\ s = bytes_to_hex b.
Proof. unfold script_hex. intros E. apply bind_ok in E as (o & Eo & E). destruct o as [b|]; [|discriminate]. injection E as <-. eauto. Qed.

(** Outputs a key owns: pay to its hash, or (compressed keys) to its nested segwit program. *)
Definition OwnedScript (pub script : bytes) : Prop :=
  script = p2pkh_script pub \/ (length pub = 33%nat /\ script = p2sh_script ([0x00; 0x14] ++ hash160 pub)).
Definition OwnedBy (pub : bytes) (u : Unspent) : Prop := exists s, OwnedScript pub s /\ u_script u = bytes_to_hex s.

Lemma can_sign_single k u b : nonzero_hash (k_public_key k) -> sg_can_sign (Single k) u = Ok b ->
  (b = true <-> OwnedBy (k_public_key k) u).
Proof.
  intros N E. cbn [sg_can_sign] in E. unfold can_sign in E. apply bind_ok in E as (a & Ea & E). apply bind_ok in E as (s & Es & E).
  apply script_hex_eq in Es as (sb & Es & ->). apply (key_address_script k a _ N Ea) in Es. injection Es as ->.
  unfold key_segwit_address, key_is_compressed in E. destruct (zlen (k_public_key k) =? 33) eqn:C.
  - unfold public_key_to_segwit_address in E. rewrite C in E. cbn [negb rmap bind] in E. apply bind_ok in E as (s2 & Es2 & E).
    apply script_hex_eq in Es2 as (sb & Es2 & ->).
    apply b58_p2sh in Es2. injection Es2 as ->. injection E as <-. rewrite orb_true_iff, !list_eqb_eq. unfold zlen in C. split.
    + intros [H|H]; [exists (p2pkh_script (k_public_key k)); split; [left; auto|auto]|].
      eexists. split; [right; split; [lia|reflexivity]|exact H].
    + intros (s & [->|[_ ->]] & H); auto.
  - cbn [bind] in E. injection E as <-. rewrite list_eqb_eq. unfold zlen in C. split.
    + intros H. exists (p2pkh_script (k_public_key k)). split; [left; auto|auto].
    + intros (s & [->|[L _]] & H); [auto|lia].
Qed.

(** Multisig wallets: the redeem script is that of the keys (as the constructor makes it). *)
Definition MsOk (ms : MultiSig) : Prop := multisig_to_redeemscript (ms_public_keys ms) (ms_m ms) = Ok (ms_redeemscript ms).
Definition OwnedByMulti (ms : MultiSig) (u : Unspent) : Prop :=
  u_script u = bytes_to_hex (p2sh_script (ms_redeemscript ms)) \/
  (Forall (fun p => length p = 33%nat) (ms_public_keys ms) /\
   u_script u = bytes_to_hex (p2sh_script ([0x00; 0x20] ++ sha256 (ms_redeemscript ms)))).

Lemma can_sign_multi ms u b : MsOk ms -> sg_can_sign (Multi ms) u = Ok b -> (b = true <-> OwnedByMulti ms u).
Proof.
  intros N E. cbn [sg_can_sign] in E. unfold can_sign in E. apply bind_ok in E as (a & Ea & E). apply bind_ok in E as (s & Es & E).
  unfold ms_address, multisig_to_address in Ea. rewrite N in Ea. cbn [bind] in Ea. injection Ea as <-.
  apply script_hex_eq in Es as (sb & Es & ->). apply b58_p2sh in Es. injection Es as ->.
  unfold ms_segwit_address in E. destruct (ms_is_compressed ms) eqn:C.
  - unfold multisig_to_segwit_address in E. rewrite N in E. cbn [rmap bind] in E. apply bind_ok in E as (s2 & Es2 & E).
    apply script_hex_eq in Es2 as (sb & Es2 & ->). apply b58_p2sh in Es2. injection Es2 as ->. injection E as <-.
    rewrite orb_true_iff, !list_eqb_eq. unfold OwnedByMulti.
    assert (Forall (fun p => length p = 33%nat) (ms_public_keys ms)).
    { unfold ms_is_compressed in C. rewrite forallb_forall in C. rewrite Forall_forall. intros p Hp. specialize (C p Hp). unfold zlen in C. lia. }
    tauto.
  - cbn [bind] in E. injection E as <-. rewrite list_eqb_eq. unfold OwnedByMulti. split; auto. intros [H|[F _]]; auto.
    exfalso. assert (ms_is_compressed ms = true) as C'.
    { unfold ms_is_compressed. rewrite forallb_forall. rewrite Forall_forall in F. intros p Hp. specialize (F p Hp). unfold zlen. lia. }
    congruence.
Qed.

Lemma d_is_segwit_to_dict u : d_is_segwit (to_dict u) = u_is_segwit u.
Proof. unfold d_is_segwit, to_dict, u_is_segwit. reflexivity. Qed.
Lemma d_amount_to_dict u : d_amount (to_dict u) = u_amount u.
Proof. reflexivity. Qed.

(** ** Collecting the abstract result *)
Lemma sign_rep (P : nat -> tin -> tin -> Prop) x t t' : RepObj x t ->
  version t' = version t -> TxOuts t' = TxOuts t -> locktime t' = locktime t -> length (TxIns t') = length (TxIns t) ->
  (forall j xi i i', nth_error (t_ins x) j = Some xi -> nth_error (TxIns t) j = Some i -> nth_error (TxIns t') j = Some i' ->
     RepIn xi i -> RepWit xi i ->
     exists xi', P j xi xi' /\ RepIn xi' i' /\ RepWit xi' i' /\ in_skel xi' = in_skel xi) ->
  exists x', RepObj x' t' /\ same_skeleton x x' /\ F2i P 0 (t_ins x) (t_ins x').
Proof.
  intros [[H1 H2 H3 H4 H5 H6 H7]] Ev Eo El L Q.
  assert (G : exists xs', F2i P 0 (t_ins x) xs' /\ Forall2 RepIn xs' (TxIns t') /\ Forall2 RepWit xs' (TxIns t') /\ map in_skel (t_ins x) = map in_skel xs').
  { revert Q. replace (forall j xi i i', nth_error (t_ins x) j = Some xi -> nth_error (TxIns t) j = Some i -> nth_error (TxIns t') j = Some i' ->
      RepIn xi i -> RepWit xi i -> exists xi', P j xi xi' /\ RepIn xi' i' /\ RepWit xi' i' /\ in_skel xi' = in_skel xi)
    with (forall j xi i i', nth_error (t_ins x) j = Some xi -> nth_error (TxIns t) j = Some i -> nth_error (TxIns t') j = Some i' ->
      RepIn xi i -> RepWit xi i -> exists xi', P (0 + j)%nat xi xi' /\ RepIn xi' i' /\ RepWit xi' i' /\ in_skel xi' = in_skel xi) by reflexivity.
    generalize 0%nat as n. clear -H2 H3 L. revert L H2 H3. generalize (TxIns t') as c. generalize (TxIns t) as b. generalize (t_ins x) as a.
    intros a b c L F2. revert c L. induction F2 as [|xi i xs is R F2 IH]; intros c L W n Q.
    - destruct c; [|discriminate]. exists []. repeat split; constructor.
    - destruct c as [|i' c]; [discriminate|]. inversion W as [|? ? ? ? Wi Ws]; subst.
      destruct (Q 0%nat xi i i' eq_refl eq_refl eq_refl R Wi) as (xi' & Pi & Ri & Wi' & Si). rewrite Nat.add_0_r in Pi.
      destruct (IH c ltac:(cbn in L; lia) Ws (S n)) as (xs' & A & B & C & D).
      { intros j yi k k' Y1 Y2 Y3 Y4 Y5. destruct (Q (S j) yi k k' Y1 Y2 Y3 Y4 Y5) as (yi' & Z1 & Z2 & Z3 & Z4).
        exists yi'. replace (S n + j)%nat with (n + S j)%nat by lia. auto. }
      exists (xi' :: xs'). split; [constructor; auto|]. split; [constructor; auto|]. split; [constructor; auto|]. cbn [map]. rewrite Si, D. reflexivity. }
  destruct G as (xs' & A & B & C & D). exists (Tx (t_ver x) xs' (t_outs x) (t_lock x)). split; [|split; auto].
  - constructor. rewrite Ev, Eo, El. constructor; auto. unfold zlen in *. rewrite L. auto.
  - split; auto.
Qed.

(** ** One single-key input *)
Record KeyOk (k : PrivateKey) : Prop := {
  ko_len : length (k_public_key k) = 33%nat \/ length (k_public_key k) = 65%nat;
  ko_ok : bytes_ok (k_public_key k) = true;
  ko_hash : nonzero_hash (k_public_key k);
  ko_sig_ok : forall m, bytes_ok (ec_sign (k_secret k) m) = true;
  ko_sig_len : forall m, (length (ec_sign (k_secret k) m) <= 72)%nat;
  ko_verify : forall m, ec_verify (ec_sign (k_secret k) m) m (k_public_key k) = Ok true
}.

Lemma sign_single_ok k hash seg stx : KeyOk k ->
  let sig := ec_sign (k_secret k) hash ++ [0x01] in
  sign_single k [zlen (k_public_key k)] hash seg stx =
  Ok (if seg : bool then [22; 0; 20] ++ hash160 (k_public_key k) else zlen sig :: sig ++ zlen (k_public_key k) :: k_public_key k,
      if seg then 2 :: zlen sig :: sig ++ zlen (k_public_key k) :: k_public_key k else if stx : bool then [0] else []).
Proof.
  intros [H1 H2 H3 H4 H5 H6] sig. unfold sign_single. fold sig. specialize (H5 hash).
  assert (Ls : 0 <= zlen sig <= 73) by (unfold sig; rewrite zlen_app; unfold zlen; cbn [length]; lia).
  rewrite to_bytes_le_ok' by (change (256 ^ Z.of_nat 1) with 256; lia). cbn [bind]. f_equal.
  cbn [le_bytes]. rewrite Z.mod_small by lia. destruct seg; reflexivity.
Qed.

Lemma enc_stack2 a b : (length a <= 75)%nat -> (length b <= 75)%nat -> EncStack [a; b] (2 :: zlen a :: a ++ zlen b :: b).
Proof.
  intros A B. exists [2], (zlen a :: a ++ zlen b :: b). split; [constructor; cbn; lia|]. split; [|reflexivity].
  change (zlen a :: a ++ zlen b :: b) with ((zlen a :: a) ++ (zlen b :: b)). constructor.
  - exists [zlen a]. split; [constructor; unfold zlen; lia|reflexivity].
  - rewrite <- (app_nil_r (zlen b :: b)). constructor; [|constructor]. exists [zlen b]. split; [constructor; unfold zlen; lia|reflexivity].
Qed.

End WithCrypto.
