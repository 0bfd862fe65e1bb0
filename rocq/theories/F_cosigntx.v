(** Co-signers signing a whole transaction, one after the other. *)
From Verif Require Export F_msstep.

Section WithCrypto.
Context {CR : Crypto} (HO : HashOk CR).

(** ** An error at an input *)
Lemma sign_loop_raise pk push stx T field er r : forall pre n pres, n = length pre ->
  (forall j q, nth_error r j = Some q -> nth_error field (n + j) = Some (p_field q)) ->
  mapM (preimage_of T) (poss n (map p_flag r)) = Ok pres ->
  (forall j q seg h, nth_error r j = Some q -> p_flag q = Some seg -> preimage_of T ((n + j)%nat, HASH_TYPE, seg) = Ok h ->
     (exists ss wit l, sign_one pk push h (p_field q) seg stx = Ok (ss, wit) /\ int_to_varint (zlen ss) = Ok l) \/
     sign_one pk push h (p_field q) seg stx = Raise er) ->
  (exists j q seg, nth_error r j = Some q /\ p_flag q = Some seg /\
     forall h, preimage_of T ((n + j)%nat, HASH_TYPE, seg) = Ok h -> sign_one pk push h (p_field q) seg stx = Raise er) ->
  sign_loop pk push stx field (combine pres (poss n (map p_flag r))) (pre ++ map p_in r) = Raise er.
Proof.
  induction r as [|q r IH]; intros pre n pres Hn HF HP HA HE.
  - destruct HE as (j & q & seg & H & _). destruct j; discriminate.
  - assert (HF' : forall j q0, nth_error r j = Some q0 -> nth_error field (S n + j) = Some (p_field q0)).
    { intros j q0 H. specialize (HF (S j) q0 H). replace (S n + j)%nat with (n + S j)%nat by lia. auto. }
    assert (HA' : forall j q0 seg h, nth_error r j = Some q0 -> p_flag q0 = Some seg -> preimage_of T ((S n + j)%nat, HASH_TYPE, seg) = Ok h ->
     (exists ss wit l, sign_one pk push h (p_field q0) seg stx = Ok (ss, wit) /\ int_to_varint (zlen ss) = Ok l) \/
     sign_one pk push h (p_field q0) seg stx = Raise er).
    { intros j q0 seg h H1 H2 H3. replace (S n + j)%nat with (n + S j)%nat in H3 by lia. apply (HA (S j) q0 seg h); auto. }
    assert (HE' : (exists j q0 seg, nth_error r j = Some q0 /\ p_flag q0 = Some seg /\
       forall h, preimage_of T ((S n + j)%nat, HASH_TYPE, seg) = Ok h -> sign_one pk push h (p_field q0) seg stx = Raise er) \/
       (exists seg, p_flag q = Some seg /\ forall h, preimage_of T (n, HASH_TYPE, seg) = Ok h -> sign_one pk push h (p_field q) seg stx = Raise er)).
    { destruct HE as (j & q0 & seg & H1 & H2 & H3). destruct j as [|j].
      - right. cbn in H1. injection H1 as <-. rewrite Nat.add_0_r in H3. eauto.
      - left. exists j, q0, seg. replace (S n + j)%nat with (n + S j)%nat by lia. auto. }
    clear HE. specialize (HF 0%nat q eq_refl). rewrite Nat.add_0_r in HF.
    cbn [map poss] in *. destruct (p_flag q) as [seg|] eqn:Fl.
    + cbn [mapM] in HP. apply bind_ok in HP as (h & Hh & HP). apply bind_ok in HP as (hs & Hhs & HP). injection HP as <-.
      cbn [combine sign_loop]. unfold nth_in. subst n. rewrite nth_app. cbn [bind].
      replace (match pk with
               | Single k => sign_single k push h seg stx
               | Multi ms => match nth_error field (length pre) with
                             | Some f => sign_multi ms h f seg stx
                             | None => Raise IndexError
                             end
               end) with (sign_one pk push h (p_field q) seg stx) by (unfold sign_one; rewrite HF; destruct pk; reflexivity).
      specialize (HA 0%nat q seg h eq_refl Fl). rewrite Nat.add_0_r in HA. destruct (HA Hh) as [(ss & wit & l & E1 & E2)|E1]; [|rewrite E1; reflexivity].
      rewrite E1. cbn [bind]. rewrite E2. cbn [bind]. rewrite upd_app. fold (set_signed (p_in q) ss l wit seg). rewrite (snoc_app pre _ (map p_in r)).
      rewrite <- (snoc_len pre (set_signed (p_in q) ss l wit seg)) in Hhs, HF', HA', HE' |- *.
      apply (IH _ _ hs eq_refl HF' Hhs HA'). destruct HE' as [HE'|(seg' & Q & H)]; [exact HE'|]. injection Q as <-. rewrite (H h Hh) in E1. discriminate.
    + rewrite (snoc_app pre). subst n. rewrite <- (snoc_len pre (p_in q)) in *. apply (IH _ _ pres eq_refl HF' HP HA').
      destruct HE' as [HE'|(seg' & Q & H)]; [exact HE'|discriminate].
Qed.

(** If signing fails in some input with an error, and no input fails with another. *)
Lemma sign_tx_raise pk t us x d push stx code er : RepObj x t ->
  build_dict pk us [] = Ok d -> tx_is_segwit t = Ok stx -> script_push (zlen (sg_public_key pk)) = Ok push ->
  sg_scriptcode pk = Ok code -> zlen code < 2 ^ 64 ->
  (forall j i u, nth_error (TxIns t) j = Some i -> dict_get (outpoint i) d = Some u ->
     exists msg, SigMsg (d_is_segwit u) x j code (d_amount u) msg /\
     ((exists ss wit l, sign_one pk push (sha256 msg) (if d_is_segwit u then witness i else script_sig i) (d_is_segwit u) stx = Ok (ss, wit) /\
        int_to_varint (zlen ss) = Ok l) \/
      sign_one pk push (sha256 msg) (if d_is_segwit u then witness i else script_sig i) (d_is_segwit u) stx = Raise er)) ->
  (exists j i u, nth_error (TxIns t) j = Some i /\ dict_get (outpoint i) d = Some u /\
     forall msg, SigMsg (d_is_segwit u) x j code (d_amount u) msg ->
       sign_one pk push (sha256 msg) (if d_is_segwit u then witness i else script_sig i) (d_is_segwit u) stx = Raise er) ->
  sign_tx_obj pk t us = Raise er.
Proof.
  intros R Ed Es Ep Ec Lc HA HE. unfold sign_tx_obj. rewrite Ed. cbn [bind]. rewrite Es. cbn [bind]. rewrite Ep. cbn [bind].
  pose proof (prepare_pointwise pk d (TxIns t) [] [] [] eq_refl) as PP. cbn [length app] in PP. rewrite PP. clear PP.
  destruct (cs_exists code Lc) as (lc & Elc & _).
  assert (exists r, mapM (prep pk d) (TxIns t) = Ok r) as (r & Er).
  { assert (H : forall i u, In i (TxIns t) -> dict_get (outpoint i) d = Some u -> d_is_segwit u = true -> 0 <= d_amount u < 256 ^ Z.of_nat 8).
    { intros i u Hi G Sg. apply In_nth_error in Hi as (j & Hi). destruct (HA j i u Hi G) as (msg & M & _). rewrite Sg in M. cbn in M.
      destruct M as (i0 & v & pv & sq & op & sc & am & s & o & l1 & h & _ & _ & _ & _ & _ & _ & H7 & _). apply LEnum_range in H7. exact H7. }
    clear -H Ec Elc. induction (TxIns t) as [|a l IH]; [eexists; reflexivity|]. cbn [mapM].
    destruct IH as (r & IH); [intros i u Hi; apply H; right; auto|]. rewrite IH. unfold prep at 1.
    specialize (H a). destruct (dict_get (outpoint a) d) as [u|]; [|cbn [bind]; eexists; reflexivity].
    rewrite Ec. cbn [bind]. rewrite Elc. cbn [bind]. destruct (d_is_segwit u) eqn:Sg; [|eexists; reflexivity].
    rewrite to_bytes_le_ok' by (apply (H u); auto; left; auto). eexists. reflexivity. }
  rewrite Er. cbn [bind]. apply mapM_ok in Er.
  unfold calculate_preimages. cbn [TxIns TxOuts].
  pose proof R as [[H1 H2 H3 H4 H5 H6 H7]].
  destruct (cs_exists (TxIns t) H4) as (ni & Ei & _). destruct (cs_exists (TxOuts t) H6) as (no & Eo & _).
  replace (zlen (map p_in r)) with (zlen (TxIns t)) by (unfold zlen; rewrite map_length, (F2_len _ _ _ Er); auto).
  rewrite Ei, Eo. cbn [bind].
  set (T := mkTx (version t) (map p_in r) (TxOuts t) (locktime t)).
  destruct (mapM_preimages T (map p_flag r) 0) as (pres & Epre).
  { intros j seg E. rewrite nth_error_map in E. destruct (nth_error r j) as [q|] eqn:Hq; [|discriminate]. cbn in E. injection E as Fl.
    destruct (prepared_preimage pk d x t r j q seg R Er Hq Fl) as (i0 & u & code' & msg & _ & _ & _ & _ & _ & _ & Epr & _). eauto. }
  rewrite Epre. cbn [bind].
  assert (SL : sign_loop pk push stx (map p_field r) (combine pres (poss 0 (map p_flag r))) ([] ++ map p_in r) = Raise er).
  { apply (sign_loop_raise pk push stx T (map p_field r) er r [] 0 pres eq_refl);
      [intros j q Hq; rewrite nth_error_map; cbn [Nat.add]; rewrite Hq; reflexivity|exact Epre| |].
    - intros j q seg h Hq Fl Eh. cbn [Nat.add] in *.
      destruct (prepared_preimage pk d x t r j q seg R Er Hq Fl) as (i0 & u & code' & msg & Hi0 & G & -> & Ec' & Ef & _ & Epr & M).
      rewrite Ec in Ec'. injection Ec' as <-. destruct (HA j i0 u Hi0 G) as (msg' & M' & A). rewrite <- (SigMsg_fun _ _ _ _ _ _ _ M M') in A.
      fold T in Epr. rewrite Epr in Eh. injection Eh as <-. rewrite Ef. exact A.
    - destruct HE as (j & i & u & Hi & G & HE). destruct (F2_nth_l _ _ _ _ _ Er Hi) as (q & Hq & Pq).
      assert (Fl : p_flag q = Some (d_is_segwit u)).
      { unfold prep in Pq. rewrite G in Pq. apply bind_ok in Pq as (c & _ & Pq). apply bind_ok in Pq as (l & _ & Pq).
        destruct (d_is_segwit u); [apply bind_ok in Pq as (a & _ & Pq)|]; injection Pq as <-; reflexivity. }
      exists j, q, (d_is_segwit u). split; auto. split; auto. cbn [Nat.add]. intros h Eh.
      destruct (prepared_preimage pk d x t r j q _ R Er Hq Fl) as (i0 & u0 & code' & msg & Hi0 & G0 & _ & Ec' & Ef & _ & Epr & M).
      rewrite Hi in Hi0. injection Hi0 as <-. rewrite G in G0. injection G0 as <-. rewrite Ec in Ec'. injection Ec' as <-.
      fold T in Epr. rewrite Epr in Eh. injection Eh as <-. rewrite Ef. apply HE. exact M. }
  cbn [app] in SL. rewrite SL. reflexivity.
Qed.

(** ** The state of a transaction *)
(** Outputs that the wallets own, in terms of scripts. *)
Definition OwnE (e : Env) (u : Unspent) : Prop :=
  u_script u = bytes_to_hex (p2sh_script (e_redeem e)) \/
  (Forall (fun p => length p = 33%nat) (e_pubs e) /\ u_script u = bytes_to_hex (p2sh_script ([0x00; 0x20] ++ sha256 (e_redeem e)))).
Lemma OwnE_eq e k u b : EnvOk e -> sg_can_sign (Multi (wallet e k)) u = Ok b -> (b = true <-> OwnE e u).
Proof. intros O E. apply (can_sign_multi HO (wallet e k) u b); auto. unfold MsOk. cbn [wallet ms_public_keys ms_m ms_redeemscript]. apply (eo_redeem _ O). Qed.

(** The addresses can be made, outpoints and amounts of the unspents are in range. *)
Record Spendable (e : Env) (us : list Unspent) : Prop := {
  sp_can : forall k, Forall (fun u => exists b, sg_can_sign (Multi (wallet e k)) u = Ok b) us;
  sp_out : Forall (fun u => exists op, UnspentOutpoint u op) us;
  sp_amount : Forall (fun u => u_is_segwit u = true -> 0 <= u_amount u < 2 ^ 64) us
}.

(** Witnesses for all inputs (fmt true) or for none, now and after signing. *)
Definition UniF (fmt : bool) (e : Env) (us : list Unspent) (x : tx) (t : TxObj) : Prop :=
  if fmt then all_wit t \/ (no_wits t /\ forall xi, In xi (t_ins x) -> exists u, Match (OwnE e) us xi u /\ u_is_segwit u = true)
  else no_wits t /\ forall xi u, In xi (t_ins x) -> Match (OwnE e) us xi u -> u_is_segwit u = false.

Definition in_state (e : Env) (us : list Unspent) (x0 : tx) (ks : list PrivateKey) (j : nat) (x0i xi : tin) : Prop :=
  (Unmatched (OwnE e) us x0i -> xi = x0i) /\
  (forall u msg, Match (OwnE e) us x0i u -> SigMsg (u_is_segwit u) x0 j (e_redeem e) (u_amount u) msg -> InState e (u_is_segwit u) (sha256 msg) ks xi).
Record TxState (e : Env) (us : list Unspent) (fmt : bool) (x0 : tx) (ks : list PrivateKey) (x : tx) (t : TxObj) : Prop := {
  ts_rep : RepObj x t;
  ts_skel : same_skeleton x0 x;
  ts_ne : t_ins x0 <> [];
  ts_uni : UniF fmt e us x t;
  ts_after : ks <> [] -> if fmt then all_wit t else no_wits t;
  ts_in : forall j x0i xi, nth_error (t_ins x0) j = Some x0i -> nth_error (t_ins x) j = Some xi -> in_state e us x0 ks j x0i xi
}.

Lemma skel_nth l l' j a : map in_skel l = map in_skel l' -> nth_error l' j = Some a -> exists b, nth_error l j = Some b /\ in_skel b = in_skel a.
Proof.
  intros E H. assert (E2 : nth_error (map in_skel l) j = Some (in_skel a)) by (rewrite E, nth_error_map, H; reflexivity).
  rewrite nth_error_map in E2. destruct (nth_error l j) as [b|]; [|discriminate]. cbn in E2. injection E2 as E2. exists b. split; auto.
  unfold in_skel. congruence.
Qed.

Lemma same_skeleton_sym x y : same_skeleton x y -> same_skeleton y x.
Proof. intros (A & B & C & D). repeat split; auto. Qed.
Lemma same_skeleton_trans x y z : same_skeleton x y -> same_skeleton y z -> same_skeleton x z.
Proof. intros (A & B & C & D) (A' & B' & C' & D'). repeat split; congruence. Qed.

Lemma push_key e k : EnvOk e -> CoSigner e k -> script_push (zlen (k_public_key k)) = Ok [zlen (k_public_key k)].
Proof.
  intros O C. destruct (redeem_shape e O) as (_ & _ & _ & _ & _ & _ & _ & _ & K). rewrite Forall_forall in K. specialize (K _ (cs_in _ _ C)).
  apply script_push_small. unfold key_len_ok, zlen in *. lia.
Qed.
Lemma redeem_zlen e : EnvOk e -> zlen (e_redeem e) < 2 ^ 64.
Proof. intros O. destruct (redeem_shape e O) as (L & _). unfold zlen. lia. Qed.

Lemma uni_wits fmt e us x t : UniF fmt e us x t -> all_wit t \/ no_wits t.
Proof. unfold UniF. destruct fmt; [intros [U|[U _]]|intros [U _]]; auto. Qed.

Lemma tx_step_gen e us fmt x0 k ks ks' x t : EnvOk e -> Spendable e us -> CoSigner e k -> TxState e us fmt x0 ks x t ->
  (forall j x0i xi i u stx h, nth_error (t_ins x0) j = Some x0i -> Match (OwnE e) us x0i u -> RepIn xi i -> RepWit xi i ->
     InState e (u_is_segwit u) h ks xi -> step_result e h k ks' (u_is_segwit u) stx xi i) ->
  exists t' x', sign_tx_obj (Multi (wallet e k)) t us = Ok t' /\ TxState e us fmt x0 ks' x' t'.
Proof.
  intros O SP C [R Sk NE U _ ST] STEP. pose proof (fun u b => OwnE_eq e k u b O) as OWN.
  destruct (build_dict_total _ _ (sp_can _ _ SP k) (sp_out _ _ SP) []) as (d & Ed). pose proof R as [[H1 H2 H3 H4 H5 H6 H7]].
  assert (NEx : t_ins x <> []) by (destruct Sk as (_ & _ & _ & Q); intros Z; rewrite Z in Q; apply map_eq_nil in Q; contradiction).
  assert (NT : TxIns t <> []) by (destruct H2; [contradiction|discriminate]).
  destruct (obj_segwit x t R NT) as [SW1 SW2].
  assert (exists stx, tx_is_segwit t = Ok stx) as (stx & Es) by (destruct (uni_wits _ _ _ _ _ U); eauto).
  set (P := fun (j : nat) (xi xi' : tin) => forall x0i, nth_error (t_ins x0) j = Some x0i -> in_state e us x0 ks' j x0i xi').
  set (Q := fun (j : nat) (i i' : TxIn) => signs_in (Multi (wallet e k)) [zlen (k_public_key k)] stx d x (e_redeem e) j i i' /\
     forall xi, nth_error (t_ins x) j = Some xi ->
       (exists xi', P j xi xi' /\ RepIn xi' i' /\ RepWit xi' i' /\ in_skel xi' = in_skel xi) /\ wit_rule (OwnE e) us stx xi i i').
  destruct (F2i_exists Q 0 (TxIns t)) as (ins' & FQ).
  { intros j i Hi. cbn [Nat.add]. unfold Q, signs_in. destruct (F2_nth_r _ _ _ _ _ H2 Hi) as (xi & Hx & Ri).
    destruct (F2_nth_r _ _ _ _ _ H3 Hi) as (xi2 & Hx2 & Wi). rewrite Hx in Hx2. injection Hx2 as <-.
    destruct (skel_nth (t_ins x0) (t_ins x) j xi (proj2 (proj2 (proj2 Sk))) Hx) as (x0i & Hx0 & Skj).
    destruct (ST j x0i xi Hx0 Hx) as [ST1 ST2].
    destruct (match_dict (Multi (wallet e k)) _ OWN us d xi i Ed Ri) as (_ & _ & D3 & D4).
    destruct (dict_get (outpoint i) d) as [w|] eqn:G.
    - destruct (D3 w eq_refl) as (u & M & ->). rewrite d_is_segwit_to_dict, d_amount_to_dict.
      assert (M0 : Match (OwnE e) us x0i u) by (eapply Match_skel; [|exact M]; auto).
      destruct (SigMsg_exists (u_is_segwit u) x t j (e_redeem e) (u_amount u) R) as (msg & SM).
      { apply nth_error_Some. congruence. }
      { apply redeem_zlen; auto. }
      { destruct M as (l1 & l2 & Eu & _). pose proof (sp_amount _ _ SP) as A. rewrite Eu in A. apply Forall_app in A as [_ A].
        apply Forall_cons_iff in A as [A _]. auto. }
      assert (SM0 : SigMsg (u_is_segwit u) x0 j (e_redeem e) (u_amount u) msg) by (eapply SigMsg_skel; [apply same_skeleton_sym; exact Sk|exact SM]).
      pose proof (ST2 u msg M0 SM0) as S.
      destruct (STEP j x0i xi i u stx (sha256 msg) Hx0 M0 Ri Wi S) as (ss & wit & l & E1 & E2 & W1 & W2 & W3 & xi' & S' & R' & RW' & Sk').
      exists (set_signed i ss l wit (u_is_segwit u)). split; [exists msg, ss, wit, l; auto|].
      intros xi3 Hx3. rewrite Hx in Hx3. injection Hx3 as <-. split; [|split].
      + exists xi'. split; [|auto]. intros x0i' Hx0'. rewrite Hx0 in Hx0'. injection Hx0' as <-.
        split; [intros N; exfalso; exact (Match_not_Unmatched _ _ _ _ M0 N)|].
        intros v msg' Mv SMv. pose proof (Match_fun _ _ _ _ _ Mv M0) as ->. rewrite (SigMsg_fun _ _ _ _ _ _ _ SMv SM0). auto.
      + intros N. exfalso. exact (Match_not_Unmatched _ _ _ _ M N).
      + intros v Mv. rewrite (Match_fun _ _ _ _ _ Mv M). cbn [set_signed witness]. auto.
    - pose proof (D4 eq_refl) as N. assert (N0 : Unmatched (OwnE e) us x0i) by (eapply Unmatched_skel; [|exact N]; auto).
      exists i. split; [reflexivity|]. intros xi3 Hx3. rewrite Hx in Hx3. injection Hx3 as <-. split; [|split; auto].
      + exists xi. split; [|auto]. intros x0i' Hx0'. rewrite Hx0 in Hx0'. injection Hx0' as <-. split; auto.
        intros u msg M. exfalso. exact (Match_not_Unmatched _ _ _ _ M N0).
      + intros u M. exfalso. exact (Match_not_Unmatched _ _ _ _ M N). }
  assert (ES : sign_tx_obj (Multi (wallet e k)) t us = Ok (mkTx (version t) ins' (TxOuts t) (locktime t))).
  { eapply sign_tx_complete; eauto.
    - apply (push_key e k O C).
    - reflexivity.
    - apply redeem_zlen; auto.
    - eapply F2i_imp; [|exact FQ]. intros j a b _ [H _]. exact H. }
  set (t' := mkTx (version t) ins' (TxOuts t) (locktime t)) in *.
  pose proof (F2i_length _ _ _ _ FQ) as LL.
  destruct (sign_rep P x t t' R eq_refl eq_refl eq_refl (eq_sym LL)) as (x' & R' & Sk' & F').
  { intros j xi i i' Hx Hi Hi' _ _. destruct (F2i_nth _ _ _ _ _ _ FQ Hi) as (b & Hb & [_ H]). cbn [TxIns t'] in Hi'. cbn [Nat.add] in *.
    rewrite Hi' in Hb. injection Hb as <-. apply (H xi Hx). }
  assert (PT : points (wit_rule (OwnE e) us stx) x t t').
  { intros j xi i i' Hx Hi Hi' _ _. destruct (F2i_nth _ _ _ _ _ _ FQ Hi) as (b & Hb & [_ H]). cbn [TxIns t'] in Hi'. cbn [Nat.add] in *.
    rewrite Hi' in Hb. injection Hb as <-. apply (H xi Hx). }
  destruct (uniform_result (Multi (wallet e k)) (OwnE e) us x t t' d stx OWN R NEx Ed Es LL PT) as (AW & UR & _).
  assert (W' : if fmt then all_wit t' else no_wits t').
  { destruct fmt; unfold UniF in U.
    - destruct U as [U|[U1 U2]]; auto. eapply points_Forall; [exact R|exact LL|]. intros j xi i i' Hx Hi Hi' Ri Wi. destruct (PT j xi i i' Hx Hi Hi' Ri Wi) as (P1 & P2).
      destruct (U2 xi (nth_error_In _ _ Hx)) as (u & M & Sg). apply (proj1 (proj2 (P2 u M))). auto.
    - destruct U as [U1 U2]. specialize (SW2 U1). rewrite Es in SW2. injection SW2 as ->. eapply points_Forall; [exact R|exact LL|]. intros j xi i i' Hx Hi Hi' Ri Wi.
      destruct (PT j xi i i' Hx Hi Hi' Ri Wi) as (P1 & P2). destruct (Match_dec (Multi (wallet e k)) _ OWN us d xi i Ed Ri) as [(u & M)|Nm].
      + apply (proj2 (proj2 (P2 u M))); auto. eapply U2; eauto. eapply nth_error_In; eauto.
      + rewrite (P1 Nm). unfold no_wits in U1. rewrite Forall_forall in U1. apply U1. eapply nth_error_In; eauto. }
  exists t', x'. split; [exact ES|]. constructor; auto.
  - eapply same_skeleton_trans; eauto.
  - unfold UniF in *. destruct fmt; auto. split; auto. intros xi' u Hx' M. apply In_nth_error in Hx' as (j & Hx').
    destruct (skel_nth (t_ins x) (t_ins x') j xi' (proj2 (proj2 (proj2 Sk'))) Hx') as (xi & Hx & Skj).
    eapply (proj2 U); [eapply nth_error_In; exact Hx|]. eapply Match_skel; eauto.
  - intros j x0i xi' Hx0 Hx'. destruct (skel_nth (t_ins x) (t_ins x') j xi' (proj2 (proj2 (proj2 Sk'))) Hx') as (xi & Hx & Skj).
    destruct (F2i_nth _ _ _ _ _ _ F' Hx) as (b & Hb & H). cbn [Nat.add] in *. rewrite Hx' in Hb. injection Hb as <-. exact (H x0i Hx0).
Qed.

Lemma tx_step e us fmt x0 k ks x t : EnvOk e -> Spendable e us -> CoSigner e k -> Forall (CoSigner e) ks -> NoDup (map k_public_key (k :: ks)) ->
  zlen ks < e_m e -> TxState e us fmt x0 ks x t ->
  exists t' x', sign_tx_obj (Multi (wallet e k)) t us = Ok t' /\ TxState e us fmt x0 (k :: ks) x' t'.
Proof.
  intros O SP C F ND Hm TS. apply (tx_step_gen e us fmt x0 k ks (k :: ks) x t O SP C TS). intros. apply (state_step HO); auto.
Qed.

(** Handing the serialisation on changes nothing. *)
Lemma known_wits t : Forall (fun i => witness i <> []) (map known_in (TxIns t)) <-> all_wit t.
Proof. unfold all_wit. rewrite Forall_map. reflexivity. Qed.
Lemma known_nowits t : Forall (fun i => witness i = []) (map known_in (TxIns t)) <-> no_wits t.
Proof. unfold no_wits. rewrite Forall_map. reflexivity. Qed.
Lemma tx_pass e us fmt x0 ks x t : TxState e us fmt x0 ks x t ->
  exists h t', to_hex t = Ok h /\ deserialize_hex h = Ok t' /\ TxState e us fmt x0 ks x t'.
Proof.
  intros [R Sk NE U AF ST]. pose proof R as [[H1 H2 H3 H4 H5 H6 H7]].
  assert (NEx : t_ins x <> []) by (destruct Sk as (_ & _ & _ & Q); intros Z; rewrite Z in Q; apply map_eq_nil in Q; contradiction).
  assert (NT : TxIns t <> []) by (destruct H2; [contradiction|discriminate]).
  destruct (obj_roundtrip x t R NT (uni_wits _ _ _ _ _ U)) as (h & E1 & E2). exists h. eexists. split; auto. split; [exact E2|].
  set (t' := mkTx _ _ _ _) in *.
  assert (AW : all_wit t' <-> all_wit t) by apply known_wits. assert (NW : no_wits t' <-> no_wits t) by apply known_nowits.
  constructor; auto.
  - apply known_rep; auto.
  - unfold UniF in *. destruct fmt; rewrite ?AW, ?NW; auto.
  - intros N. specialize (AF N). destruct fmt; rewrite ?AW, ?NW; auto.
Qed.

(** ** The run *)
(* repo: bit/wallet.py:1230-1263, 1553-1586 MultiSig.sign_transaction for a string that is
   not JSON: deserialize, then sign_tx. *)
Definition pass_on (e : Env) (us : list Unspent) (h : pystr) (k : PrivateKey) : result pystr :=
  t <- deserialize_hex h ;; sign_tx (Multi (wallet e k)) t us.
Fixpoint pass_all (e : Env) (us : list Unspent) (h : pystr) (ks : list PrivateKey) : result pystr :=
  match ks with
  | [] => Ok h
  | k :: r => h' <- pass_on e us h k ;; pass_all e us h' r
  end.
(** The first co-signer has a transaction object, the others its serialisation. *)
Definition cosign (e : Env) (us : list Unspent) (t : TxObj) (k : PrivateKey) (ks : list PrivateKey) : result pystr :=
  h <- sign_tx (Multi (wallet e k)) t us ;; pass_all e us h ks.

Lemma pass_all_state e us fmt x0 ks : EnvOk e -> Spendable e us -> Forall (CoSigner e) ks -> forall done x t h,
  Forall (CoSigner e) done -> NoDup (map k_public_key (rev ks ++ done)) -> zlen ks + zlen done <= e_m e ->
  TxState e us fmt x0 done x t -> to_hex t = Ok h ->
  exists h' x' t', pass_all e us h ks = Ok h' /\ to_hex t' = Ok h' /\ TxState e us fmt x0 (rev ks ++ done) x' t'.
Proof.
  intros O SP F. induction F as [|k ks C F IH]; intros done x t h FD ND L TS E.
  - exists h, x, t. auto.
  - cbn [pass_all]. unfold pass_on. destruct (tx_pass _ _ _ _ _ _ _ TS) as (h0 & t1 & E0 & E1 & TS1). rewrite E in E0. injection E0 as <-.
    rewrite E1. cbn [bind]. cbn [rev] in ND. rewrite <- app_assoc in ND. cbn [app] in ND.
    assert (NDk : NoDup (map k_public_key (k :: done))) by (rewrite map_app in ND; clear -ND; induction (map k_public_key (rev ks)); [auto|apply IHl; cbn in ND; apply NoDup_cons_iff in ND; tauto]).
    destruct (tx_step e us fmt x0 k done x t1 O SP C FD NDk) as (t2 & x2 & E2 & TS2); auto.
    { unfold zlen in *. cbn [length] in L. lia. }
    unfold sign_tx. rewrite E2. cbn [bind]. destruct (tx_pass _ _ _ _ _ _ _ TS2) as (h2 & t3 & E3 & _ & _). rewrite E3. cbn [bind].
    destruct (IH (k :: done) x2 t2 h2) as (h' & x' & t' & A & B & D); auto.
    { unfold zlen in *. cbn [length] in *. lia. }
    exists h', x', t'. split; auto. split; auto. cbn [rev]. rewrite <- app_assoc. exact D.
Qed.

Lemma cosign_state e us fmt x t k ks : EnvOk e -> Spendable e us -> Forall (CoSigner e) (k :: ks) -> NoDup (map k_public_key (k :: ks)) ->
  zlen (k :: ks) <= e_m e -> TxState e us fmt x [] x t ->
  exists h x' t' signed, cosign e us t k ks = Ok h /\ to_hex t' = Ok h /\ Permutation (k :: ks) signed /\ TxState e us fmt x signed x' t'.
Proof.
  intros O SP F ND L TS. apply Forall_cons_iff in F as [C F]. pose proof (eo_m _ O).
  destruct (tx_step e us fmt x k [] x t O SP C (Forall_nil _)) as (t2 & x2 & E2 & TS2); auto.
  { cbn. repeat constructor. auto. }
  { unfold zlen. cbn. lia. }
  destruct (tx_pass _ _ _ _ _ _ _ TS2) as (h2 & t3 & E3 & _ & _).
  assert (PM : Permutation (k :: ks) (rev ks ++ [k])) by (change (k :: ks) with ([k] ++ ks); rewrite Permutation_app_comm; apply Permutation_app_tail, Permutation_rev).
  destruct (pass_all_state e us fmt x ks O SP F [k] x2 t2 h2) as (h' & x' & t' & A & B & D); auto.
  { eapply Permutation_NoDup; [apply Permutation_map; exact PM|exact ND]. }
  { unfold zlen in *. cbn [length] in *. lia. }
  exists h', x', t', (rev ks ++ [k]). split; [|auto]. unfold cosign, sign_tx. rewrite E2. cbn [bind]. rewrite E3. cbn [bind]. exact A.
Qed.

(** ** Completed: the result depends on the set of signers only *)
Lemma EncSegwit_fun x b b' : EncSegwit x b -> EncSegwit x b' -> b = b'.
Proof.
  intros (v & i & o & w & l & A1 & A2 & A3 & A4 & A5 & ->) (v' & i' & o' & w' & l' & B1 & B2 & B3 & B4 & B5 & ->).
  rewrite (LEnum_fun _ _ _ _ A1 B1), (LEnum_fun _ _ _ _ A5 B5), (EncVec_fun _ _ _ _ EncIn_fun A2 B2), (EncVec_fun _ _ _ _ EncOut_fun A3 B3).
  rewrite (EncSeq_fun EncStack _ _ _ (fun s b b' => EncVec_fun VarBytes s b b' VarBytes_fun) A4 B4). reflexivity.
Qed.

Lemma nth_error_ext {A} (l l' : list A) : (forall j, nth_error l j = nth_error l' j) -> l = l'.
Proof.
  revert l'. induction l as [|a l IH]; intros [|b l'] H; auto.
  - specialize (H 0%nat). discriminate.
  - specialize (H 0%nat). discriminate.
  - pose proof (H 0%nat) as H0. injection H0 as ->. f_equal. apply IH. intros j. apply (H (S j)).
Qed.
Lemma InState_full e seg h ks ks' xi xi' : EnvOk e -> zlen ks = e_m e -> NoDup (map k_public_key ks) -> Permutation ks ks' ->
  in_skel xi = in_skel xi' -> InState e seg h ks xi -> InState e seg h ks' xi' -> xi = xi'.
Proof.
  intros O L ND P SK S S'. pose proof (eo_m _ O). assert (L' : zlen ks' = e_m e) by (unfold zlen in *; rewrite <- (Permutation_length P); auto).
  destruct ks as [|k ks]; [unfold zlen in L; cbn in L; lia|]. destruct ks' as [|k' ks']; [unfold zlen in L'; cbn in L'; lia|].
  destruct S as (z & Z0 & _ & S). destruct S' as (z' & Z0' & _ & S'). rewrite (Z0 L) in *. rewrite (Z0' L') in *.
  assert (EQ : sigs_of (tab (k :: ks) h) (e_pubs e) = sigs_of (tab (k' :: ks') h) (e_pubs e)) by (apply sigs_of_ext; intros p _; apply tab_perm; auto).
  unfold in_skel in SK. destruct xi as [a b c d w], xi' as [a' b' c' d' w']. cbn [i_txid i_vout i_seq i_script i_wit] in *.
  injection SK as -> -> ->. destruct seg.
  - destruct S as [-> ->], S' as [-> ->]. unfold stack. rewrite EQ. reflexivity.
  - destruct S as [-> (l & R & ->)], S' as [-> (l' & R' & ->)]. unfold RedeemPush in *. rewrite R in R'. injection R' as <-. unfold body. rewrite EQ. reflexivity.
Qed.

Lemma state_match e us x0 ks x t fmt (k : PrivateKey) j x0i xi : EnvOk e -> Spendable e us -> TxState e us fmt x0 ks x t ->
  nth_error (t_ins x0) j = Some x0i -> nth_error (t_ins x) j = Some xi ->
  in_skel x0i = in_skel xi /\ ((exists u msg, Match (OwnE e) us x0i u /\ SigMsg (u_is_segwit u) x0 j (e_redeem e) (u_amount u) msg) \/ Unmatched (OwnE e) us x0i).
Proof.
  intros O SP [R Sk NE U AF ST] Hx0 Hx. pose proof (fun u b => OwnE_eq e k u b O) as OWN.
  destruct (skel_nth (t_ins x0) (t_ins x) j xi (proj2 (proj2 (proj2 Sk))) Hx) as (y & Hy & Skj). rewrite Hx0 in Hy. injection Hy as <-. split; auto.
  pose proof R as [[H1 H2 H3 H4 H5 H6 H7]]. destruct (F2_nth_l _ _ _ _ _ H2 Hx) as (i & Hi & Ri).
  destruct (build_dict_total _ _ (sp_can _ _ SP k) (sp_out _ _ SP) []) as (d & Ed).
  destruct (Match_dec (Multi (wallet e k)) _ OWN us d xi i Ed Ri) as [(u & M)|N].
  - left. exists u. destruct (SigMsg_exists (u_is_segwit u) x t j (e_redeem e) (u_amount u) R) as (msg & SM).
    { apply nth_error_Some. congruence. }
    { apply redeem_zlen; auto. }
    { destruct M as (l1 & l2 & Eu & _). pose proof (sp_amount _ _ SP) as A. rewrite Eu in A. apply Forall_app in A as [_ A].
      apply Forall_cons_iff in A as [A _]. auto. }
    exists msg. split; [eapply Match_skel; [|exact M]; auto|]. eapply SigMsg_skel; [apply same_skeleton_sym; exact Sk|exact SM].
  - right. eapply Unmatched_skel; [|exact N]. auto.
Qed.

Lemma state_det e us fmt x0 ks ks' x x' t t' h h' (k : PrivateKey) : EnvOk e -> Spendable e us -> zlen ks = e_m e -> NoDup (map k_public_key ks) -> Permutation ks ks' ->
  TxState e us fmt x0 ks x t -> TxState e us fmt x0 ks' x' t' -> to_hex t = Ok h -> to_hex t' = Ok h' -> h = h'.
Proof.
  intros O SP L ND P TS TS' E E'. pose proof (eo_m _ O).
  assert (NK : ks <> []) by (intros ->; unfold zlen in L; cbn in L; lia).
  assert (NK' : ks' <> []) by (intros ->; apply Permutation_sym, Permutation_nil in P; contradiction).
  pose proof TS as [R (S1 & S2 & S3 & S4) NE U AF ST]. pose proof TS' as [R' (S1' & S2' & S3' & S4') NE' U' AF' ST'].
  assert (XX : x = x').
  { assert (II : t_ins x = t_ins x').
    { assert (LX : length (t_ins x) = length (t_ins x')) by (apply (f_equal (@length _)) in S4; apply (f_equal (@length _)) in S4'; rewrite !map_length in *; congruence).
      apply nth_error_ext. intros j.
      destruct (nth_error (t_ins x) j) as [xi|] eqn:Hx; [|symmetry; apply nth_error_None; apply nth_error_None in Hx; lia].
      destruct (nth_error (t_ins x') j) as [xi'|] eqn:Hx'; [|exfalso; apply nth_error_None in Hx'; assert (j < length (t_ins x))%nat by (apply nth_error_Some; congruence); lia].
      destruct (skel_nth (t_ins x0) (t_ins x) j xi S4 Hx) as (x0i & Hx0 & _). f_equal.
      destruct (state_match e us x0 ks x t fmt k j x0i xi O SP TS Hx0 Hx) as [SK D].
      destruct (state_match e us x0 ks' x' t' fmt k j x0i xi' O SP TS' Hx0 Hx') as [SK' _].
      destruct (ST j x0i xi Hx0 Hx) as [A1 A2]. destruct (ST' j x0i xi' Hx0 Hx') as [B1 B2].
      destruct D as [(u & msg & M & SM)|N]; [|rewrite (A1 N), (B1 N); reflexivity].
      eapply (InState_full e (u_is_segwit u) (sha256 msg) ks ks'); eauto. congruence. }
    destruct x as [a1 a2 a3 a4], x' as [b1 b2 b3 b4]. cbn [t_ver t_ins t_outs t_lock] in *. congruence. }
  subst x'. assert (NEx : t_ins x <> []) by (intros Z; rewrite Z in S4; apply map_eq_nil in S4; contradiction).
  pose proof R as [[H1 H2 H3 H4 H5 H6 H7]]. pose proof R' as [[H1' H2' H3' H4' H5' H6' H7']].
  assert (NT : TxIns t <> []) by (destruct H2; [contradiction|discriminate]).
  assert (NT' : TxIns t' <> []) by (destruct H2'; [contradiction|discriminate]).
  destruct (obj_bytes x t R NT (uni_wits _ _ _ _ _ U)) as (b & Eb & B1 & B2).
  destruct (obj_bytes x t' R' NT' (uni_wits _ _ _ _ _ U')) as (b' & Eb' & B1' & B2').
  unfold to_hex in E, E'. rewrite Eb in E. rewrite Eb' in E'. cbn [rmap] in E, E'. injection E as <-. injection E' as <-. f_equal.
  specialize (AF NK). specialize (AF' NK'). destruct fmt.
  - eapply EncSegwit_fun; [apply B1|apply B1']; auto.
  - eapply EncLegacy_fun; [apply B2|apply B2']; auto.
Qed.

(** ** The start *)
Definition Fresh (e : Env) (us : list Unspent) (x : tx) : Prop :=
  forall xi u, In xi (t_ins x) -> Match (OwnE e) us xi u -> i_wit xi = [] /\ (u_is_segwit u = false -> i_script xi = []).
Lemma start_state e us x t : RepObj x t -> t_ins x <> [] -> Uniform (OwnE e) us x t -> Fresh e us x ->
  exists fmt, TxState e us fmt x [] x t /\ (all_wit t -> fmt = true).
Proof.
  intros R NE U FR.
  assert (ST : forall j x0i xi, nth_error (t_ins x) j = Some x0i -> nth_error (t_ins x) j = Some xi -> in_state e us x [] j x0i xi).
  { intros j x0i xi H0 H1. rewrite H0 in H1. injection H1 as <-. split; auto. intros u msg M _. destruct (FR x0i u (nth_error_In _ _ H0) M) as [F1 F2].
    unfold InState. destruct (u_is_segwit u); auto. }
  assert (SK : same_skeleton x x) by (repeat split).
  assert (NT : TxIns t <> []) by (destruct R as [[_ H2 _ _ _ _ _]]; destruct H2; [contradiction|discriminate]).
  assert (AN : all_wit t -> no_wits t -> False).
  { intros A N. unfold all_wit, no_wits in *. destruct (TxIns t); [contradiction|]. apply Forall_cons_iff in A as [A _]. apply Forall_cons_iff in N as [N _]. auto. }
  destruct U as [W|[[W N]|[W N]]].
  - exists true. split; [|auto]. constructor; auto; try (intros Q; contradiction). left. auto.
  - exists false. split; [|intros A; exfalso; auto]. constructor; auto; try (intros Q; contradiction). split; auto.
  - exists true. split; [|auto]. constructor; auto; try (intros Q; contradiction). right. auto.
Qed.

(** What a state means for the inputs. *)
Definition part_spends (e : Env) (ks : list PrivateKey) (x : tx) (j : nat) (u : Unspent) (z : nat) (xi : tin) : Prop :=
  exists msg sigs, SigMsg (u_is_segwit u) x j (e_redeem e) (u_amount u) msg /\
    length sigs = length ks /\ CheckMulti msg sigs (e_pubs e) /\
    Forall (fun k => In (ec_sign (k_secret k) (sha256 msg) ++ [0x01]) sigs) ks /\
    Forall (fun g => exists k, In k ks /\ g = ec_sign (k_secret k) (sha256 msg) ++ [0x01]) sigs /\
    if u_is_segwit u
    then MinPushes [[0x00; 0x20] ++ sha256 (e_redeem e)] (i_script xi) /\ i_wit xi = [] :: sigs ++ repeat [] z ++ [e_redeem e]
    else MinPushes ([] :: sigs ++ repeat [] z ++ [e_redeem e]) (i_script xi) /\ i_wit xi = [].

Lemma check_multi e msg s : SigsGood e (sha256 msg) s -> forall pubs, incl pubs (e_pubs e) -> CheckMulti msg (sigs_of s pubs) pubs.
Proof.
  intros G. induction pubs as [|p pubs IH]; intros I; [constructor|]. cbn [sigs_of flat_map]. fold (sigs_of s pubs).
  assert (IP : incl pubs (e_pubs e)) by (intros q Hq; apply I; right; auto).
  destruct (s p) as [g|] eqn:E; cbn [app]; constructor; auto. destruct (G p g (I p (or_introl eq_refl)) E) as (der & -> & _ & _ & _ & V).
  exists der. split; auto. rewrite V by (apply I; left; auto). rewrite list_eqb_refl. reflexivity.
Qed.

Lemma state_spends e us fmt x0 ks x t j x0i u : EnvOk e -> Spendable e us -> Forall (CoSigner e) ks -> NoDup (map k_public_key ks) -> ks <> [] ->
  TxState e us fmt x0 ks x t -> nth_error (t_ins x0) j = Some x0i -> Match (OwnE e) us x0i u ->
  exists xi z, nth_error (t_ins x) j = Some xi /\ part_spends e ks x j u z xi /\ (zlen ks = e_m e -> z = 0%nat).
Proof.
  intros O SP F ND NK TS Hx0 M. pose proof TS as [R Sk NE U AF ST]. destruct (skel_nth (t_ins x) (t_ins x0) j x0i (eq_sym (proj2 (proj2 (proj2 Sk)))) Hx0) as (xi & Hx & _).
  destruct ks as [|k ks]; [contradiction|]. set (ks0 := k :: ks) in *.
  destruct (state_match e us x0 ks0 x t fmt k j x0i xi O SP TS Hx0 Hx) as [SK [(u' & msg & M' & SM)|N]]; [|exfalso; exact (Match_not_Unmatched _ _ _ _ M N)].
  pose proof (Match_fun _ _ _ _ _ M' M) as ->. destruct (ST j x0i xi Hx0 Hx) as [_ S]. specialize (S u msg M SM). destruct S as (z & Z0 & _ & S).
  exists xi, z. split; auto. split; auto. assert (G : SigsGood e (sha256 msg) (tab ks0 (sha256 msg))) by (apply tab_good; auto).
  exists msg, (sigs_of (tab ks0 (sha256 msg)) (e_pubs e)). split; [eapply SigMsg_skel; eauto|]. split; [apply tab_count; auto|].
  split; [apply (check_multi e); auto; apply incl_refl|]. split.
  - apply Forall_forall. intros k' I. rewrite Forall_forall in F. apply in_flat_map. exists (k_public_key k'). split; [apply (cs_in _ _ (F k' I))|].
    rewrite tab_some by auto. left. reflexivity.
  - split.
    { apply Forall_forall. intros g I. apply sigs_of_in in I as (p & _ & E). unfold tab in E. destruct (find _ ks0) as [k'|] eqn:Q; [|discriminate].
      apply find_some in Q as [Q _]. injection E as <-. eauto. }
    destruct (u_is_segwit u).
    + destruct S as [-> ->]. split; [|reflexivity]. pose proof (parse_push ([0; 32] ++ sha256 (e_redeem e)) [] []) as P. rewrite app_nil_r in P.
      assert (L : length ([0; 32] ++ sha256 (e_redeem e)) = 34%nat) by (rewrite app_length, (sha256_len _ HO); reflexivity).
      unfold zlen in P. rewrite L in P. split; [apply P; [lia|constructor]|]. cbn [map list_sum fold_right]. rewrite push_cost_small, L by lia. cbn [length app]. rewrite (sha256_len _ HO). reflexivity.
    + destruct S as [Wx (l & Rl & Sx)]. split; auto. rewrite Sx. eapply parse_body; eauto.
Qed.

Lemma state_hex e us fmt x0 ks x t h : ks <> [] -> TxState e us fmt x0 ks x t -> to_hex t = Ok h ->
  exists b, (h = bytes_to_hex b /\ bytes_ok b = true) /\ if fmt then EncSegwit x b else EncLegacy x b.
Proof.
  intros NK [R Sk NE U AF ST] E. pose proof R as [[H1 H2 H3 H4 H5 H6 H7]].
  assert (NEx : t_ins x <> []) by (destruct Sk as (_ & _ & _ & Q); intros Z; rewrite Z in Q; apply map_eq_nil in Q; contradiction).
  assert (NT : TxIns t <> []) by (destruct H2; [contradiction|discriminate]).
  destruct (obj_bytes x t R NT (uni_wits _ _ _ _ _ U)) as (b & Eb & B1 & B2). unfold to_hex in E. rewrite Eb in E. cbn [rmap] in E. injection E as <-.
  exists b. split; [split; auto; eapply obj_bytes_ok; eauto; eapply uni_wits; eauto|]. specialize (AF NK). destruct fmt; [apply B1|apply B2]; auto.
Qed.

(** Completed: every further signing is refused. *)
Lemma state_refused e us fmt x0 ks x t k : EnvOk e -> Spendable e us -> Forall (CoSigner e) ks -> NoDup (map k_public_key ks) -> zlen ks = e_m e ->
  In (k_public_key k) (e_pubs e) -> TxState e us fmt x0 ks x t -> (exists x0i u, In x0i (t_ins x0) /\ Match (OwnE e) us x0i u) ->
  sign_tx_obj (Multi (wallet e k)) t us = Raise ValueError.
Proof.
  intros O SP F ND L IK TS (x0i & u & I0 & M0). pose proof TS as [R Sk NE U AF ST]. pose proof (fun u b => OwnE_eq e k u b O) as OWN.
  destruct (build_dict_total _ _ (sp_can _ _ SP k) (sp_out _ _ SP) []) as (d & Ed). pose proof R as [[H1 H2 H3 H4 H5 H6 H7]].
  assert (NEx : t_ins x <> []) by (destruct Sk as (_ & _ & _ & Q); intros Z; rewrite Z in Q; apply map_eq_nil in Q; contradiction).
  assert (NT : TxIns t <> []) by (destruct H2; [contradiction|discriminate]).
  destruct (obj_segwit x t R NT) as [SW1 SW2].
  assert (exists stx, tx_is_segwit t = Ok stx) as (stx & Es) by (destruct (uni_wits _ _ _ _ _ U); eauto).
  assert (EP : script_push (zlen (k_public_key k)) = Ok [zlen (k_public_key k)]).
  { destruct (redeem_shape e O) as (_ & _ & _ & _ & _ & _ & _ & _ & K). rewrite Forall_forall in K. specialize (K _ IK).
    apply script_push_small. unfold key_len_ok, zlen in *. lia. }
  assert (ALL : forall j i w, nth_error (TxIns t) j = Some i -> dict_get (outpoint i) d = Some w ->
    exists msg, SigMsg (d_is_segwit w) x j (e_redeem e) (d_amount w) msg /\
      sign_one (Multi (wallet e k)) [zlen (k_public_key k)] (sha256 msg) (if d_is_segwit w then witness i else script_sig i) (d_is_segwit w) stx = Raise ValueError).
  { intros j i w Hi G. destruct (F2_nth_r _ _ _ _ _ H2 Hi) as (xi & Hx & Ri). destruct (F2_nth_r _ _ _ _ _ H3 Hi) as (xi2 & Hx2 & Wi). rewrite Hx in Hx2. injection Hx2 as <-.
    destruct (skel_nth (t_ins x0) (t_ins x) j xi (proj2 (proj2 (proj2 Sk))) Hx) as (y & Hy & Skj).
    destruct (match_dict (Multi (wallet e k)) _ OWN us d xi i Ed Ri) as (_ & _ & D3 & _). destruct (D3 w G) as (v & M & ->).
    rewrite d_is_segwit_to_dict, d_amount_to_dict. destruct (state_match e us x0 ks x t fmt k j y xi O SP TS Hy Hx) as [SK [(u' & msg & M' & SM)|N]].
    - assert (My : Match (OwnE e) us y v) by (eapply Match_skel; [|exact M]; auto). pose proof (Match_fun _ _ _ _ _ M' My) as ->.
      exists msg. split; [eapply SigMsg_skel; eauto|]. cbn [sign_one]. destruct (ST j y xi Hy Hx) as [_ S]. eapply state_full; eauto.
    - exfalso. assert (My : Match (OwnE e) us y v) by (eapply Match_skel; [|exact M]; auto). exact (Match_not_Unmatched _ _ _ _ My N). }
  eapply (sign_tx_raise (Multi (wallet e k)) t us x d [zlen (k_public_key k)] stx (e_redeem e)); eauto.
  - apply redeem_zlen; auto.
  - intros j i w Hi G. destruct (ALL j i w Hi G) as (msg & SM & E). exists msg. auto.
  - apply In_nth_error in I0 as (j & Hj). destruct (skel_nth (t_ins x) (t_ins x0) j x0i (eq_sym (proj2 (proj2 (proj2 Sk)))) Hj) as (xi & Hx & Skj).
    destruct (F2_nth_l _ _ _ _ _ H2 Hx) as (i & Hi & Ri). assert (Mx : Match (OwnE e) us xi u) by (eapply Match_skel; [|exact M0]; auto).
    destruct (match_dict (Multi (wallet e k)) _ OWN us d xi i Ed Ri) as (D1 & _ & _ & _). pose proof (D1 u Mx) as G.
    exists j, i, (to_dict u). split; auto. split; auto. intros msg SM. destruct (ALL j i _ Hi G) as (msg' & SM' & E).
    rewrite (SigMsg_fun _ _ _ _ _ _ _ SM SM'). exact E.
Qed.

(** Signing again with the same key: only legacy inputs concerned. *)
Lemma legacy_again e us x0 ks x t k : EnvOk e -> Spendable e us -> Forall (CoSigner e) ks -> NoDup (map k_public_key ks) -> In k ks -> zlen ks < e_m e ->
  TxState e us false x0 ks x t ->
  exists t' x', sign_tx_obj (Multi (wallet e k)) t us = Ok t' /\ TxState e us false x0 ks x' t'.
Proof.
  intros O SP F ND I L TS. assert (C : CoSigner e k) by (rewrite Forall_forall in F; auto).
  apply (tx_step_gen e us false x0 k ks ks x t O SP C TS). intros j x0i xi i u stx h Hx0 M R W S.
  assert (Sg : u_is_segwit u = false).
  { pose proof TS as [_ (_ & _ & _ & Sk) _ U _ _]. unfold UniF in U. destruct (skel_nth _ _ j x0i (eq_sym Sk) Hx0) as (xj & Hxj & Skj).
    eapply (proj2 U); [eapply nth_error_In; exact Hxj|]. eapply Match_skel; [|exact M]. auto. }
  rewrite Sg in *. apply (state_again HO); auto.
Qed.

(** ... a single segwit input. *)
Lemma segwit_again_tx e us fmt x0 ks x t k x0i u : EnvOk e -> Spendable e us -> Forall (CoSigner e) ks -> NoDup (map k_public_key ks) -> In k ks -> zlen ks < e_m e ->
  TxState e us fmt x0 ks x t -> t_ins x0 = [x0i] -> Match (OwnE e) us x0i u -> u_is_segwit u = true ->
  exists t' b, sign_tx_obj (Multi (wallet e k)) t us = Ok t' /\ tx_bytes t' = Ok b /\ forall y, t_ins y <> [] -> ~ EncSegwit y b /\ ~ EncLegacy y b.
Proof.
  intros O SP F ND I L TS X0 M Sg. assert (C : CoSigner e k) by (rewrite Forall_forall in F; auto).
  pose proof TS as [R Sk NE U AF ST]. pose proof (fun u b => OwnE_eq e k u b O) as OWN. pose proof R as [[H1 H2 H3 H4 H5 H6 H7]].
  destruct (redeem_shape e O) as (_ & Hm15 & _). pose proof (eo_m _ O) as Hm1.
  destruct (skel_nth (t_ins x) (t_ins x0) 0 x0i (eq_sym (proj2 (proj2 (proj2 Sk))))) as (xi & Hx & Skj); [rewrite X0; reflexivity|].
  assert (LX : length (t_ins x) = 1%nat) by (destruct Sk as (_ & _ & _ & Q); apply (f_equal (@length _)) in Q; rewrite !map_length, X0 in Q; symmetry; exact Q).
  destruct (t_ins x) as [|xi' [|? ?]] eqn:EX; try discriminate. cbn in Hx. injection Hx as ->.
  inversion H2 as [|? i ? il Ri H2' EQ1 ET]; subst. inversion H2'; subst. rewrite <- ET in *. clear H2'. inversion H3 as [|? ? ? ? Wi _]; subst.
  assert (NK : ks <> []) by (intros ->; destruct I).
  destruct (build_dict_total _ _ (sp_can _ _ SP k) (sp_out _ _ SP) []) as (d & Ed).
  assert (NT : TxIns t <> []) by (rewrite <- ET; discriminate). destruct (obj_segwit x t R NT) as [SW1 SW2].
  assert (exists stx, tx_is_segwit t = Ok stx) as (stx & Es) by (destruct (uni_wits _ _ _ _ _ U); eauto).
  assert (Mx : Match (OwnE e) us xi u) by (eapply Match_skel; [|exact M]; auto).
  destruct (match_dict (Multi (wallet e k)) _ OWN us d xi i Ed Ri) as (D1 & _ & _ & _). pose proof (D1 u Mx) as G.
  assert (Hx0 : nth_error (t_ins x0) 0 = Some x0i) by (rewrite X0; reflexivity). assert (Hx1 : nth_error (t_ins x) 0 = Some xi) by (rewrite EX; reflexivity).
  destruct (state_match e us x0 ks x t fmt k 0 x0i xi O SP TS Hx0 Hx1) as [SK [(u' & msg & M' & SM)|N]]; [|exfalso; exact (Match_not_Unmatched _ _ _ _ M N)].
  pose proof (Match_fun _ _ _ _ _ M' M) as ->.
  assert (S : InState e true (sha256 msg) ks xi) by (destruct (ST 0%nat x0i xi Hx0 eq_refl) as [_ S]; specialize (S u msg M SM); rewrite Sg in S; exact S).
  pose proof (tab_count e ks (sha256 msg) O F ND) as TC.
  assert (GT : SigsGood e (sha256 msg) (tab ks (sha256 msg))) by (apply tab_good; auto).
  destruct (state_field e true (sha256 msg) ks xi i O F ND) as (NEf & z & Ff); auto.
  destruct (segwit_again e (sha256 msg) k _ z _ stx O C GT Ff) as (items & bod & E1 & E2 & E3).
  { rewrite tab_some by auto. discriminate. }
  { unfold zlen. rewrite TC. unfold zlen in L. lia. }
  set (ss := [34; 0; 32] ++ sha256 (e_redeem e)) in *.
  assert (Lss : zlen ss = 35) by (unfold ss, zlen; rewrite app_length, (sha256_len _ HO); reflexivity).
  assert (Css : CompactSize 35 [35]) by (constructor; lia).
  set (i' := set_signed i ss [35] ((e_m e + 2) :: bod) true).
  set (t' := mkTx (version t) [i'] (TxOuts t) (locktime t)).
  assert (ES : sign_tx_obj (Multi (wallet e k)) t us = Ok t').
  { eapply sign_tx_complete; eauto.
    - apply (push_key e k O C).
    - reflexivity.
    - apply redeem_zlen; auto.
    - rewrite <- ET. constructor; [|constructor]. unfold signs_in. rewrite G, d_is_segwit_to_dict, d_amount_to_dict, Sg.
      exists msg, ss, ((e_m e + 2) :: bod), [35]. split; [rewrite <- Sg; eapply SigMsg_skel; eauto|]. split; [exact E1|]. split; [|reflexivity].
      rewrite Lss. reflexivity. }
  destruct (cs_exists (TxOuts t) H6) as (no & Eo & Co).
  set (xs := Tin (i_txid xi) (i_vout xi) ss (i_seq xi) []).
  assert (Ri' : RepIn xs i').
  { destruct Ri as [A1 A2 A3 A4 A5 A6 A7 A8]. constructor; auto; cbn [xs i_script].
    - unfold ss. rewrite bytes_ok_app. apply andb_true_iff. split; [reflexivity|]. apply bytes_ok_Forall, HO.
    - unfold zlen in Lss. rewrite Lss. exact Css. }
  eexists. eexists. split; [exact ES|]. unfold tx_bytes. cbn [t' TxIns TxOuts version locktime]. change (int_to_varint (zlen [i'])) with (Ok [1]). cbn [bind].
  rewrite Eo. cbn [bind]. split; [reflexivity|]. cbn [map concat witness i' set_signed]. rewrite !app_nil_r.
  pose proof (LEnum_length _ _ _ H1) as LV. pose proof (LEnum_length _ _ _ H7) as LL.
  intros y NY. split.
  - intros (v & iy & o & w & l & A1 & A2 & A3 & A4 & A5 & Q). pose proof (LEnum_length _ _ _ A1) as LV'. pose proof (LEnum_length _ _ _ A5) as LL'.
    apply app_len_inj in Q as [_ Q]; [|congruence]. cbn [app MARKER FLAG] in Q. injection Q as Q.
    assert (VI : EncVec EncIn [xs] ([1] ++ in_bytes i')).
    { exists [1], (in_bytes i'). split; [constructor; cbn; lia|]. split; auto. rewrite <- (app_nil_r (in_bytes i')). constructor; [apply RepIn_enc; auto|constructor]. }
    assert (VO : EncVec EncOut (t_outs x) (no ++ concat (map out_bytes (TxOuts t)))).
    { exists no, (concat (map out_bytes (TxOuts t))). split; [rewrite (F2_len _ _ _ H5); exact Co|]. split; auto.
      apply (EncSeq_map EncOut RepOut); auto. apply RepOut_enc. }
    change (1 :: in_bytes i' ++ ?r) with ((1 :: in_bytes i') ++ r) in Q. cbn [app] in VI.
    destruct (EncVec_prefix _ _ EncIn_prefix _ _ _ _ _ _ VI A2 Q) as (MI & _ & Q2). cbv beta in MI.
    destruct (EncVec_prefix _ _ EncOut_prefix _ _ _ _ _ _ VO A3 Q2) as (_ & _ & Q3).
    destruct (t_ins y) as [|yi [|? ?]]; try discriminate. cbn [map] in A4. inversion A4 as [|? ? w1 w2 B1 B2]; subst. inversion B2; subst. rewrite app_nil_r in Q3.
    eapply (short_stack items bod (e_m e + 2) (i_wit yi) w1 l (locktime t)); eauto; try lia.
  - intros (v & iy & o & l & A1 & (n & c & Cn & Sq & ->) & A3 & A5 & Q). pose proof (LEnum_length _ _ _ A1) as LV'.
    apply app_len_inj in Q as [_ Q]; [|congruence]. cbn [app MARKER FLAG] in Q. rewrite <- !app_assoc in Q.
    destruct (t_ins y) as [|y0 ys]; [contradiction|]. inversion Cn; subst; cbn [app] in Q; injection Q as Q; cbn [length] in *; lia.
Qed.

End WithCrypto.
