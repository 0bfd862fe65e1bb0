(** C50: create_transaction end to end; C53: balances; C67: what create_transaction leaves behind. *)
From Coq Require Import String Permutation.
From Verif Require Import F_wallet F_utf8 F_spend F_cosigntx X_world F_build P_outputs P_select P_sign P_multi P_wallet.

(** No two coins have the same outpoint. *)
Definition Distinct (us : list Unspent) : Prop := NoDup (map (fun u => (hex_to_bytes (u_txid u), u_txindex u)) us).

Section WithCrypto.
Context {CR : Crypto} (HO : HashOk CR).

(** A coin of a single key, marked as segwit exactly if it is. *)
Definition SingleCoin (k : PrivateKey) (u : Unspent) : Prop :=
  if u_is_segwit u
  then length (k_public_key k) = 33%nat /\ u_script u = bytes_to_hex (p2sh_script ([0x00; 0x14] ++ hash160 (k_public_key k)))
  else u_script u = bytes_to_hex (p2pkh_script (k_public_key k)).
(** A coin of a multisig wallet. *)
Definition MultiCoin (e : Env) (u : Unspent) : Prop :=
  if u_is_segwit u
  then Forall (fun p => length p = 33%nat) (e_pubs e) /\ u_script u = bytes_to_hex (p2sh_script ([0x00; 0x20] ++ sha256 (e_redeem e)))
  else u_script u = bytes_to_hex (p2sh_script (e_redeem e)).

Lemma sign_counts pk t us h : sign_tx pk t us = Ok h -> zlen (TxIns t) < 2 ^ 64 /\ zlen (TxOuts t) < 2 ^ 64.
Proof.
  unfold sign_tx. intros E. apply bind_ok in E as (t' & E & _). unfold sign_tx_obj in E. apply bind_ok in E as (d & _ & E).
  cbv zeta in E. apply bind_ok in E as (b & E & _). unfold tx_is_segwit in E. destruct (tx_bytes t) as [c|] eqn:Et; [|discriminate]. clear E.
  unfold tx_bytes in Et. apply bind_ok in Et as (n & En & Et). cbv zeta in Et. apply bind_ok in Et as (m & Em & _).
  apply varint_spec in En. apply varint_spec in Em. split.
  - inversion En; lia.
  - inversion Em; lia.
Qed.

Lemma match_self (Own : Unspent -> Prop) us xs : Distinct us -> Forall2 InFor us xs -> Forall Own us -> forall j u xi,
  nth_error us j = Some u -> nth_error xs j = Some xi -> Match Own us xi u.
Proof.
  intros D F O j u xi Hu Hx. destruct (F2_nth_l _ _ _ _ _ F Hu) as (xi2 & Hx2 & [[I1 I2] _]). rewrite Hx in Hx2. injection Hx2 as <-.
  apply nth_error_split in Hu as (l1 & l2 & -> & Lj). exists l1, l2. split; auto. apply Forall_app in O as [_ O]. apply Forall_cons_iff in O as [O _].
  split; [split; [exact O|split; auto]|]. apply Forall_forall. intros v Hv [_ [J1 J2]].
  unfold Distinct in D. rewrite map_app in D. cbn [map] in D. apply NoDup_remove_2 in D. apply D. apply in_or_app. right.
  apply in_map_iff. exists v. split; auto. congruence.
Qed.

(** What a new transaction looks like. *)
Definition Built (us : list Unspent) (outs : list (dest * Z)) (h : pystr) (x : tx) : Prop :=
  (exists b, (h = bytes_to_hex b /\ bytes_ok b = true) /\ if existsb u_is_segwit us then EncSegwit x b else EncLegacy x b) /\
  t_ver x = 1 /\ t_lock x = 0 /\ Forall2 InFor us (t_ins x) /\ Forall2 OutFor outs (t_outs x).

Lemma InFor_skel us xs xs' : Forall2 InFor us xs -> map in_skel xs = map in_skel xs' -> Forall2 InFor us xs'.
Proof.
  intros F. revert xs'. induction F as [|u x us xs [[A1 A2] B] F IH]; intros [|x' xs'] E; try discriminate; constructor; cbn in E; injection E as E1 E2 E3 E.
  - split; [split|]; congruence.
  - auto.
Qed.
Lemma existsb_none {A} (f : A -> bool) l : existsb f l = false -> forall a, In a l -> f a = false.
Proof. intros E a Ha. destruct (f a) eqn:Q; auto. assert (existsb f l = true) by (apply existsb_exists; eauto). congruence. Qed.
Lemma Match_In Own us xi u : Match Own us xi u -> In u us.
Proof. intros (l & r & -> & _). apply in_or_app. right. left. auto. Qed.
Lemma new_inputs_len us ins : mapM new_input us = Ok ins -> length ins = length us.
Proof.
  revert ins. induction us as [|u us IH]; intros ins E; cbn [mapM] in E; [injection E as <-; auto|].
  apply bind_ok in E as (i & _ & E). apply bind_ok in E as (is & E2 & E). injection E as <-. cbn. rewrite (IH is E2). auto.
Qed.
Lemma new_tx_len v ins outs l : length (TxIns (new_tx v ins outs l)) = length ins.
Proof. unfold new_tx. cbn [TxIns]. destruct (existsb _ _); auto. apply map_length. Qed.

Lemma created sg us outs h : create_new_transaction sg us outs = Ok h -> Forall TxidOk us -> Forall DataOk outs ->
  exists x t, sign_tx sg t us = Ok h /\ RepObj x t /\ t_ver x = 1 /\ t_lock x = 0 /\ Forall2 InFor us (t_ins x) /\ Forall2 OutFor outs (t_outs x) /\
    Forall (fun i => i_script i = [] /\ i_wit i = []) (t_ins x) /\
    (existsb u_is_segwit us = true -> all_wit t) /\ (existsb u_is_segwit us = false -> no_wits t) /\
    Forall (fun u => 0 <= u_amount u < 2 ^ 64 /\ exists op, UnspentOutpoint u op) us.
Proof.
  intros E T D. unfold create_new_transaction in E. apply bind_ok in E as (txouts & Eo & E). apply bind_ok in E as (ins & Ei & E).
  destruct (sign_counts _ _ _ _ E) as [N1 N2]. unfold zlen in N1, N2. rewrite new_tx_len, (new_inputs_len _ _ Ei) in N1. cbn [TxOuts new_tx] in N2.
  destruct (outs_rep _ _ D Eo) as (xo & FO & RO). assert (LO : length txouts = length outs) by (rewrite <- (F2_len _ _ _ RO); symmetry; apply (F2_len _ _ _ FO)).
  rewrite LO in N2. destruct (build_rep us outs ins txouts T D N1 N2 Eo Ei) as (x & R & V & L & FI & FOx & FS & A1 & A2).
  exists x. eexists. split; [exact E|]. split; [exact R|]. do 6 (split; auto). split; auto.
  clear -Ei. revert ins Ei. induction us as [|u us IH]; intros ins E; cbn [mapM] in E; constructor.
  - apply bind_ok in E as (i & E & _). unfold new_input in E. apply bind_ok in E as (t & Et & E). apply bind_ok in E as (vo & Ev & E). apply bind_ok in E as (am & Ea & E).
    split.
    + unfold to_bytes_le in Ea. destruct ((u_amount u <? 0) || _) eqn:Q; [discriminate|]. change (256 ^ Z.of_nat 8) with (2 ^ 64) in Q. lia.
    + exists (rev t ++ vo), t, vo. auto.
  - apply bind_ok in E as (i & _ & E). apply bind_ok in E as (is & E2 & E). eauto.
Qed.

Theorem C50_new_single k us outs h : KeyOk k -> us <> [] -> Forall TxidOk us -> Distinct us -> Forall (SingleCoin k) us -> Forall DataOk outs ->
  create_new_transaction (Single k) us outs = Ok h ->
  exists x, Built us outs h x /\
    forall j u xi, nth_error us j = Some u -> nth_error (t_ins x) j = Some xi -> spends_single k x j u xi.
Proof.
  intros K NE T D SC DO E. destruct (created _ _ _ _ E T DO) as (x & t & Es & R & V & L & FI & FO & FS & A1 & A2 & _).
  assert (OW : Forall (OwnedBy (k_public_key k)) us).
  { eapply Forall_impl; [|exact SC]. intros u Hu. unfold SingleCoin in Hu. unfold OwnedBy, OwnedScript. destruct (u_is_segwit u); [destruct Hu as [Hl Hu]|]; eauto. }
  pose proof (match_self _ us (t_ins x) D FI OW) as MS.
  assert (NX : t_ins x <> []) by (intros Q; rewrite Q in FI; inversion FI; congruence).
  assert (U : Uniform (OwnedBy (k_public_key k)) us x t).
  { destruct (existsb u_is_segwit us) eqn:Q; [left; auto|]. right. left. split; auto. intros xi u _ M. eapply existsb_none; eauto. eapply Match_In; eauto. }
  destruct (C31_spends HO k us x t h K R NX U Es) as (x' & b & Hb & Sk & _ & EA & EN & F). exists x'.
  destruct Sk as (S1 & S2 & S3 & S4).
  split.
  - split; [exists b; split; auto|].
    + destruct (existsb u_is_segwit us) eqn:Q; [auto|]. apply EN; auto. intros xi u _ M. eapply existsb_none; eauto. eapply Match_In; eauto.
    + split; [congruence|]. split; [congruence|]. split; [|congruence]. eapply InFor_skel; eauto.
  - intros j u xi' Hu Hx'. destruct (F2_nth_l _ _ _ _ _ FI Hu) as (xi & Hx & _). destruct (F j xi Hx) as (xi2 & Hx2 & _ & Q).
    rewrite Hx' in Hx2. injection Hx2 as <-. apply Q. eapply MS; eauto.
Qed.

Theorem C50_new_multi e k ks us outs h : EnvOk e -> Signers e (k :: ks) -> zlen (k :: ks) <= e_m e -> us <> [] -> Forall TxidOk us -> Distinct us -> Forall (MultiCoin e) us -> Forall DataOk outs ->
  create_new_transaction (Multi (wallet e k)) us outs = Ok h ->
  exists h' x, pass_all e us h ks = Ok h' /\ Built us outs h' x /\
    forall j u xi, nth_error us j = Some u -> nth_error (t_ins x) j = Some xi -> exists z, part_spends e (k :: ks) x j u z xi /\ (zlen (k :: ks) = e_m e -> z = 0%nat).
Proof.
  intros EO SG LM NE T D SC DO E. destruct (created _ _ _ _ E T DO) as (x & t & Es & R & V & L & FI & FO & FS & A1 & A2 & AO).
  assert (OW : Forall (OwnE e) us).
  { eapply Forall_impl; [|exact SC]. intros u Hu. unfold MultiCoin in Hu. unfold OwnE. destruct (u_is_segwit u); auto. }
  pose proof (match_self _ us (t_ins x) D FI OW) as MS.
  assert (NX : t_ins x <> []) by (intros Q; rewrite Q in FI; inversion FI; congruence).
  assert (U : Uniform (OwnE e) us x t).
  { destruct (existsb u_is_segwit us) eqn:Q; [left; auto|]. right. left. split; auto. intros xi u _ M. eapply existsb_none; eauto. eapply Match_In; eauto. }
  assert (SP : Spendable e us).
  { assert (Ed : exists d, build_dict (Multi (wallet e k)) us [] = Ok d).
    { unfold sign_tx in Es. apply bind_ok in Es as (t' & Es & _). unfold sign_tx_obj in Es. apply bind_ok in Es as (d & Ed & _). eauto. }
    destruct Ed as (d & Ed). apply build_dict_can in Ed. constructor.
    - intros k'. exact Ed.
    - eapply Forall_impl; [|exact AO]. intros u [_ Q]. exact Q.
    - eapply Forall_impl; [|exact AO]. intros u [Q _] _. exact Q. }
  assert (RD : Ready e us x t).
  { split; auto. split; auto. split; auto. intros xi u Hi _. rewrite Forall_forall in FS. destruct (FS xi Hi). auto. }
  destruct (C33_kept HO e us x t k ks EO SP RD SG LM) as (h' & b & x' & Ec & Hb & EA & EN & Sk & _ & F).
  unfold cosign in Ec. rewrite Es in Ec. cbn [bind] in Ec. exists h', x'. destruct Sk as (S1 & S2 & S3 & S4). split; [exact Ec|]. split.
  - split; [exists b; split; auto|].
    + destruct (existsb u_is_segwit us) eqn:Q; [apply EA; left; auto|]. apply EN. intros [A|(xi & u & _ & M & S)].
      * specialize (A2 eq_refl). destruct R as [[_ H2 _ _ _ _ _]]. unfold all_wit, no_wits in *. destruct (TxIns t) as [|i r]; [inversion H2; congruence|].
        apply Forall_cons_iff in A as [A _]. apply Forall_cons_iff in A2 as [A2 _]. auto.
      * rewrite (existsb_none _ _ Q u (Match_In _ _ _ _ M)) in S. discriminate.
    + split; [congruence|]. split; [congruence|]. split; [|congruence]. eapply InFor_skel; eauto.
  - intros j u xi' Hu Hx'. destruct (F2_nth_l _ _ _ _ _ FI Hu) as (xi & Hx & _). destruct (F j xi u Hx (MS j u xi Hu Hx)) as (xi2 & z & Hx2 & PS & Z0).
    rewrite Hx' in Hx2. injection Hx2 as <-. exists z. split; auto.
Qed.

(** ** The whole call *)
Context {W Amt : Type} {WD : World W Amt}.

(** The coins that create_transaction chooses from, and the state then: those
    given, or else those fetched. *)
Definition Available (sg : signer) (unspents : option (list Unspent)) (s : @Wallet W) (us : list Unspent) (s1 : @Wallet W) : Prop :=
  match unspents with
  | Some (u :: r) => us = u :: r /\ s1 = set_caller us s
  | _ => get_unspents sg s = (Ok us, s1)
  end.
Definition given (unspents : option (list Unspent)) : bool := match unspents with Some (_ :: _) => true | _ => false end.
(** The fee rate: the one given, or (none or zero given) the recommended one. *)
Inductive FeeRate : option Z -> W -> Z -> W -> Prop :=
| F_given f w : f <> 0 -> FeeRate (Some f) w f w
| F_recommended fee w f w' : fee = None \/ fee = Some 0 -> w_fee w = (Ok f, w') -> FeeRate fee w f w'.
Lemma fee_rate fee w f w' : fee_or_cached fee w = (Ok f, w') <-> FeeRate fee w f w'.
Proof.
  split; [|intros [g v N|fee' v g v' [-> | ->] E]; cbn; auto; destruct (Z.eqb_spec g 0); [contradiction|reflexivity]].
  unfold fee_or_cached. intros E. destruct fee as [g|]; [|constructor 2; auto]. destruct (Z.eqb_spec g 0) as [->|N]; [constructor 2; auto|].
  injection E as <- <-. constructor. auto.
Qed.
(** Characters are code points, bytes are bytes. *)
Definition MsgOk (o : Options) : Prop :=
  match o_message o with None => True | Some (MText s) => Forall is_char s | Some (MBytes b) => bytes_ok b = true end.

Lemma create_steps sg outputs fee leftover unspents o s h s' :
  create_transaction sg outputs fee leftover unspents o s = (Ok h, s') ->
  exists us s1 back f w1 sel outs w2, Available sg unspents s us s1 /\
    FeeRate fee (wl_world s1) f w1 /\
    sanitize_tx_data outputs f back 0 (sg_version sg) o (us, w1) = (Ok (sel, outs), (sel, w2)) /\
    create_new_transaction sg sel outs = Ok h /\
    s' = set_world w2 ((if given unspents then set_caller sel else set_unspents sel) s1) /\
    (match leftover with Some (c :: r) => back = Some (c :: r) | _ =>
       if existsb u_is_segwit us then sg_segwit_address sg = Ok back else exists a, sg_address sg = Ok a /\ back = Some a end).
Proof.
  unfold create_transaction. intros E. apply ibind_ok in E as ((own & us) & s1 & E1 & E). cbv beta iota in E.
  assert (A : Available sg unspents s us s1 /\ own = negb (given unspents) /\ (own = true -> wl_unspents s1 = us) /\ (own = false -> wl_caller s1 = us)).
  { destruct unspents as [[|u r]|]; cbn [nonempty] in E1.
    - apply ibind_ok in E1 as (us0 & s0 & E0 & E1). injection E1 as <- <- <-. split; auto. split; auto. split; [|discriminate]. intros _.
      unfold get_unspents in E0. apply ibind_ok in E0 as (((? & ?) & ? & ?) & ? & _ & E0). cbv beta iota in E0.
      do 3 (apply ibind_ok in E0 as (? & ? & _ & E0)). apply ibind_ok in E0 as (? & ? & _ & E0). apply ibind_ok in E0 as (? & ? & _ & E0).
      apply ibind_ok in E0 as (? & ? & _ & E0). apply ibind_ok in E0 as (? & ? & G & E0). unfold iget in G. injection G as -> ->. injection E0 as <- <-. auto.
    - apply ibind_ok in E1 as (? & s0 & E0 & E1). unfold modify, iget, iput, ibind in E0. injection E0 as <- <-. injection E1 as <- <- <-. cbn. split; auto. split; auto. split; [discriminate|auto].
    - apply ibind_ok in E1 as (us0 & s0 & E0 & E1). injection E1 as <- <- <-. split; auto. split; auto. split; [|discriminate]. intros _.
      unfold get_unspents in E0. apply ibind_ok in E0 as (((? & ?) & ? & ?) & ? & _ & E0). cbv beta iota in E0.
      do 3 (apply ibind_ok in E0 as (? & ? & _ & E0)). apply ibind_ok in E0 as (? & ? & _ & E0). apply ibind_ok in E0 as (? & ? & _ & E0).
      apply ibind_ok in E0 as (? & ? & _ & E0). apply ibind_ok in E0 as (? & ? & G & E0). unfold iget in G. injection G as -> ->. injection E0 as <- <-. auto. }
  destruct A as (A & Hown & O1 & O2).
  apply ibind_ok in E as (ra & s2 & Er & E). apply ilift_ok in Er as (Er & ->).
  apply ibind_ok in E as (f & s2 & Ef & E). unfold world, zoom in Ef. destruct (fee_or_cached fee (wl_world s1)) as (rf & w1) eqn:EF. injection Ef as -> <-.
  apply ibind_ok in E as ((sel & outs) & s3 & Es & E). cbv beta iota in E. apply ilift_ok in E as (En & ->).
  match type of Es with context [sanitize_tx_data _ _ ?b _ _ _] => set (back := b) in * end.
  assert (Q : exists w2, sanitize_tx_data outputs f back 0 (sg_version sg) o (us, w1) = (Ok (sel, outs), (sel, w2)) /\
     s3 = set_world w2 ((if own then set_unspents sel else set_caller sel) s1)).
  { unfold run_sanitize in Es. destruct own.
    - unfold zoom in Es. cbn [wl_unspents set_world wl_world] in Es. rewrite (O1 eq_refl) in Es.
      destruct (sanitize_tx_data outputs f back 0 (sg_version sg) o (us, w1)) as (r & (us' & w2)) eqn:Es'. injection Es as -> <-.
      destruct (C49_caller_list _ _ _ _ _ _ _ _ _ _ _ Es') as [[_ (e & Q)]|(? & ? & ? & ? & ? & ? & _ & _ & _ & _ & Q)]; [discriminate|].
      rewrite (Q _ _ eq_refl) in *. exists w2. split; auto.
    - unfold zoom in Es. cbn [wl_caller set_world wl_world] in Es. rewrite (O2 eq_refl) in Es.
      destruct (sanitize_tx_data outputs f back 0 (sg_version sg) o (us, w1)) as (r & (us' & w2)) eqn:Es'. injection Es as -> <-.
      destruct (C49_caller_list _ _ _ _ _ _ _ _ _ _ _ Es') as [[_ (e & Q)]|(? & ? & ? & ? & ? & ? & _ & _ & _ & _ & Q)]; [discriminate|].
      rewrite (Q _ _ eq_refl) in *. exists w2. split; auto. }
  destruct Q as (w2 & Q1 & Q2). apply fee_rate in EF. exists us, s1, back, f, w1, sel, outs, w2. do 4 (split; auto). split.
  - rewrite Q2, Hown. destruct (given unspents); reflexivity.
  - unfold back. destruct leftover as [[|c r]|]; cbn [nonempty]; auto; destruct (existsb u_is_segwit us); auto;
      (destruct (sg_address sg) as [a|]; [|discriminate]); cbn [rmap] in Er; injection Er as <-; eauto.
Qed.

Lemma message_data o msgs : MsgOk o -> message_outputs (o_message o) (o_message_is_hex o) = Ok msgs -> Forall DataOk msgs.
Proof.
  intros M E. unfold MsgOk in M. destruct (o_message o) as [m|]; [|injection E as <-; constructor].
  assert (G : forall b, MsgBytes m (o_message_is_hex o) b -> bytes_ok b = true -> Forall DataOk msgs).
  { intros b MB OK. destruct (C46_payloads m _ b MB) as (chunks & E' & Cc & _). rewrite E in E'. injection E' as ->. apply Forall_map. apply Forall_forall.
    intros c Hc. unfold DataOk. cbn [fst]. apply bytes_ok_Forall. apply bytes_ok_Forall in OK. rewrite Forall_forall in *. intros z Hz. apply OK. subst b.
    apply in_concat. eauto. }
  destruct m as [t|b]; destruct (o_message_is_hex o) eqn:H.
  - unfold message_outputs in E. destruct (msg_empty _); [injection E as <-; constructor|]. cbn [bind] in E. injection E as <-. apply Forall_map. apply Forall_map.
    apply Forall_forall. intros c _. exact I.
  - unfold message_outputs in E. destruct (msg_empty _) eqn:Q; [injection E as <-; constructor|]. apply bind_ok in E as (ch & E & _). apply bind_ok in E as (b & Eb & _).
    pose proof (utf8_sound _ _ M Eb) as U. apply (G b); [split; auto|]. apply bytes_ok_Forall. apply (Utf8_chars _ _ U).
  - apply (G b); auto. split; auto.
  - unfold message_outputs in E. destruct (msg_empty _) eqn:Q; [injection E as <-; constructor|]. discriminate.
Qed.

Lemma rbf_keep u : u_txid (opt_in_for_RBF u) = u_txid u /\ u_txindex (opt_in_for_RBF u) = u_txindex u /\ u_script (opt_in_for_RBF u) = u_script u /\
  u_is_segwit (opt_in_for_RBF u) = u_is_segwit u /\ u_amount (opt_in_for_RBF u) = u_amount u.
Proof. unfold opt_in_for_RBF. destruct (_ >? _); auto 6. Qed.

Lemma sel_coins (RO : RandomOk WD) (P : Unspent -> Prop) us w outputs f back v o sel outs w2 :
  (forall u, P u -> P (opt_in_for_RBF u)) -> Forall P us -> Distinct us ->
  sanitize_tx_data outputs f back 0 v o (us, w) = (Ok (sel, outs), (sel, w2)) -> Forall P sel /\ Distinct sel /\ sel <> [].
Proof.
  intros HP FP D E. destruct (C44_inputs RO _ _ _ _ _ _ _ _ _ _ _ _ E) as (taken & unused & Pm & NE & _ & ->).
  assert (FT : Forall P taken) by (eapply Permutation_Forall in FP; [|apply Permutation_sym; exact Pm]; apply Forall_app in FP as [FP _]; auto).
  assert (DT : Distinct taken).
  { unfold Distinct in *. eapply Permutation_NoDup in D; [|apply Permutation_map, Permutation_sym; exact Pm]. rewrite map_app in D. revert D. clear.
    generalize (map (fun u => (hex_to_bytes (u_txid u), u_txindex u)) taken) as l. intros l. induction l as [|a l IH]; cbn; intros D; [constructor|]. inversion D; subst.
    constructor; auto. intros Q. apply H1. apply in_or_app. auto. }
  destruct (o_replace_by_fee o); [|auto]. split; [|split].
  - apply Forall_map. eapply Forall_impl; eauto.
  - unfold Distinct in *. rewrite map_map. erewrite map_ext; [exact DT|]. intros u. cbv beta. destruct (rbf_keep u) as (-> & -> & _). auto.
  - destruct taken; [contradiction|discriminate].
Qed.

(** What the caller asked for, in the transaction [x] with the hex string [h]:
    the payments in order, then the change, then the message; inputs for the
    coins [sel], chosen among [us]. *)
Definition Asked (sg : signer) (outputs : list (pystr * Amt * pystr)) (fee : Z) (leftover : option pystr) (o : Options) (us sel : list Unspent)
    (w : W) (h : pystr) (x : tx) : Prop :=
  exists outs sats w1 change msgs back,
    Built sel outs h x /\ Converted w outputs sats w1 /\
    outs = combine (map Addr (dests outputs)) sats ++ change ++ msgs /\ length sats = length outputs /\
    (change = [] \/ exists n, 0 < n /\ change = [(Addr back, n)]) /\
    (match leftover with
     | Some (c :: r) => back = c :: r
     | _ => if existsb u_is_segwit us then sg_segwit_address sg = Ok (Some back) else sg_address sg = Ok back
     end) /\
    (Forall (fun p => snd p = 0) msgs /\
     match o_message o with
     | None => msgs = []
     | Some m => forall b, MsgBytes m (o_message_is_hex o) b -> exists chunks, msgs = map (fun c => (Data c, 0)) chunks /\ Chunks b chunks
     end) /\
    (exists taken unused, Permutation (taken ++ unused) us /\ taken <> [] /\ (o_combine o = true -> taken = us) /\
      sel = if o_replace_by_fee o then map opt_in_for_RBF taken else taken) /\
    exists sizes, OutputSizes (dests outputs) (length msgs) back sizes /\
      let paid := amounts sel - total (map o_value (t_outs x)) in
      (FeeFor (o_absolute_fee o) fee sizes sel paid \/
       (o_absolute_fee o = false /\ o_combine o = false /\ change = [] /\ Changeless (total sats) fee sizes (map coin sel))).

Lemma Converted_fun w (l : list (pystr * Amt * pystr)) : forall sats sats' w1 w2, Converted w l sats w1 -> Converted w l sats' w2 -> sats = sats' /\ w1 = w2.
Proof.
  revert w. induction l as [|((a & n) & c) l IH]; intros w sats sats' w1 w2 H H'; inversion H; subst; inversion H'; subst; auto.
  match goal with A : w_convert n c w = _, B : w_convert n c w = _ |- _ => rewrite A in B; injection B as <- <- end.
  match goal with A : Converted ?w l ?x w1, B : Converted ?w l ?y w2 |- _ => destruct (IH _ _ _ _ _ A B) as [-> ->] end. auto.
Qed.
Lemma outs_values outs xs : Forall2 OutFor outs xs -> map o_value xs = map snd outs.
Proof. induction 1 as [|o x outs xs [H _] F IH]; cbn; congruence. Qed.

Lemma asked (RO : RandomOk WD) sg outputs f leftover o us w back sel outs w2 h x :
  sanitize_tx_data outputs f back 0 (sg_version sg) o (us, w) = (Ok (sel, outs), (sel, w2)) -> Built sel outs h x ->
  (match leftover with Some (c :: r) => back = Some (c :: r) | _ =>
       if existsb u_is_segwit us then sg_segwit_address sg = Ok back else exists a, sg_address sg = Ok a /\ back = Some a end) ->
  Asked sg outputs f leftover o us sel w h x.
Proof.
  intros E B Hb. destruct (C44_outputs _ _ _ _ _ _ _ _ _ _ _ _ E) as (sats & w1 & change & msgs & bk & C & -> & Eo & L & Hc & Hm & Hmsg).
  destruct (C44_inputs RO _ _ _ _ _ _ _ _ _ _ _ _ E) as (taken & unused & Pm & NE & Hall & Hs).
  exists outs, sats, w1, change, msgs, bk. do 5 (split; auto). split.
  - destruct leftover as [[|c r]|]; [|congruence|]; destruct (existsb u_is_segwit us); auto; destruct Hb as (a & Ha & Q); congruence.
  - split.
    { split; auto. clear -Hmsg. unfold message_outputs in Hmsg. destruct (o_message o) as [m|]; [|injection Hmsg as <-; constructor].
      destruct (msg_empty m); [injection Hmsg as <-; constructor|]. apply bind_ok in Hmsg as (ch & _ & Em). injection Em as <-.
      apply Forall_map. apply Forall_forall. auto. }
    split; [exists taken, unused; auto|].
    destruct (C44_books RO _ _ _ _ _ _ _ _ _ _ _ _ (Z.le_refl 0) E) as (sats' & w1' & msgs' & bk' & sizes & C' & Q & Em & SZ & F).
    injection Q as <-. destruct (Converted_fun _ _ _ _ _ _ C C') as [<- _].
    assert (msgs' = msgs) as ->.
    { congruence. }
    exists sizes. split; auto. destruct B as (_ & _ & _ & _ & B). rewrite (outs_values _ _ B). cbv zeta in *. destruct F as [F|(F1 & F2 & F3 & F4)]; [left; auto|].
    right. do 3 (split; auto). destruct Hc as [Hc|(n & Hn & Hc)]; auto. exfalso.
    rewrite Eo, !map_app, !total_app, Hc in F3. assert (T0 : total (map snd msgs) = 0).
    { clear -Em. unfold message_outputs in Em. destruct (o_message o) as [m|]; [|injection Em as <-; reflexivity].
      destruct (msg_empty m); [injection Em as <-; reflexivity|]. apply bind_ok in Em as (ch & _ & Em). injection Em as <-. induction ch; cbn; auto. }
    assert (T1 : map snd (combine (map Addr (dests outputs)) sats) = sats).
    { assert (Hl : length (map Addr (dests outputs)) = length sats) by (unfold dests; rewrite !map_length; auto). clear -Hl. revert sats Hl.
      generalize (map Addr (dests outputs)) as l. intros l. induction l; intros [|n sats] H; try discriminate; cbn; auto. injection H as H. rewrite (IHl sats H). auto. }
    rewrite T0, T1 in F3. cbn in F3. lia.
Qed.

Theorem C50_create_single (RO : RandomOk WD) k outputs fee leftover unspents o s h s' us s1 :
  KeyOk k -> MsgOk o -> create_transaction (Single k) outputs fee leftover unspents o s = (Ok h, s') ->
  Available (Single k) unspents s us s1 -> Forall TxidOk us -> Distinct us -> Forall (SingleCoin k) us ->
  exists x sel f w, FeeRate fee (wl_world s1) f w /\ Asked (Single k) outputs f leftover o us sel w h x /\
    forall j u xi, nth_error sel j = Some u -> nth_error (t_ins x) j = Some xi -> spends_single k x j u xi.
Proof.
  intros K M E A T D SC. destruct (create_steps _ _ _ _ _ _ _ _ _ E) as (us2 & s2 & back & f & w1 & sel & outs & w2 & A2 & Ef & Es & En & _ & Hb).
  assert (us2 = us /\ s2 = s1) as [-> ->]. { unfold Available in *. destruct unspents as [[|u r]|]; intuition congruence. }
  assert (P : Forall (fun u => TxidOk u /\ SingleCoin k u) us) by (rewrite Forall_forall in *; auto).
  destruct (sel_coins RO (fun u => TxidOk u /\ SingleCoin k u) us w1 outputs f back (sg_version (Single k)) o sel outs w2) as (P' & D' & NE'); auto.
  { intros u [H1 H2]. unfold TxidOk, SingleCoin in *. destruct (rbf_keep u) as (-> & _ & -> & -> & _). auto. }
  assert (DO : Forall DataOk outs).
  { destruct (C45_same_network _ _ _ _ _ _ _ _ _ _ _ _ Es) as (pay & msgs & -> & Em & Fp & _). apply Forall_app. split; [|eapply message_data; eauto].
    eapply Forall_impl; [|exact Fp]. intros (d & n) (a & Q & _). cbn in Q. subst d. exact I. }
  destruct (C50_new_single k sel outs h K NE') as (x & B & S); auto.
  { eapply Forall_impl; [|exact P']. intros u [Q _]. exact Q. }
  { eapply Forall_impl; [|exact P']. intros u [_ Q]. exact Q. }
  exists x, sel, f, w1. split; auto. split; auto. eapply asked; eauto.
Qed.

(** The creator's transaction completed by further co-signers (if any). *)
Theorem C50_create_multi (RO : RandomOk WD) e k ks outputs fee leftover unspents o s h s' us s1 :
  EnvOk e -> Signers e (k :: ks) -> zlen (k :: ks) <= e_m e -> MsgOk o -> create_transaction (Multi (wallet e k)) outputs fee leftover unspents o s = (Ok h, s') ->
  Available (Multi (wallet e k)) unspents s us s1 -> Forall TxidOk us -> Distinct us -> Forall (MultiCoin e) us ->
  exists h' x sel f w, FeeRate fee (wl_world s1) f w /\ pass_all e sel h ks = Ok h' /\ Asked (Multi (wallet e k)) outputs f leftover o us sel w h' x /\
    forall j u xi, nth_error sel j = Some u -> nth_error (t_ins x) j = Some xi -> exists z, part_spends e (k :: ks) x j u z xi /\ (zlen (k :: ks) = e_m e -> z = 0%nat).
Proof.
  intros EO K LM M E A T D SC. destruct (create_steps _ _ _ _ _ _ _ _ _ E) as (us2 & s2 & back & f & w1 & sel & outs & w2 & A2 & Ef & Es & En & _ & Hb).
  assert (us2 = us /\ s2 = s1) as [-> ->]. { unfold Available in *. destruct unspents as [[|u r]|]; intuition congruence. }
  assert (P : Forall (fun u => TxidOk u /\ MultiCoin e u) us) by (rewrite Forall_forall in *; auto).
  destruct (sel_coins RO (fun u => TxidOk u /\ MultiCoin e u) us w1 outputs f back (sg_version (Multi (wallet e k))) o sel outs w2) as (P' & D' & NE'); auto.
  { intros u [H1 H2]. unfold TxidOk, MultiCoin in *. destruct (rbf_keep u) as (-> & _ & -> & -> & _). auto. }
  assert (DO : Forall DataOk outs).
  { destruct (C45_same_network _ _ _ _ _ _ _ _ _ _ _ _ Es) as (pay & msgs & -> & Em & Fp & _). apply Forall_app. split; [|eapply message_data; eauto].
    eapply Forall_impl; [|exact Fp]. intros (d & n) (a & Q & _). cbn in Q. subst d. exact I. }
  destruct (C50_new_multi e k ks sel outs h EO K LM NE') as (h' & x & Ep & B & S); auto.
  { eapply Forall_impl; [|exact P']. intros u [Q _]. exact Q. }
  { eapply Forall_impl; [|exact P']. intros u [_ Q]. exact Q. }
  exists h', x, sel, f, w1. split; auto. split; auto. split; auto. eapply asked; eauto.
Qed.
End WithCrypto.
Print Assumptions C50_new_single.
Print Assumptions C50_new_multi.
Print Assumptions C50_create_single.
Print Assumptions C50_create_multi.

(** ** The hypotheses are met: two payments, change and a message in the toy
    world; the coins are fetched (a single key) or given (a 2-of-3 wallet). *)
Definition wallet0 : @Wallet (list pystr) := mkWallet [] 0 [] [] [].
Definition toy_fetched := @get_unspents toy _ _ toy_world (Single wkey) wallet0.
Definition create_toy (rbf : bool) := @create_transaction toy _ _ toy_world (Single wkey) (wouts other_key) None None None (wopts true rbf) wallet0.
Definition mouts : list (pystr * Z * pystr) := [(addr_of other_key, 6000, str "satoshi")].
Definition create_toy_multi := @create_transaction toy _ _ toy_world (Multi (wallet toy_env (toy_k 5))) mouts (Some 3) None (Some toy_mus) (wopts true true) wallet0.

Lemma is_ok {A B} (r : result A * B) : (match fst r with Ok _ => true | _ => false end) = true -> exists a b, r = (Ok a, b).
Proof. destruct r as ([a|] & b); [eauto|discriminate]. Qed.
Definition txid_okb (u : Unspent) : bool := match hex_to_bytes (u_txid u) with Ok t => (length t =? 32)%nat | _ => false end.
Lemma txid_okb_ok u : txid_okb u = true -> TxidOk u.
Proof. unfold txid_okb, TxidOk. destruct (hex_to_bytes (u_txid u)) as [t|]; [|discriminate]. intros E. exists t. split; auto. apply Nat.eqb_eq. auto. Qed.
Definition single_coinb (u : Unspent) : bool :=
  if u_is_segwit u then list_eqb (u_script u) (bytes_to_hex (@p2sh_script toy ([0x00; 0x14] ++ @hash160 toy (k_public_key wkey))))
  else list_eqb (u_script u) (bytes_to_hex (@p2pkh_script toy (k_public_key wkey))).
Lemma single_coinb_ok u : single_coinb u = true -> @SingleCoin toy wkey u.
Proof. unfold single_coinb, SingleCoin. destruct (u_is_segwit u); intros E; [split; [reflexivity|]|]; apply list_eqb_eq; auto. Qed.
Fixpoint distinctb (l : list Z) : bool := match l with [] => true | a :: r => negb (existsb (Z.eqb a) r) && distinctb r end.
Lemma distinct_index us : distinctb (map u_txindex us) = true -> Distinct us.
Proof.
  unfold Distinct. induction us as [|u us IH]; cbn; intros E; constructor; apply andb_true_iff in E as [E1 E2]; auto.
  intros I. apply in_map_iff in I as (v & Q & I). injection Q as _ Q. apply negb_true_iff in E1.
  assert (existsb (Z.eqb (u_txindex u)) (map u_txindex us) = true) by (apply existsb_exists; exists (u_txindex v); split; [apply in_map; auto|lia]). congruence.
Qed.
Example C50_single_hypotheses : @KeyOk toy wkey /\ MsgOk (wopts true true) /\ (exists h s', create_toy true = (Ok h, s')) /\
  exists us s1, toy_fetched = (Ok us, s1) /\ length us = 3%nat /\ Forall TxidOk us /\ Distinct us /\ Forall (@SingleCoin toy wkey) us /\
    existsb u_is_segwit us = true.
Proof.
  split; [apply toy_key_ok|]. split; [cbn; repeat constructor; unfold is_char; lia|]. split; [apply is_ok; vm_compute; reflexivity|].
  assert (G : (match toy_fetched with (Ok us, _) => (length us =? 3)%nat && forallb txid_okb us && distinctb (map u_txindex us) && forallb single_coinb us && existsb u_is_segwit us
    | _ => false end) = true) by (vm_compute; reflexivity).
  revert G. generalize toy_fetched. intros ([us|] & s1) G; [|discriminate]. exists us, s1. split; auto.
  apply andb_true_iff in G as [G G5]. apply andb_true_iff in G as [G G4]. apply andb_true_iff in G as [G G3]. apply andb_true_iff in G as [G1 G2].
  split; [apply Nat.eqb_eq; auto|]. rewrite forallb_forall in G2, G4. split; [apply Forall_forall; intros u Hu; apply txid_okb_ok; auto|].
  split; [apply distinct_index; auto|]. split; [apply Forall_forall; intros u Hu; apply single_coinb_ok; auto|auto].
Qed.
Example C50_multi_hypotheses : @EnvOk toy toy_env /\ @Signers toy toy_env [toy_k 5; toy_k 7] /\ zlen [toy_k 5; toy_k 7] <= e_m toy_env /\ MsgOk (wopts true true) /\ (exists h s', create_toy_multi = (Ok h, s')) /\
  Forall TxidOk toy_mus /\ Distinct toy_mus /\ Forall (@MultiCoin toy toy_env) toy_mus.
Proof.
  split; [apply toy_env_ok|]. split; [apply toy_signers; auto; lia|]. split; [unfold zlen; cbn; lia|]. split; [cbn; repeat constructor; unfold is_char; lia|]. split; [apply is_ok; vm_compute; reflexivity|].
  split; [constructor; [apply txid_okb_ok; vm_compute; reflexivity|]; constructor; [apply txid_okb_ok; vm_compute; reflexivity|]; constructor|].
  split; [apply distinct_index; reflexivity|]. constructor; [reflexivity|]. constructor; [|constructor]. split; [repeat constructor|reflexivity].
Qed.
