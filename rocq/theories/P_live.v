(** C82: with enough coins and readable addresses, transactions get made. *)
From Coq Require Import String Permutation.
From Verif Require Import F_address F_signtx F_wallet F_utf8 F_spend F_cosigntx F_build F_redeem F_wire P_outputs P_select P_sign P_multi P_wallet P_create P_send.
From Verif Require Import S_Consensus P_consensus X_world.

(** Numbers of a coin that fit into their fields. *)
Definition InRange (u : Unspent) : Prop := 0 <= u_txindex u < 2 ^ 32 /\ 0 <= u_sequence u < 2 ^ 32.

Section WithCrypto.
Context {CR : Crypto} (HO : HashOk CR).

(** An address that the code accepts and can pay to. *)
Definition Payable (v : net) (a : pystr) : Prop := get_version a = Ok v /\ exists script, address_to_scriptpubkey a = Ok (Some script) /\ zlen script < 2 ^ 64.
(** The wallet's own addresses are recognised as such: none of them happens to
    be a Bech32 string as well. *)
Definition OwnAddresses (sg : signer) : Prop :=
  (exists a, sg_address sg = Ok a /\ get_version a = Ok (sg_version sg)) /\
  (exists sa, sg_segwit_address sg = Ok sa /\ forall a, sa = Some a -> get_version a = Ok (sg_version sg)).

Lemma own_script v h n : In v (match n with Main => main_vers | Test => test_vers end) ->
  bytes_ok h = true -> length h = 20%nat -> (exists x, In x (v :: h) /\ x <> 0) -> get_version (b58encode_check (v :: h)) = Ok n ->
  exists s, address_to_scriptpubkey (b58encode_check (v :: h)) = Ok (Some s).
Proof.
  intros Hv Hh Hl Hx G. destruct (address_exact HO v h n Hv Hh Hl Hx) as [A B]. cbv zeta in *.
  destruct (bech32_decode (b58encode_check (v :: h))) eqn:D.
  - destruct (B ltac:(discriminate)) as [C _]. congruence.
  - destruct (A eq_refl) as (_ & _ & C). eauto.
Qed.
Lemma own_p2sh n m redeem : get_version (b58encode_check ((match n with Test => TEST_SCRIPT_HASH | Main => MAIN_SCRIPT_HASH end) ++ ripemd160_sha256 redeem)) = Ok m -> m = n ->
  exists s, address_to_scriptpubkey (b58encode_check ((match n with Test => TEST_SCRIPT_HASH | Main => MAIN_SCRIPT_HASH end) ++ ripemd160_sha256 redeem)) = Ok (Some s).
Proof.
  intros G ->. fold (hash160 redeem) in *. destruct n.
  - apply (own_script 5 _ Main); auto using (h160_ok HO), (h160_len HO); [simpl; auto|]. exists 5. split; [left; auto|lia].
  - apply (own_script 196 _ Test); auto using (h160_ok HO), (h160_len HO); [simpl; auto|]. exists 196. split; [left; auto|lia].
Qed.
Lemma own_single k : KeyOk k -> OwnAddresses (Single k) ->
  (exists a s, key_address k = Ok a /\ address_to_scriptpubkey a = Ok (Some s)) /\
  (exists sa, key_segwit_address k = Ok sa /\ forall a, sa = Some a -> exists s, address_to_scriptpubkey a = Ok (Some s)).
Proof.
  intros K ((a & Ea & Ga) & (sa & Es & Gs)). cbn [sg_address sg_segwit_address sg_version] in *. split.
  - exists a. unfold key_address, public_key_to_address in *. destruct ((zlen _ =? 33) || (zlen _ =? 65)); [|discriminate].
    cbn [negb] in *. injection Ea as <-. fold (hash160 (k_public_key k)) in *. destruct (ko_hash _ K) as (b & Hb & Nz).
    assert (G : exists s, address_to_scriptpubkey (b58encode_check ((match k_version k with Test => TEST_PUBKEY_HASH | Main => MAIN_PUBKEY_HASH end) ++ hash160 (k_public_key k))) = Ok (Some s)).
    { destruct (k_version k).
      - apply (own_script 0 _ Main); auto using (h160_ok HO), (h160_len HO); [simpl; auto|]. exists b. split; auto. right. auto.
      - apply (own_script 111 _ Test); auto using (h160_ok HO), (h160_len HO); [simpl; auto|]. exists b. split; auto. right. auto. }
    destruct G as (s & G). exists s. split; auto.
  - exists sa. split; auto. intros a' ->. specialize (Gs a' eq_refl). unfold key_segwit_address, public_key_to_segwit_address in Es.
    destruct (key_is_compressed k) eqn:C; [|discriminate]. unfold key_is_compressed in C. rewrite C in Es. cbn [negb rmap] in Es. injection Es as <-.
    eapply own_p2sh; eauto.
Qed.
Lemma own_multi e k : EnvOk e -> OwnAddresses (Multi (wallet e k)) -> forall k',
  (exists a s, ms_address (wallet e k') = Ok a /\ address_to_scriptpubkey a = Ok (Some s)) /\
  (exists sa, ms_segwit_address (wallet e k') = Ok sa /\ forall a, sa = Some a -> exists s, address_to_scriptpubkey a = Ok (Some s)).
Proof.
  intros EO ((a & Ea & Ga) & (sa & Es & Gs)) k'. change (ms_address (wallet e k')) with (ms_address (wallet e k)). change (ms_segwit_address (wallet e k')) with (ms_segwit_address (wallet e k)).
  cbn [sg_address sg_segwit_address sg_version wallet ms_version] in *. pose proof (eo_redeem _ EO) as N. split.
  - exists a. unfold ms_address, multisig_to_address in *. cbn [wallet ms_public_keys ms_m ms_version] in *. rewrite N in *. cbn [bind] in *. injection Ea as <-.
    destruct (own_p2sh (e_ver e) _ _ Ga eq_refl) as (s & G). exists s. split; auto.
  - exists sa. split; auto. intros a' ->. specialize (Gs a' eq_refl). unfold ms_segwit_address in Es. destruct (ms_is_compressed (wallet e k)); [|discriminate].
    unfold multisig_to_segwit_address in Es. cbn [wallet ms_public_keys ms_m ms_version] in Es. rewrite N in Es. cbn [bind rmap] in Es. injection Es as <-.
    eapply own_p2sh; eauto.
Qed.
Lemma can_sign_total (ra : result pystr) rsa u : (exists a s, ra = Ok a /\ address_to_scriptpubkey a = Ok (Some s)) ->
  (exists sa, rsa = Ok sa /\ forall a, sa = Some a -> exists s, address_to_scriptpubkey a = Ok (Some s)) -> exists b, can_sign ra rsa u = Ok b.
Proof.
  intros (a & s & -> & Ea) (sa & -> & H). unfold can_sign, script_hex. cbn [bind]. rewrite Ea. cbn [bind]. destruct sa as [sa|]; [|eauto].
  destruct (H sa eq_refl) as (s' & ->). cbn [bind]. eauto.
Qed.

(** ** New transactions *)
Lemma mapM_total {A B} (f : A -> result B) l : Forall (fun a => exists b, f a = Ok b) l -> exists r, mapM f l = Ok r.
Proof. induction 1 as [|a l (b & Eb) F (r & Er)]; cbn [mapM]; [eauto|]. rewrite Eb, Er. cbn [bind]. eauto. Qed.
Lemma le_ok z n : 0 <= z < 256 ^ Z.of_nat n -> exists b, to_bytes_le z n = Ok b.
Proof. intros H. unfold to_bytes_le. replace ((z <? 0) || _) with false by lia. eauto. Qed.
Lemma new_input_total u : TxidOk u -> InRange u -> 0 <= u_amount u < 2 ^ 64 -> exists i, new_input u = Ok i.
Proof.
  intros (t & Et & _) (H1 & H2) H3. unfold new_input. rewrite Et. cbn [bind].
  destruct (le_ok (u_txindex u) 4) as (b1 & ->); [change (256 ^ Z.of_nat 4) with (2 ^ 32); lia|]. cbn [bind].
  destruct (le_ok (u_amount u) 8) as (b2 & ->); [change (256 ^ Z.of_nat 8) with (2 ^ 64); lia|]. cbn [bind].
  destruct (le_ok (u_sequence u) 4) as (b3 & ->); [change (256 ^ Z.of_nat 4) with (2 ^ 32); lia|]. cbn [bind].
  unfold new_in. destruct (cs_exists (@nil Z) ltac:(cbn; lia)) as (l & El & _). rewrite El. cbn [bind]. eauto.
Qed.
(** What can be an output. *)
Definition OutOk (p : dest * Z) : Prop :=
  match fst p with
  | Addr a => 0 < snd p < 2 ^ 64 /\ exists script, address_to_scriptpubkey a = Ok (Some script) /\ zlen script < 2 ^ 64
  | Data b => snd p = 0 /\ zlen b < 256
  end.
Lemma new_out_total am s : zlen s < 2 ^ 64 -> exists t, new_out am s = Ok t.
Proof. intros H. unfold new_out. destruct (cs_exists s H) as (l & El & _). rewrite El. cbn [bind]. eauto. Qed.
Lemma out_total p : OutOk p -> exists t, construct_output p = Ok t.
Proof.
  destruct p as ([a|b] & n); unfold OutOk; cbn [fst snd]; unfold construct_output.
  - intros (Hn & s & Es & Ls). replace (n =? 0) with false by lia. cbn [negb]. rewrite Es. cbn [bind].
    destruct (le_ok n 8) as (am & ->); [change (256 ^ Z.of_nat 8) with (2 ^ 64); lia|]. cbn [bind]. apply new_out_total. auto.
  - intros (-> & Lb). cbn [Z.eqb negb]. destruct (le_ok (zlen b) 1) as (l & El); [change (256 ^ Z.of_nat 1) with 256; unfold zlen in *; lia|].
    rewrite El. cbn [bind]. apply new_out_total. unfold to_bytes_le in El. destruct (_ || _); [discriminate|]. injection El as <-.
    unfold zlen in *. rewrite !app_length. cbn. lia.
Qed.

(** Coins that can be spent: ids, numbers and amounts as they should be, and not
    absurdly many. *)
Record Spends (us : list Unspent) : Prop := {
  sp_id : Forall TxidOk us;
  sp_once : Distinct us;
  sp_range : Forall InRange us;
  sp_value : Forall (fun u => 0 <= u_amount u < 2 ^ 64) us;
  sp_few : zlen us < 2 ^ 64
}.
Lemma unspent_outpoint u : TxidOk u -> InRange u -> exists op, UnspentOutpoint u op.
Proof.
  intros (t & Et & _) (H1 & _). destruct (le_ok (u_txindex u) 4) as (x & Ex); [change (256 ^ Z.of_nat 4) with (2 ^ 32); lia|].
  exists (rev t ++ x), t, x. auto.
Qed.
Lemma new_object us outs : Spends us -> Forall OutOk outs -> Forall DataOk outs -> zlen outs < 2 ^ 64 ->
  exists ins txouts x, construct_outputs outs = Ok txouts /\ mapM new_input us = Ok ins /\
  let t := new_tx VERSION_1 ins txouts LOCK_TIME in
    RepObj x t /\ t_ver x = 1 /\ t_lock x = 0 /\ Forall2 InFor us (t_ins x) /\ Forall2 OutFor outs (t_outs x) /\
    Forall (fun i => i_script i = [] /\ i_wit i = []) (t_ins x) /\
    (existsb u_is_segwit us = true -> all_wit t) /\ (existsb u_is_segwit us = false -> no_wits t).
Proof.
  intros [S1 S2 S3 S4 S5] FO FD LO. destruct (mapM_total construct_output outs) as (txouts & Eo).
  { eapply Forall_impl; [|exact FO]. intros p. apply out_total. }
  destruct (mapM_total new_input us) as (ins & Ei).
  { apply Forall_forall. rewrite Forall_forall in S1, S3, S4. intros u Hu. apply new_input_total; auto. }
  destruct (build_rep us outs ins txouts S1 FD S5 LO Eo Ei) as (x & B). exists ins, txouts, x. auto.
Qed.
Lemma new_single_total k us outs : KeyOk k -> OwnAddresses (Single k) -> us <> [] -> Spends us -> Forall (SingleCoin k) us ->
  Forall OutOk outs -> Forall DataOk outs -> zlen outs < 2 ^ 64 -> exists h, create_new_transaction (Single k) us outs = Ok h.
Proof.
  intros K OA NE SP SC FO FD LO. destruct (new_object us outs SP FO FD LO) as (ins & txouts & x & Eo & Ei & R & _ & _ & FI & _ & _ & A1 & A2).
  unfold create_new_transaction. rewrite Eo, Ei. cbn [bind].
  destruct (own_single k K OA) as ((a & s & Ea & Es) & OS). destruct SP as [S1 S2 S3 S4 S5].
  apply (C31_signs HO k us x); auto.
  - intros Q. rewrite Q in FI. inversion FI. congruence.
  - destruct (existsb u_is_segwit us) eqn:Q; [left; auto|]. right. left. split; auto. intros xi u _ M. eapply existsb_none; eauto. eapply Match_In; eauto.
  - exists s. unfold key_scriptcode. rewrite Ea. cbn [bind]. rewrite Es. reflexivity.
  - apply Forall_forall. intros u _. apply can_sign_total; eauto.
  - apply Forall_forall. rewrite Forall_forall in S1, S3. intros u Hu. apply unspent_outpoint; auto.
  - eapply Forall_impl; [|exact S4]. auto.
Qed.
Lemma new_multi_total e k us outs : EnvOk e -> CoSigner e k -> OwnAddresses (Multi (wallet e k)) -> us <> [] -> Spends us -> Forall (MultiCoin e) us ->
  Forall OutOk outs -> Forall DataOk outs -> zlen outs < 2 ^ 64 -> exists h, create_new_transaction (Multi (wallet e k)) us outs = Ok h.
Proof.
  intros EO CK OA NE SP SC FO FD LO. destruct (new_object us outs SP FO FD LO) as (ins & txouts & x & Eo & Ei & R & _ & _ & FI & _ & FS & A1 & A2).
  unfold create_new_transaction. rewrite Eo, Ei. cbn [bind]. destruct SP as [S1 S2 S3 S4 S5].
  assert (SP' : Spendable e us).
  { constructor.
    - intros k'. apply Forall_forall. intros u _. destruct (own_multi e k EO OA k') as (O1 & O2). apply can_sign_total; auto.
    - apply Forall_forall. rewrite Forall_forall in S1, S3. intros u Hu. apply unspent_outpoint; auto.
    - eapply Forall_impl; [|exact S4]. auto. }
  set (t := new_tx VERSION_1 ins txouts LOCK_TIME) in *.
  assert (RD : Ready e us x t).
  { split; auto. split; [intros Q; rewrite Q in FI; inversion FI; congruence|]. split.
    - destruct (existsb u_is_segwit us) eqn:Q; [left; auto|]. right. left. split; auto. intros xi u _ M. eapply existsb_none; eauto. eapply Match_In; eauto.
    - intros xi u Hi _. rewrite Forall_forall in FS. destruct (FS xi Hi). auto. }
  destruct (C33_kept HO e us x t k [] EO SP' RD) as (h & b & x' & Ec & _).
  - split; [constructor; auto|]. cbn. constructor; [intros []|constructor].
  - pose proof (eo_m _ EO). cbn. lia.
  - unfold cosign in Ec. cbn [pass_all] in Ec. apply bind_ok in Ec as (h1 & E1 & _). exists h1. exact E1.
Qed.

(** ** The whole call *)
Lemma get_unspents_own {W Amt} {WD : World W Amt} sg (s : @Wallet W) us s1 : get_unspents sg s = (Ok us, s1) -> wl_unspents s1 = us.
Proof.
  intros E0. unfold get_unspents in E0. apply ibind_ok in E0 as (((? & ?) & ? & ?) & ? & _ & E0). cbv beta iota in E0.
  do 3 (apply ibind_ok in E0 as (? & ? & _ & E0)). apply ibind_ok in E0 as (? & ? & _ & E0). apply ibind_ok in E0 as (? & ? & _ & E0).
  apply ibind_ok in E0 as (? & ? & _ & E0). apply ibind_ok in E0 as (? & ? & G & E0). unfold iget in G. injection G as -> ->. injection E0 as <- <-. auto.
Qed.
Context {W Amt : Type} {WD : World W Amt}.

Lemma create_run sg outputs fee leftover unspents o s us s1 f w1 sel outs w2 ra h :
  Available sg unspents s us s1 -> (if existsb u_is_segwit us then sg_segwit_address sg else rmap Some (sg_address sg)) = Ok ra ->
  FeeRate fee (wl_world s1) f w1 ->
  sanitize_tx_data outputs f (match nonempty leftover with Some l => Some l | None => ra end) 0 (sg_version sg) o (us, w1) = (Ok (sel, outs), (sel, w2)) ->
  create_new_transaction sg sel outs = Ok h -> exists s', create_transaction sg outputs fee leftover unspents o s = (Ok h, s').
Proof.
  intros A Er Ef Es En. apply fee_rate in Ef. unfold create_transaction.
  assert (G : exists own, (match nonempty unspents with
                  | Some us => _ <~ modify (set_caller us) ;; iret (false, us)
                  | None => us <~ get_unspents sg ;; iret (true, us)
                  end) s = (Ok (own, us), s1) /\ (own = true -> wl_unspents s1 = us) /\ (own = false -> wl_caller s1 = us)).
  { destruct unspents as [[|u r]|]; cbn [nonempty Available] in *.
    - exists true. unfold ibind. rewrite A. split; auto. split; [|discriminate]. intros _. eapply get_unspents_own; eauto.
    - destruct A as (-> & ->). exists false. split; [reflexivity|]. split; [discriminate|auto].
    - exists true. unfold ibind. rewrite A. split; auto. split; [|discriminate]. intros _. eapply get_unspents_own; eauto. }
  destruct G as (own & G & O1 & O2). unfold ibind at 1. rewrite G. cbv beta iota. unfold ibind at 1, ilift at 1. rewrite Er.
  unfold ibind at 1, world at 1, zoom at 1. rewrite Ef. unfold ibind at 1, run_sanitize. destruct own.
  - unfold zoom. cbn [wl_unspents wl_world set_world]. rewrite (O1 eq_refl), Es. unfold ilift. rewrite En. eauto.
  - unfold zoom. cbn [wl_caller wl_world set_world]. rewrite (O2 eq_refl), Es. unfold ilift. rewrite En. eauto.
Qed.
(** The request can be met: fee rate, amounts and random numbers are to be had,
    every payment is positive, the message can be encoded, all addresses are of
    the wallet's network, and the coins cover the payments and the fee for
    spending all of them. *)
Definition MessageIs (o : Options) (n : nat) : Prop :=
  match o_message o with
  | None => n = 0%nat
  | Some m => exists b chunks, MsgBytes m (o_message_is_hex o) b /\ bytes_ok b = true /\ Chunks b chunks /\ n = length chunks
  end.
Record Affordable (sg : signer) (outputs : list (pystr * Amt * pystr)) (fee : option Z) (leftover : option pystr) (o : Options)
    (us : list Unspent) (w : W) (back : pystr) (f : Z) (w1 : W) (sats : list Z) (w2 : W) (w3 : W) (n : nat) (sizes : list Z) (all : Z) : Prop := {
  af_fee : FeeRate fee w f w1;
  af_rate : 0 <= f;
  af_converted : Converted w1 outputs sats w2;
  af_positive : Forall (fun z => 0 < z) sats;
  af_random : exists rnd, w_random w2 = (Ok rnd, w3);
  af_message : MessageIs o n;
  af_back : match leftover with
            | Some (c :: r) => back = c :: r
            | _ => if existsb u_is_segwit us then sg_segwit_address sg = Ok (Some back) else sg_address sg = Ok back
            end;
  af_payable : Forall (Payable (sg_version sg)) (back :: dests outputs);
  af_few : zlen outputs + Z.of_nat n + 1 < 2 ^ 64;
  af_sizes : OutputSizes (dests outputs) n back sizes;
  af_all : FeeFor (o_absolute_fee o) f sizes us all;
  af_enough : total sats + all <= amounts us
}.

Lemma chunks_fun b c1 : forall c2, Chunks b c1 -> Chunks b c2 -> c1 = c2.
Proof.
  revert b. induction c1 as [|x c1 IH]; intros b c2 (E1 & H1) (E2 & H2).
  - destruct c2 as [|y c2]; auto. exfalso. destruct (H2 0%nat y eq_refl) as [L _]. cbn in E1. subst b. destruct y; [cbn in L; lia|discriminate].
  - destruct c2 as [|y c2].
    { exfalso. destruct (H1 0%nat x eq_refl) as [L _]. cbn in E2. subst b. destruct x; [cbn in L; lia|discriminate]. }
    destruct (H1 0%nat x eq_refl) as [L1 M1], (H2 0%nat y eq_refl) as [L2 M2]. cbn [concat] in E1, E2. rewrite <- E1 in E2.
    assert (LX : length x = length y).
    { assert (N1 : forall (c : list bytes), (forall i d, nth_error c i = Some d -> (1 <= length d)%nat) -> (length c > 0)%nat -> (length (concat c) > 0)%nat).
      { intros [|d c] H Hl; [cbn in Hl; lia|]. cbn. rewrite app_length. pose proof (H 0%nat d eq_refl). lia. }
      pose proof (N1 c1 (fun i d Hd => proj1 (proj1 (H1 (S i) d Hd)))) as P1. pose proof (N1 c2 (fun i d Hd => proj1 (proj1 (H2 (S i) d Hd)))) as P2.
      apply (f_equal (@length Z)) in E2. rewrite !app_length in E2. cbn [length] in M1, M2.
      destruct c1, c2; cbn [length concat] in *; lia. }
    symmetry in E2. apply app_len_inj in E2 as [-> E2]; auto. f_equal. apply (IH (concat c1)).
    + split; auto. intros i c Hc. destruct (H1 (S i) c Hc) as [A B]. split; auto. intros Hl. apply B. cbn. lia.
    + split; auto. intros i c Hc. destruct (H2 (S i) c Hc) as [A B]. split; auto. intros Hl. apply B. cbn. lia.
Qed.

Lemma message_is o n : MessageIs o n -> exists msgs, message_outputs (o_message o) (o_message_is_hex o) = Ok msgs /\ length msgs = n /\
  Forall OutOk msgs /\ Forall DataOk msgs.
Proof.
  unfold MessageIs. destruct (o_message o) as [m|]; [|intros ->; exists []; cbn; auto].
  intros (b & chunks & MB & OK & CH & ->). destruct (C46_payloads m _ b MB) as (chunks' & E & CH').
  rewrite (chunks_fun _ _ _ CH CH') in *. exists (map (fun c => (Data c, 0)) chunks'). split; auto. rewrite map_length. split; auto.
  destruct CH' as (Ec & CH'). split; apply Forall_map, Forall_forall; intros c Hc.
  - apply In_nth_error in Hc as (i & Hi). destruct (CH' i c Hi) as [L _]. split; auto. unfold zlen. lia.
  - unfold DataOk. cbn [fst]. apply bytes_ok_Forall. apply bytes_ok_Forall in OK. rewrite Forall_forall in *. intros z Hz. apply OK. subst b. apply in_concat. eauto.
Qed.

Lemma spends_rbf l : Spends l -> Spends (map opt_in_for_RBF l).
Proof.
  intros [A B C D E]. constructor.
  - apply Forall_map. eapply Forall_impl; [|exact A]. intros u. unfold TxidOk. destruct (rbf_keep u) as (-> & _). auto.
  - apply (Distinct_rbf true). auto.
  - apply Forall_map. eapply Forall_impl; [|exact C]. intros u. unfold InRange. destruct (rbf_keep u) as (_ & -> & _). intros (H1 & H2). split; auto.
    unfold opt_in_for_RBF. destruct (_ >? _); cbn [u_sequence]; lia.
  - apply Forall_map. eapply Forall_impl; [|exact D]. intros u. destruct (rbf_keep u) as (_ & _ & _ & _ & ->). auto.
  - unfold zlen in *. rewrite map_length. auto.
Qed.
Lemma spends_sub taken unused us : Permutation (taken ++ unused) us -> Spends us -> Spends taken.
Proof.
  intros Pm [A B C D E].
  assert (FT : forall P : Unspent -> Prop, Forall P us -> Forall P taken).
  { intros P F. eapply Permutation_Forall in F; [|apply Permutation_sym; exact Pm]. apply Forall_app in F as [F _]. auto. }
  constructor; auto.
  - eapply Distinct_taken; eauto.
  - unfold zlen in *. apply Permutation_length in Pm. rewrite app_length in Pm. lia.
Qed.
Lemma prepared (RO : RandomOk WD) (P : Unspent -> Prop) sg outputs fee leftover o us w back f w1 sats w2 w3 n sizes all :
  Affordable sg outputs fee leftover o us w back f w1 sats w2 w3 n sizes all -> us <> [] -> Spends us -> Sensible us ->
  (forall u, P u -> P (opt_in_for_RBF u)) -> Forall P us ->
  exists sel outs, sanitize_tx_data outputs f (Some back) 0 (sg_version sg) o (us, w1) = (Ok (sel, outs), (sel, w3)) /\
    sel <> [] /\ Spends sel /\ Forall P sel /\ Forall OutOk outs /\ Forall DataOk outs /\ zlen outs < 2 ^ 64.
Proof.
  intros [A1 A2 A3 A4 (rnd & A5) A6 A7 A8 A9 A10 A11 A12] NE SP (S1 & S2 & S3) HP FP. destruct (message_is o n A6) as (msgs & Em & Lm & M1 & M2).
  destruct (C44_succeeds RO us w1 outputs f back 0 (sg_version sg) o sats w2 rnd w3 msgs sizes all) as (sel & outs & E); auto.
  { rewrite Lm. auto. }
  { eapply Forall_impl; [|exact A8]. intros a (G & _). exact G. }
  { lia. }
  exists sel, outs. split; [exact E|].
  destruct (sel_coins RO P us w1 outputs f (Some back) (sg_version sg) o sel outs w3 HP FP (sp_once _ SP) E) as (FP' & _ & NE').
  destruct (C44_inputs RO _ _ _ _ _ _ _ _ _ _ _ _ E) as (taken & unused & Pm & _ & _ & Hs).
  destruct (C44_outputs _ _ _ _ _ _ _ _ _ _ _ _ E) as (sats' & w1' & change & msgs' & bk & C & Q & Eo & Ls & Hc & _ & Em').
  injection Q as <-. destruct (Converted_fun _ _ _ _ _ _ A3 C) as [<- _]. rewrite Em in Em'. injection Em' as <-.
  split; auto. split.
  { rewrite Hs. destruct (o_replace_by_fee o); [apply spends_rbf|]; eapply spends_sub; eauto. }
  split; auto.
  destruct (C44_books RO _ _ _ _ _ _ _ _ _ _ _ _ (Z.le_refl 0) E) as (sats' & w1'' & msgs' & bk & sizes' & C' & Q & Em' & SZ & F).
  injection Q as <-. destruct (Converted_fun _ _ _ _ _ _ A3 C') as [<- _]. rewrite Em in Em'. injection Em' as <-.
  assert (FT : forall Q : Unspent -> Prop, Forall Q us -> Forall Q taken).
  { intros Q G. eapply Permutation_Forall in G; [|apply Permutation_sym; exact Pm]. apply Forall_app in G as [G _]. auto. }
  assert (B1 : amounts sel = amounts taken) by (rewrite Hs; unfold amounts; destruct (o_replace_by_fee o); auto; destruct (rbf_maps taken) as (-> & _); auto).
  assert (B2 : amounts sel <= amounts us).
  { rewrite B1. unfold amounts. assert (Q : S_Fee.total (map u_amount (taken ++ unused)) = S_Fee.total (map u_amount us)).
    { clear -Pm. induction Pm; cbn; lia. }
    rewrite <- Q, map_app, total_app. eapply Permutation_Forall in S1; [|apply Permutation_sym; exact Pm]. apply Forall_app in S1 as [_ S1].
    assert (0 <= S_Fee.total (map u_amount unused)) by (apply total_nonneg, Forall_map; exact S1). lia. }
  assert (VS : Forall (fun z => 0 <= z) (map u_vsize sel)).
  { apply Forall_map. rewrite Hs. apply Forall_rbf; [|apply FT; exact S2]. intros u. destruct (rbf_same u) as (_ & -> & _). auto. }
  assert (PN : 0 <= amounts sel - S_Fee.total (map snd outs)).
  { pose proof (sizes_nonneg _ _ _ _ SZ) as SN. cbv zeta in F. destruct F as [(s & Es & Q)|(_ & _ & Ec & Ch & _)].
    - rewrite Q. pose proof (estimated_nonneg _ _ _ _ VS SN Es). destruct (o_absolute_fee o); auto. apply Z.mul_nonneg_nonneg; auto.
    - assert (F1 : map fst (map coin sel) = map u_amount sel) by (rewrite map_map; reflexivity).
      assert (F2 : map snd (map coin sel) = map u_vsize sel) by (rewrite map_map; reflexivity). rewrite F1, F2 in Ch. rewrite Ec.
      unfold amounts. apply total_nonneg in VS.
      assert (SA : 0 <= S_Fee.total (all_but_last sizes')).
      { apply total_nonneg. unfold all_but_last. apply Forall_forall. rewrite Forall_forall in SN. intros z Hz. apply SN. revert Hz. apply firstn_sub. }
      assert (0 <= f * (S_Fee.total (map u_vsize sel) + 4 * (9 + S_Fee.total (all_but_last sizes')))) by (apply Z.mul_nonneg_nonneg; lia). lia. }
  assert (LC : length (combine (map Addr (dests outputs)) sats) = length outputs).
  { rewrite combine_length, Ls. unfold dests. rewrite !map_length. lia. }
  assert (PP : Forall (fun p => 0 <= snd p) outs).
  { rewrite Eo. apply Forall_app. split; [|apply Forall_app; split].
    - apply Forall_forall. intros (d & z) Hz. apply in_combine_r in Hz. rewrite Forall_forall in A4. specialize (A4 z Hz). cbn. lia.
    - destruct Hc as [-> |(z & Hz & ->)]; repeat constructor. cbn. lia.
    - eapply Forall_impl; [|exact M1]. intros ([a|b] & z) H; destruct H as (H & _); cbn in *; lia. }
  assert (TL : Forall (fun p => snd p <= MAX_MONEY) outs).
  { pose proof (total_le (map snd outs) ltac:(apply Forall_map; exact PP)) as TL. rewrite Forall_forall in TL |- *. intros p Hp. specialize (TL (snd p) (in_map snd _ _ Hp)). lia. }
  assert (MM : MAX_MONEY < 2 ^ 64) by reflexivity.
  assert (PA : forall a, In a (back :: dests outputs) -> exists script, address_to_scriptpubkey a = Ok (Some script) /\ zlen script < 2 ^ 64).
  { intros a Ha. rewrite Forall_forall in A8. apply (A8 a Ha). }
  split; [|split].
  - rewrite Eo in TL |- *. apply Forall_app in TL as [TL1 TL]. apply Forall_app in TL as [TL2 _]. apply Forall_app. split; [|apply Forall_app; split; [|exact M1]].
    + apply Forall_forall. intros (d & z) Hz. rewrite Forall_forall in TL1. specialize (TL1 _ Hz). pose proof (in_combine_r _ _ _ _ Hz) as Hz2. apply in_combine_l in Hz.
      apply in_map_iff in Hz as (a & <- & Ha). rewrite Forall_forall in A4. specialize (A4 z Hz2). unfold OutOk. cbn [fst snd] in *. split; [lia|]. apply PA. right. auto.
    + destruct Hc as [-> |(z & Hz & ->)]; repeat constructor; cbn [fst snd]; auto.
      * apply Forall_cons_iff in TL2 as [TL2 _]. cbn in TL2. lia.
      * apply PA. left. auto.
  - rewrite Eo. apply Forall_app. split; [|apply Forall_app; split; [|exact M2]].
    + apply Forall_forall. intros (d & z) Hz. apply in_combine_l in Hz. apply in_map_iff in Hz as (a & <- & _). exact I.
    + destruct Hc as [-> |(z & Hz & ->)]; repeat constructor.
  - rewrite Eo. unfold zlen in *. rewrite !app_length, LC, Lm. assert (length change <= 1)%nat by (destruct Hc as [-> |(z & Hz & ->)]; cbn; lia). lia.
Qed.

Lemma back_is sg leftover (us : list Unspent) back : OwnAddresses sg -> match leftover with
            | Some (c :: r) => back = c :: r
            | _ => if existsb u_is_segwit us then sg_segwit_address sg = Ok (Some back) else sg_address sg = Ok back
            end -> exists ra, (if existsb u_is_segwit us then sg_segwit_address sg else rmap Some (sg_address sg)) = Ok ra /\
              (match nonempty leftover return option pystr with Some l => Some l | None => ra end) = Some back.
Proof.
  intros ((a & Ea & _) & (sa & Es & _)) H. destruct leftover as [[|c r]|]; cbn [nonempty].
  - destruct (existsb _ us); rewrite H; cbn [rmap]; eauto.
  - subst back. destruct (existsb _ us); [exists sa|exists (Some a)]; rewrite ?Es, ?Ea; auto.
  - destruct (existsb _ us); rewrite H; cbn [rmap]; eauto.
Qed.

(** ** C82 *)
Theorem C82_single (RO : RandomOk WD) k outputs fee leftover unspents o s us s1 back f w1 sats w2 w3 n sizes all :
  KeyOk k -> OwnAddresses (Single k) -> Available (Single k) unspents s us s1 ->
  us <> [] -> Spends us -> Sensible us -> Forall (SingleCoin k) us ->
  Affordable (Single k) outputs fee leftover o us (wl_world s1) back f w1 sats w2 w3 n sizes all ->
  exists h s', create_transaction (Single k) outputs fee leftover unspents o s = (Ok h, s').
Proof.
  intros K OA AV NE SP SE SC AF. destruct (prepared RO (SingleCoin k) _ _ _ _ _ _ _ _ _ _ _ _ _ _ _ _ AF NE SP SE) as (sel & outs & E & NE' & SP' & SC' & FO & FD & LO); auto.
  { intros u. unfold SingleCoin. destruct (rbf_keep u) as (_ & _ & -> & -> & _). auto. }
  destruct (new_single_total k sel outs K OA NE' SP' SC' FO FD LO) as (h & En). destruct (back_is _ _ _ _ OA (af_back _ _ _ _ _ _ _ _ _ _ _ _ _ _ _ _ AF)) as (ra & Er & Eb).
  exists h. apply (create_run (Single k) outputs fee leftover unspents o s us s1 f w1 sel outs w3 ra h AV Er (af_fee _ _ _ _ _ _ _ _ _ _ _ _ _ _ _ _ AF)); auto.
  rewrite Eb. exact E.
Qed.

Theorem C82_multi (RO : RandomOk WD) e k ks outputs fee leftover unspents o s us s1 back f w1 sats w2 w3 n sizes all :
  EnvOk e -> Signers e (k :: ks) -> zlen (k :: ks) <= e_m e -> OwnAddresses (Multi (wallet e k)) -> Available (Multi (wallet e k)) unspents s us s1 ->
  us <> [] -> Spends us -> Sensible us -> Forall (MultiCoin e) us ->
  Affordable (Multi (wallet e k)) outputs fee leftover o us (wl_world s1) back f w1 sats w2 w3 n sizes all ->
  exists h s' sel h', create_transaction (Multi (wallet e k)) outputs fee leftover unspents o s = (Ok h, s') /\ pass_all e sel h ks = Ok h' /\
    exists unused, Permutation ((if o_replace_by_fee o then map opt_in_for_RBF us else us)) (sel ++ unused).
Proof.
  intros EO SG LM OA AV NE SP SE SC AF. destruct (prepared RO (MultiCoin e) _ _ _ _ _ _ _ _ _ _ _ _ _ _ _ _ AF NE SP SE) as (sel & outs & E & NE' & SP' & SC' & FO & FD & LO); auto.
  { intros u. unfold MultiCoin. destruct (rbf_keep u) as (_ & _ & -> & -> & _). auto. }
  assert (CK : CoSigner e k) by (destruct SG as [SG _]; apply Forall_cons_iff in SG as [SG _]; auto).
  destruct (new_multi_total e k sel outs EO CK OA NE' SP' SC' FO FD LO) as (h & En). destruct (back_is _ _ _ _ OA (af_back _ _ _ _ _ _ _ _ _ _ _ _ _ _ _ _ AF)) as (ra & Er & Eb).
  destruct (create_run (Multi (wallet e k)) outputs fee leftover unspents o s us s1 f w1 sel outs w3 ra h AV Er (af_fee _ _ _ _ _ _ _ _ _ _ _ _ _ _ _ _ AF)) as (s' & Ec); auto.
  { rewrite Eb. exact E. }
  destruct (C50_new_multi HO e k ks sel outs h EO SG LM NE' (sp_id _ SP') (sp_once _ SP') SC' FD En) as (h' & x & Ep & _).
  exists h, s', sel, h'. split; auto. split; auto. destruct (C44_inputs RO _ _ _ _ _ _ _ _ _ _ _ _ E) as (taken & unused & Pm & _ & _ & ->).
  apply Permutation_sym in Pm. destruct (o_replace_by_fee o); [|eauto]. exists (map opt_in_for_RBF unused). rewrite <- map_app. apply Permutation_map. auto.
Qed.

(** And sent, once the broadcast is accepted. *)
Theorem C82_send (RO : RandomOk WD) k outputs fee leftover unspents o s us s1 back f w1 sats w2 w3 n sizes all :
  KeyOk k -> MsgOk o -> OwnAddresses (Single k) -> Available (Single k) unspents s us s1 ->
  us <> [] -> Spends us -> Sensible us -> Forall (SingleCoin k) us ->
  Affordable (Single k) outputs fee leftover o us (wl_world s1) back f w1 sats w2 w3 n sizes all ->
  (forall h w, exists w', w_broadcast (k_version k) h w = (Ok tt, w')) ->
  exists i s', send (Single k) outputs fee leftover unspents o s = (Ok i, s').
Proof.
  intros K M OA AV NE SP SE SC AF BR. destruct (C82_single RO k outputs fee leftover unspents o s us s1 back f w1 sats w2 w3 n sizes all) as (h & s2 & Ec); auto.
  destruct (C50_create_single HO RO k outputs fee leftover unspents o s h s2 us s1 K M Ec AV (sp_id _ SP) (sp_once _ SP) SC) as (x & sel & f' & w & F & As & Sp).
  destruct (asked_id _ _ _ _ _ _ _ _ _ _ As) as (i & _ & Q). destruct (BR h (wl_world s2)) as (w' & B).
  exists i. unfold send. unfold ibind at 1. rewrite Ec. unfold ibind at 1, world, zoom. cbn [sg_version]. rewrite B. unfold ilift. rewrite Q. eauto.
Qed.
End WithCrypto.
Print Assumptions C82_single.
Print Assumptions C82_multi.
Print Assumptions C82_send.

(** ** The hypotheses are met: three coins, two payments, a message, change to
    the segwit address *)
Lemma some_own (P : pystr -> Prop) sa : P sa -> forall a, Some sa = Some a -> P a.
Proof. intros H a [= <-]. exact H. Qed.
Example own_toy : @OwnAddresses toy (Single wkey).
Proof.
  split; [exists (addr_of wkey); split; vm_compute; reflexivity|]. exists (Some (segwit_addr_of wkey)). split; [vm_compute; reflexivity|].
  apply some_own. vm_compute. reflexivity.
Qed.
Example own_toy_multi : @OwnAddresses toy (Multi (wallet toy_env (toy_k 5))).
Proof.
  split.
  - assert (G : match @ms_address toy (wallet toy_env (toy_k 5)) with Ok a => match @get_version toy a with Ok Main => true | _ => false end | _ => false end = true) by (vm_compute; reflexivity).
    cbn [sg_address]. destruct (ms_address _) as [a|]; [|discriminate]. exists a. split; auto. destruct (get_version a) as [[|]|]; try discriminate. reflexivity.
  - assert (G : match @ms_segwit_address toy (wallet toy_env (toy_k 5)) with Ok (Some a) => match @get_version toy a with Ok Main => true | _ => false end | _ => false end = true) by (vm_compute; reflexivity).
    cbn [sg_segwit_address]. destruct (ms_segwit_address _) as [[a|]|]; try discriminate. exists (Some a). split; auto. intros b [= <-]. destruct (get_version a) as [[|]|]; try discriminate. reflexivity.
Qed.
Definition rangeb (u : Unspent) : bool := (0 <=? u_txindex u) && (u_txindex u <? 2 ^ 32) && (0 <=? u_sequence u) && (u_sequence u <? 2 ^ 32).
Lemma spendsb us : Forall TxidOk us -> Distinct us -> forallb rangeb us = true -> sensibleb us = true -> zlen us < 2 ^ 64 -> Spends us.
Proof.
  intros T D R S2 L. apply sensibleb_ok in S2 as (P & _ & B). rewrite forallb_forall in R. constructor; auto.
  - apply Forall_forall. intros u Hu. specialize (R u Hu). unfold rangeb in R. unfold InRange. lia.
  - clear -P B. revert P B. unfold amounts. generalize MAX_MONEY (eq_refl : (MAX_MONEY <? 2 ^ 64) = true). intros mx Hm.
    assert (Q : forall l, Forall (fun u : Unspent => 0 <= u_amount u) l -> 0 <= S_Fee.total (map u_amount l) /\ (S_Fee.total (map u_amount l) <= mx -> Forall (fun u => 0 <= u_amount u < 2 ^ 64) l)).
    { induction l as [|u l IH]; intros P; [split; [cbn; lia|constructor]|]. apply Forall_cons_iff in P as [Pu P]. destruct (IH P) as [I1 I2]. cbn [map S_Fee.total fold_right] in *.
      change (fold_right Z.add 0 (map u_amount l)) with (S_Fee.total (map u_amount l)). split; [lia|]. intros B. constructor; [lia|]. apply I2. lia. }
    intros P B. apply Q; auto.
Qed.
Lemma payable_b v a : match @get_version toy a, @address_to_scriptpubkey toy a with
  | Ok n, Ok (Some s) => (match n, v with Main, Main => true | Test, Test => true | _, _ => false end) && (zlen s <? 2 ^ 64) | _, _ => false end = true -> @Payable toy v a.
Proof.
  unfold Payable. destruct (get_version a) as [n|]; [|discriminate]. destruct (address_to_scriptpubkey a) as [[s|]|]; try discriminate.
  intros E. apply andb_true_iff in E as [E1 E2]. split; [destruct n, v; try discriminate; auto|]. exists s. split; auto. lia.
Qed.
Lemma outsize_b a s : match @address_to_scriptpubkey toy a with Ok (Some sc) => Z.of_nat (length sc) + 9 =? s | _ => false end = true -> @OutputSize toy a s.
Proof. unfold OutputSize. generalize (@address_to_scriptpubkey toy a). intros [[sc|]|] E; try discriminate. exists sc. split; auto. lia. Qed.
Lemma hello_is : MessageIs (wopts true true) 1.
Proof.
  exists (str "hello"), [str "hello"]. split; [|split; [reflexivity|split; [|reflexivity]]].
  - split; [reflexivity|]. apply utf8_sound; [|reflexivity].
    apply Forall_forall. intros c Hc. cbn in Hc. unfold is_char. intuition lia.
  - split; [reflexivity|]. intros [|[|]] c; cbn; intros [= <-]; cbn; lia.
Qed.
(** The wallet's own three coins, two payments, a message, change to the segwit
    address and the recommended fee: the request goes through. *)
Example C82_single_case : exists h s', create_toy true = (Ok h, s').
Proof.
  destruct C50_single_hypotheses as (K & M & _ & us & s1 & F & Lu & T & D & SC & SW).
  assert (G : (match toy_fetched with (Ok us, _) => forallb rangeb us && sensibleb us && (S_Fee.total [25000; 1000] + coin_fee false 2 [34; 32; 89; 32] us <=? amounts us) | _ => false end) = true) by (vm_compute; reflexivity).
  rewrite F in G. apply andb_true_iff in G as [G G3]. apply andb_true_iff in G as [G1 G2].
  refine (@C82_single toy toy_ok _ _ toy_world toy_random_ok wkey (wouts other_key) None None None (wopts true true) wallet0 us s1 (segwit_addr_of wkey) 2 _ [25000; 1000] _ _ 1 [34; 32; 89; 32]
    (coin_fee false 2 [34; 32; 89; 32] us) K own_toy F _ _ _ SC _).
  - clear -Lu. intros N. rewrite N in Lu. discriminate Lu.
  - apply spendsb; auto. unfold zlen. rewrite Lu. reflexivity.
  - apply sensibleb_ok; auto.
  - econstructor.
    + apply F_recommended; [auto|reflexivity].
    + lia.
    + apply toy_converted.
    + repeat constructor.
    + eexists. reflexivity.
    + apply hello_is.
    + cbn [nonempty]. rewrite SW. vm_compute. reflexivity.
    + constructor; [apply payable_b; vm_compute; reflexivity|]. constructor; [apply payable_b; vm_compute; reflexivity|]. constructor; [apply payable_b; vm_compute; reflexivity|constructor].
    + reflexivity.
    + apply toy_sizes.
    + apply coin_fee_For. reflexivity.
    + apply Z.leb_le. exact G3.
Qed.

(** The creator of a 2-of-3 wallet and one co-signer. *)
Example C82_multi_case : exists h s' sel h', create_toy_multi = (Ok h, s') /\ @pass_all toy toy_env sel h [toy_k 7] = Ok h'.
Proof.
  destruct C50_multi_hypotheses as (EO & SG & LM & M & _ & T & D & SC).
  assert (B : exists back, @sg_segwit_address toy (Multi (wallet toy_env (toy_k 5))) = Ok (Some back) /\ @Payable toy Main back /\ @OutputSize toy back 32).
  { assert (G : match @sg_segwit_address toy (Multi (wallet toy_env (toy_k 5))) with Ok (Some a) => match @get_version toy a, @address_to_scriptpubkey toy a with
       Ok Main, Ok (Some s) => zlen s =? 23 | _, _ => false end | _ => false end = true) by (vm_compute; reflexivity).
    destruct (sg_segwit_address _) as [[a|]|]; try discriminate. exists a. split; auto. unfold Payable, OutputSize. destruct (get_version a) as [[|]|]; try discriminate.
    destruct (address_to_scriptpubkey a) as [[s|]|]; try discriminate. apply Z.eqb_eq in G. unfold zlen in G. unfold zlen. split; [split; auto; exists s; split; auto; lia|exists s; split; auto; lia]. }
  destruct B as (back & Eb & Pb & Ob).
  destruct (@C82_multi toy toy_ok _ _ toy_world toy_random_ok toy_env (toy_k 5) [toy_k 7] mouts (Some 3) None (Some toy_mus) (wopts true true) wallet0 toy_mus
    (set_caller toy_mus wallet0) back 3 (wl_world wallet0) [6000] (wl_world wallet0) (wl_world wallet0) 1 [34; 89; 32] (coin_fee false 3 [34; 89; 32] toy_mus) EO SG LM own_toy_multi (conj eq_refl eq_refl)) as (h & s' & sel & h' & E1 & E2 & _); [discriminate| | |auto| |].
  - apply spendsb; auto; vm_compute; reflexivity.
  - apply sensibleb_ok. vm_compute. reflexivity.
  - constructor.
    + apply F_given. lia.
    + lia.
    + econstructor; [reflexivity|]. constructor.
    + repeat constructor.
    + eexists. reflexivity.
    + apply hello_is.
    + assert (SW : existsb u_is_segwit toy_mus = true) by (vm_compute; reflexivity). rewrite SW. exact Eb.
    + constructor; [exact Pb|]. constructor; [apply payable_b; vm_compute; reflexivity|constructor].
    + reflexivity.
    + exists [34], 32. split; [|split; [exact Ob|reflexivity]]. constructor; [|constructor].
      change (@OutputSize toy (addr_of other_key) 34). apply outsize_b. vm_compute. reflexivity.
    + apply coin_fee_For. reflexivity.
    + apply Z.leb_le. vm_compute. reflexivity.
  - exists h, s', sel, h'. split; auto.
Qed.
