(** C79: created transactions are valid on the chain. *)
From Coq Require Import String Permutation.
From Verif Require Import F_signtx F_wallet F_spend F_cosigntx F_build F_redeem P_select P_sign P_multi P_wallet P_create X_world.
From Verif Require Import S_Consensus.

Section WithCrypto.
Context {CR : Crypto} (HO : HashOk CR).

(** ** Running the scripts *)
Lemma exec_keyhash (chk : bytes -> bytes -> Prop) h pub sig s : length h = 20%nat -> hash160 pub = h -> chk sig pub ->
  Exec chk ([OP_DUP_code; OP_HASH160_code; 0x14] ++ h ++ [OP_EQUALVERIFY_code; OP_CHECKSIG_code]) (pub :: sig :: s) ([0x01] :: s).
Proof.
  intros L H C. destruct (p2pkh_parse h L) as [_ P]. eexists. split; [|split; [exact P|]].
  - rewrite !app_length. cbn [length]. rewrite L. cbn. lia.
  - econstructor; [apply s_dup|]. econstructor; [apply s_hash160|]. econstructor; [apply s_push; lia|]. rewrite H.
    econstructor; [apply s_equalverify|]. econstructor; [apply s_checksig; exact C|]. constructor.
Qed.
Lemma exec_scripthash (chk : bytes -> bytes -> Prop) redeem s : Exec chk (p2sh_script redeem) (redeem :: s) ([0x01] :: s).
Proof.
  pose proof (h160_len HO redeem) as L. destruct (p2sh_parse _ L) as [_ P]. eexists. split; [|split; [exact P|]].
  - unfold p2sh_script. rewrite !app_length, L. cbn. lia.
  - econstructor; [apply s_hash160|]. econstructor; [apply s_push; lia|]. econstructor; [apply s_equal|]. constructor.
Qed.
Lemma run_pushes (chk : bytes -> bytes -> Prop) l ops s t : Forall (fun d => (length d <= 520)%nat) l -> Run chk ops (rev l ++ s) t -> Run chk (map Push l ++ ops) s t.
Proof.
  intros F. revert s. induction F as [|d l D F IH]; intros s R; auto. cbn [map app]. econstructor; [apply s_push; auto|]. apply IH.
  cbn [rev] in R. rewrite <- app_assoc in R. exact R.
Qed.
Lemma exec_multi (chk : bytes -> bytes -> Prop) e sigs : EnvOk e -> zlen sigs = e_m e -> Matched chk sigs (e_pubs e) ->
  Exec chk (e_redeem e) (rev ([] :: sigs)) [[0x01]].
Proof.
  intros EO Ls M. destruct (redeem_multisig _ _ _ (eo_m _ EO) (eo_redeem _ EO)) as ((Hm & Hn & P) & L1 & L2 & K).
  eexists. split; [lia|]. split; [exact P|]. cbn [app]. unfold zlen in Ls. econstructor; [apply s_num; unfold OP_1, OP_16; lia|].
  apply run_pushes.
  { eapply Forall_impl; [|exact K]. intros p [Q|Q]; lia. }
  econstructor; [apply s_num; unfold OP_1, OP_16; lia|]. econstructor; [|constructor].
  replace (OP_1 + Z.of_nat (length (e_pubs e)) - 1 - 80) with (Z.of_nat (length (e_pubs e))) by (unfold OP_1; lia).
  replace (OP_1 + e_m e - 1 - 80) with (e_m e) by (unfold OP_1; lia).
  change (rev ([] :: sigs)) with (rev sigs ++ [[]]). apply s_checkmultisig; auto; lia.
Qed.
Lemma CheckMulti_Matched msg (chk : bytes -> bytes -> Prop) sigs keys : (forall sig key, In key keys -> GoodSig msg key sig -> chk sig key) ->
  CheckMulti msg sigs keys -> Matched chk sigs keys.
Proof.
  intros H C. induction C as [keys|sig sigs key keys G C IH|sigs key keys C IH]; constructor.
  - apply H; auto. left. auto.
  - apply IH. intros. apply H; auto. right. auto.
  - apply IH. intros. apply H; auto. right. auto.
Qed.

Lemma not_witness_hash h r : ~ WitnessProgram ([OP_HASH160_code; 0x14] ++ h ++ r).
Proof. intros (v & p & V & _ & E). injection E as E _. unfold OP_HASH160_code, OP_1, OP_16 in *. lia. Qed.
Lemma not_witness_p2pkh pub : ~ WitnessProgram (p2pkh_script pub).
Proof. intros (v & p & V & _ & E). injection E as E _. unfold OP_1, OP_16 in *. lia. Qed.
Lemma not_scripthash_p2pkh pub : ~ ScriptHash (p2pkh_script pub).
Proof. intros (h & _ & E). injection E as E _. discriminate. Qed.
Lemma scripthash_p2sh r : ScriptHash (p2sh_script r).
Proof. exists (hash160 r). split; [apply (h160_len HO)|reflexivity]. Qed.
Lemma not_witness_redeem e : EnvOk e -> ~ WitnessProgram (e_redeem e).
Proof.
  intros EO (v & p & _ & Lp & E). destruct (redeem_multisig _ _ _ (eo_m _ EO) (eo_redeem _ EO)) as ((Hm & _) & _ & _ & K).
  pose proof (eo_redeem _ EO) as R. apply redeem_exact in R as (_ & _ & _ & R); [|lia]. rewrite R in E. clear R. injection E as _ E.
  destruct (e_pubs e) as [|q l]; [cbn in Hm; lia|]. apply Forall_cons_iff in K as [K _]. cbn [pushes flat_map app] in E.
  injection E as E1 E2. apply (f_equal (@length Z)) in E2. rewrite app_length in E2. cbn [length] in E2. rewrite app_length in E2. unfold zlen in E1.
  unfold key_len_ok in K. lia.
Qed.

(** ** One input *)
Lemma accepts_single k x j u xi : KeyOk k -> SingleCoin k u -> spends_single k x j u xi ->
  exists spk, u_script u = bytes_to_hex spk /\ bytes_ok spk = true /\ Accepts x j xi (u_amount u) spk.
Proof.
  intros K C (msg & sig & SM & G & Es & S). unfold SingleCoin in C. unfold SigMsg in SM.
  assert (L1 : (length sig <= 73)%nat) by (rewrite Es, app_length; pose proof (ko_sig_len _ K (sha256 msg)); cbn; lia).
  pose proof (ko_len _ K) as L2. pose proof (h160_len HO (k_public_key k)) as L3.
  destruct (u_is_segwit u).
  - destruct C as (C1 & C2). destruct S as (S1 & S2). eexists. split; [exact C2|]. split.
    { unfold p2sh_script. repeat apply ok_app; try reflexivity. apply (h160_ok HO). }
    eapply a_nested; [exact S1|apply scripthash_p2sh|apply exec_scripthash|reflexivity|]. rewrite S2.
    eapply w_keyhash with (t := [0x01]); auto; try lia. apply exec_keyhash; auto. split; auto. exists msg. split; auto.
  - destruct S as ((S1 & _) & S2). eexists. split; [exact C|]. split.
    { unfold p2pkh_script. repeat apply ok_app; try reflexivity. apply (h160_ok HO). }
    eapply a_plain with (items := [sig; k_public_key k]) (t := [0x01]) (s := []); [exact S1| |reflexivity|apply not_scripthash_p2pkh|apply not_witness_p2pkh|exact S2].
    apply exec_keyhash; auto. exists msg. split; auto.
Qed.

Lemma accepts_multi e ks x j u xi : EnvOk e -> MultiCoin e u -> part_spends e ks x j u 0 xi -> zlen ks = e_m e ->
  (forall k m, In k ks -> (length (ec_sign (k_secret k) m) <= 72)%nat) ->
  exists spk, u_script u = bytes_to_hex spk /\ bytes_ok spk = true /\ Accepts x j xi (u_amount u) spk.
Proof.
  intros EO C (msg & sigs & SM & Ls & CM & _ & FS & S) Lk HL. unfold MultiCoin in C. unfold SigMsg in SM.
  destruct (redeem_shape e EO) as (LR & _ & _ & _ & _ & _ & _ & OK & KL).
  assert (Lm : zlen sigs = e_m e) by (unfold zlen in *; lia).
  assert (F520 : Forall (fun d : bytes => (length d <= 520)%nat) ([] :: sigs)).
  { constructor; [cbn; lia|]. eapply Forall_impl; [|exact FS]. intros g (k & Hk & ->). rewrite app_length. specialize (HL k (sha256 msg) Hk). cbn. lia. }
  destruct (u_is_segwit u).
  - destruct C as (C1 & C2). destruct S as (S1 & S2). eexists. split; [exact C2|]. split.
    { unfold p2sh_script. repeat apply ok_app; try reflexivity. apply (h160_ok HO). }
    eapply a_nested; [exact S1|apply scripthash_p2sh|apply exec_scripthash|reflexivity|]. rewrite S2. cbn [repeat app].
    change ([] :: sigs ++ [e_redeem e]) with (([] :: sigs) ++ [e_redeem e]).
    eapply w_scripthash with (t := [0x01]); auto; [apply (sha256_len _ HO)|]. apply exec_multi; auto. eapply CheckMulti_Matched; [|exact CM].
    intros g p Hp Hg. rewrite Forall_forall in C1. split; [auto|]. exists msg. split; auto.
  - destruct S as ((S1 & _) & S2). eexists. split; [exact C|]. split.
    { unfold p2sh_script. repeat apply ok_app; try reflexivity. apply (h160_ok HO). }
    eapply a_scripthash with (items := [] :: sigs) (redeem := e_redeem e).
    + exact S1.
    + apply Forall_app. split; auto. constructor; [lia|constructor].
    + apply scripthash_p2sh.
    + rewrite rev_app_distr. apply exec_scripthash.
    + reflexivity.
    + apply exec_multi; auto. eapply CheckMulti_Matched; [|exact CM]. intros g p Hp Hg. exists msg. split; auto.
    + reflexivity.
    + apply not_witness_redeem. auto.
    + exact S2.
Qed.

(** ** The whole transaction *)

(** The coin is what the ledger says it is. *)
Definition Describes (L : ledger) (u : Unspent) : Prop :=
  exists t spk, hex_to_bytes (u_txid u) = Ok t /\ u_script u = bytes_to_hex spk /\ bytes_ok spk = true /\
    L (rev t) (u_txindex u) = Some (u_amount u, spk).
(** The coin is on the ledger, under the script that it is said to have, and
    holds so much (which may not be what it is said to hold). *)
Definition Holds (L : ledger) (u : Unspent) (v : Z) : Prop :=
  exists t spk, hex_to_bytes (u_txid u) = Ok t /\ u_script u = bytes_to_hex spk /\ bytes_ok spk = true /\ L (rev t) (u_txindex u) = Some (v, spk).
Lemma holds_rbf L u v : Holds L u v -> Holds L (opt_in_for_RBF u) v.
Proof. unfold Holds. destruct (rbf_keep u) as (-> & -> & -> & _). auto. Qed.
Lemma describes_rbf L u : Describes L u -> Describes L (opt_in_for_RBF u).
Proof. unfold Describes. destruct (rbf_keep u) as (-> & -> & -> & _ & ->). auto. Qed.

Lemma total_nonneg l : Forall (fun z => 0 <= z) l -> 0 <= total l.
Proof. induction 1; cbn [total]; lia. Qed.
Lemma total_le l : Forall (fun z => 0 <= z) l -> Forall (fun z => z <= total l) l.
Proof.
  induction 1 as [|z l H F IH]; constructor; cbn [total].
  - pose proof (total_nonneg _ F). lia.
  - eapply Forall_impl; [|exact IH]. intros a Q. cbn beta in *. lia.
Qed.
Lemma firstn_sub {A} n (l : list A) a : In a (firstn n l) -> In a l.
Proof. intros H. rewrite <- (firstn_skipn n l). apply in_or_app. auto. Qed.
Lemma estimated_nonneg ins outs seg s : Forall (fun z => 0 <= z) ins -> Forall (fun z => 0 <= z) outs -> EstimatedSize ins outs seg s -> 0 <= s.
Proof.
  intros A B (ki & ko & (K1 & _) & (K2 & _) & H & _). apply total_nonneg in A, B. cbv zeta in *. destruct seg; lia.
Qed.
Lemma sizes_nonneg pay n back sizes : OutputSizes pay n back sizes -> Forall (fun z => 0 <= z) sizes.
Proof.
  intros (l & c & F & (s & _ & ->) & ->). apply Forall_app. split.
  - induction F as [|a z p l (s' & _ & ->) F IH]; constructor; auto. lia.
  - repeat constructor; lia.
Qed.
Lemma out_values x b : EncSegwit x b \/ EncLegacy x b -> Forall (fun o => 0 <= o_value o) (t_outs x).
Proof.
  assert (G : forall l c, EncVec EncOut l c -> Forall (fun o => 0 <= o_value o) l).
  { intros l c (n & d & _ & Es & _). clear n c. induction Es as [|a l e f (v & sc & V & _) Es IH]; constructor; auto.
    apply LEnum_range in V. lia. }
  intros [(v & i & o & w & l & _ & _ & E & _)|(v & i & o & l & _ & _ & E & _)]; eapply G; exact E.
Qed.

Context {W Amt : Type} {WD : World W Amt}.

(** Sensible coins: amounts and sizes are not negative, no more than there can be. *)
Definition Sensible (us : list Unspent) : Prop :=
  Forall (fun u => 0 <= u_amount u) us /\ Forall (fun u => 0 <= u_vsize u) us /\ amounts us <= MAX_MONEY.

Lemma Forall_rbf (P : Unspent -> Prop) (o : bool) l : (forall u, P u -> P (opt_in_for_RBF u)) -> Forall P l ->
  Forall P (if o then map opt_in_for_RBF l else l).
Proof. intros H F. destruct o; auto. apply Forall_map. eapply Forall_impl; eauto. Qed.
Lemma Distinct_taken taken unused us : Permutation (taken ++ unused) us -> Distinct us -> Distinct taken.
Proof.
  intros Pm D. unfold Distinct in *. eapply Permutation_NoDup in D; [|apply Permutation_map, Permutation_sym; exact Pm]. rewrite map_app in D. revert D. clear.
  generalize (map (fun u => (hex_to_bytes (u_txid u), u_txindex u)) taken) as l. intros l. induction l as [|a l IH]; cbn; intros D; [constructor|]. inversion D; subst.
  constructor; auto. intros Q. apply H1. apply in_or_app. auto.
Qed.
Lemma Distinct_rbf (o : bool) l : Distinct l -> Distinct (if o then map opt_in_for_RBF l else l).
Proof.
  intros D. destruct o; auto. unfold Distinct in *. rewrite map_map. erewrite map_ext; [exact D|]. intros u. cbv beta.
  destruct (rbf_keep u) as (-> & -> & _). auto.
Qed.
Lemma outpoints_once us xs : Distinct us -> Forall2 InFor us xs -> NoDup (map i_outpoint xs).
Proof.
  intros D F. assert (E : map (fun u => (hex_to_bytes (u_txid u), u_txindex u)) us = map (fun i => (Ok (rev (i_txid i)), i_vout i)) xs).
  { clear D. induction F as [|u xi us xs ((A & B) & _) F IH]; cbn [map]; auto. rewrite IH, A, B. reflexivity. }
  unfold Distinct in D. rewrite E in D. revert D. clear. induction xs as [|i l IH]; cbn; intros D; [constructor|]. inversion D; subst. constructor; auto.
  intros Q. apply H1. apply in_map_iff in Q as (i' & Q & Hi). injection Q as Q1 Q2. apply in_map_iff. exists i'. rewrite Q1, Q2. auto.
Qed.

Lemma valid_told sg outputs f leftover o us sel w h x L :
  Asked sg outputs f leftover o us sel w h x -> outputs <> [] -> 0 <= f -> Distinct us -> Sensible us ->
  Forall (fun u => exists v, Holds L u v /\ u_amount u <= v) us ->
  (forall j u xi v, nth_error sel j = Some u -> nth_error (t_ins x) j = Some xi -> Holds L u v ->
     exists spk, u_script u = bytes_to_hex spk /\ bytes_ok spk = true /\ Accepts x j xi v spk) ->
  exists coins, Forall2 (fun u c => Holds L u (fst c)) sel coins /\ Valid L x coins.
Proof.
  intros (outs & sats & w1 & change & msgs & back & B & C & Eo & Ls & Hc & Hb & (M0 & Hm) & (taken & unused & Pm & NE & _ & Hs) & sizes & SZ & Fee)
    NO Hf D (S1 & S2 & S3) HD HA.
  destruct B as ((b & _ & Eb) & V1 & V2 & FI & FO).
  assert (FT : forall P : Unspent -> Prop, Forall P us -> Forall P taken).
  { intros P F. eapply Permutation_Forall in F; [|apply Permutation_sym; exact Pm]. apply Forall_app in F as [F _]. auto. }
  assert (DS : Distinct sel) by (rewrite Hs; apply Distinct_rbf; eapply Distinct_taken; eauto).
  assert (Hsel : Forall (fun u => exists v, Holds L u v /\ u_amount u <= v) sel).
  { rewrite Hs; apply Forall_rbf; [|apply FT; auto]. intros u (v & H1 & H2). exists v. split; [apply holds_rbf; auto|]. destruct (rbf_keep u) as (_ & _ & _ & _ & ->). auto. }
  assert (A1 : amounts sel = amounts taken) by (rewrite Hs; unfold amounts; destruct (o_replace_by_fee o); auto; destruct (rbf_maps taken) as (-> & _); auto).
  assert (A2 : amounts sel <= amounts us).
  { rewrite A1. unfold amounts. assert (Q : total (map u_amount (taken ++ unused)) = total (map u_amount us)).
    { clear -Pm. induction Pm; cbn; lia. }
    rewrite <- Q, map_app, total_app. eapply Permutation_Forall in S1; [|apply Permutation_sym; exact Pm]. apply Forall_app in S1 as [_ S1].
    assert (0 <= total (map u_amount unused)) by (apply total_nonneg, Forall_map; exact S1). lia. }
  assert (VS : Forall (fun z => 0 <= z) (map u_vsize sel)).
  { apply Forall_map. rewrite Hs. apply Forall_rbf; [|apply FT; exact S2]. intros u. destruct (rbf_same u) as (_ & -> & _). auto. }
  assert (OV : Forall (fun y => 0 <= o_value y) (t_outs x)).
  { apply (out_values x b). destruct (existsb u_is_segwit sel); auto. }
  assert (PN : 0 <= amounts sel - total (map o_value (t_outs x))).
  { pose proof (sizes_nonneg _ _ _ _ SZ) as SN. cbv zeta in Fee. destruct Fee as [(s & Es & E)|(_ & _ & Ec & Ch & _)].
    - rewrite E. pose proof (estimated_nonneg _ _ _ _ VS SN Es). destruct (o_absolute_fee o); auto. apply Z.mul_nonneg_nonneg; auto.
    - assert (F1 : map fst (map coin sel) = map u_amount sel) by (rewrite map_map; reflexivity).
      assert (F2 : map snd (map coin sel) = map u_vsize sel) by (rewrite map_map; reflexivity). rewrite F1, F2 in Ch.
      assert (T : total (map o_value (t_outs x)) = total sats).
      { rewrite (outs_values _ _ FO), Eo, Ec. cbn [app]. rewrite map_app, total_app.
        assert (Z0 : forall l : list (dest * Z), Forall (fun p => snd p = 0) l -> total (map snd l) = 0) by (clear; induction 1; cbn; lia).
        rewrite (Z0 msgs M0).
        assert (Hl : length (map Addr (dests outputs)) = length sats) by (unfold dests; rewrite !map_length; auto). clear -Hl. revert sats Hl.
        generalize (map Addr (dests outputs)) as l. intros l. induction l as [|a l IH]; intros [|n sats] H; try discriminate; cbn; auto. injection H as H.
        specialize (IH sats H). lia. }
      rewrite T. unfold amounts. apply total_nonneg in VS.
      assert (SA : 0 <= total (all_but_last sizes)).
      { apply total_nonneg. unfold all_but_last. apply Forall_forall. rewrite Forall_forall in SN. intros z Hz. apply SN. revert Hz. apply firstn_sub. }
      assert (0 <= f * (total (map u_vsize sel) + 4 * (9 + total (all_but_last sizes)))) by (apply Z.mul_nonneg_nonneg; lia). lia. }
  assert (CO : exists coins, Forall2 (fun u c => u_amount u <= fst c /\ u_script u = bytes_to_hex (snd c) /\ bytes_ok (snd c) = true /\
     exists t, hex_to_bytes (u_txid u) = Ok t /\ L (rev t) (u_txindex u) = Some c) sel coins).
  { clear -Hsel. induction Hsel as [|u l (v & (t & spk & H1 & H2 & H3 & H4) & Hv) F (cs & IH)]; [exists []; constructor|]. exists ((v, spk) :: cs). constructor; auto.
    cbn [fst snd]. eauto 6. }
  destruct CO as (coins & CO). exists coins.
  assert (MF : amounts sel <= total (map fst coins)) by (unfold amounts; clear -CO; induction CO as [|u c l cs (E & _) F IH]; cbn; lia).
  split; [clear -CO; induction CO as [|u [v spk] l cs (_ & H1 & H2 & t & H3 & H4) F IH]; constructor; auto; exists t, spk; auto|]. constructor.
  - intros Q. rewrite Q in FI. inversion FI as [Q2|]. rewrite Hs in Q2. destruct taken as [|u r]; [contradiction|]. destruct (o_replace_by_fee o); discriminate.
  - intros Q. rewrite Q in FO. inversion FO as [Q2|]. rewrite Eo in Q2. destruct outputs as [|p l]; [contradiction|]. destruct sats as [|n sats]; [discriminate|].
    discriminate.
  - eapply outpoints_once; eauto.
  - clear -CO FI. revert coins CO. induction FI as [|u xi us xs ((A & B) & _) F IH]; intros coins CO; inversion CO as [|? c ? cs (_ & _ & _ & t & Ht & Hl) CO']; subst; constructor; auto.
    rewrite A in Ht. injection Ht as <-. rewrite rev_involutive, B in Hl. exact Hl.
  - intros j i value spk Hi Hc2. destruct (F2_nth_r _ _ _ _ _ CO Hc2) as (u & Hu & E1 & E2 & E3 & t & E4 & E5). cbn [fst snd] in *.
    destruct (HA j u i value Hu Hi) as (spk' & F1 & F2 & F3); [exists t, spk; auto|]. rewrite E2 in F1. apply bytes_to_hex_inj in F1; auto. subst spk'. exact F3.
  - assert (T : total (map o_value (t_outs x)) <= MAX_MONEY) by lia. split; auto.
    pose proof (total_le (map o_value (t_outs x)) ltac:(apply Forall_map; exact OV)) as TL. rewrite Forall_forall in TL, OV |- *.
    intros y Hy. specialize (OV y Hy). specialize (TL (o_value y) (in_map o_value _ _ Hy)). lia.
  - lia.
  - left. exact V2.
Qed.
Lemma valid_asked sg outputs f leftover o us sel w h x L :
  Asked sg outputs f leftover o us sel w h x -> outputs <> [] -> 0 <= f -> Distinct us -> Sensible us -> Forall (Describes L) us ->
  (forall j u xi, nth_error sel j = Some u -> nth_error (t_ins x) j = Some xi ->
     exists spk, u_script u = bytes_to_hex spk /\ bytes_ok spk = true /\ Accepts x j xi (u_amount u) spk) ->
  exists coins, map fst coins = map u_amount sel /\ Valid L x coins.
Proof.
  intros Ak NO Hf D SE HD HA. destruct (valid_told _ _ _ _ _ _ _ _ _ _ L Ak NO Hf D SE) as (coins & F & V).
  - eapply Forall_impl; [|exact HD]. intros u Hu. exists (u_amount u). split; [exact Hu|lia].
  - intros j u xi v Hu Hx Hv. destruct (HA j u xi Hu Hx) as (spk & E1 & E2 & E3). exists spk. split; auto. split; auto.
    assert (Describes L u) as (t & spk' & H1 & H2 & H3 & H4).
    { destruct Ak as (_ & _ & _ & _ & _ & _ & _ & _ & _ & _ & _ & _ & _ & (taken & unused & Pm & _ & _ & Hs) & _).
      assert (FS : Forall (Describes L) sel).
      { rewrite Hs. apply Forall_rbf; [apply describes_rbf|]. eapply Permutation_Forall in HD; [|apply Permutation_sym; exact Pm]. apply Forall_app in HD as [HD _]. exact HD. }
      rewrite Forall_forall in FS. apply FS. eapply nth_error_In; eauto. }
    destruct Hv as (t' & spk2 & G1 & _ & _ & G4). rewrite H1 in G1. injection G1 as <-. rewrite H4 in G4. injection G4 as <- _. exact E3.
  - exists coins. split; auto.
    assert (FS : Forall (Describes L) sel).
    { destruct Ak as (_ & _ & _ & _ & _ & _ & _ & _ & _ & _ & _ & _ & _ & (taken & unused & Pm & _ & _ & Hs) & _).
      rewrite Hs. apply Forall_rbf; [apply describes_rbf|]. eapply Permutation_Forall in HD; [|apply Permutation_sym; exact Pm]. apply Forall_app in HD as [HD _]. exact HD. }
    clear -F FS. induction F as [|u c l cs (t' & spk2 & G1 & _ & _ & G4) F IH]; cbn; auto. apply Forall_cons_iff in FS as [(t & spk & H1 & _ & _ & H4) FS].
    rewrite H1 in G1. injection G1 as <-. rewrite H4 in G4. injection G4 as <- _. f_equal. auto.
Qed.

(** ** C79 *)

(** A key.  [KeyOk], [TxidOk], [Distinct] and [SingleCoin] as for C50; the coins
    are on the ledger; something is to be paid; the fee rate, given or
    recommended, is not negative. *)
Theorem C79_single (RO : RandomOk WD) k outputs fee leftover unspents o s h s' us s1 L :
  KeyOk k -> MsgOk o -> create_transaction (Single k) outputs fee leftover unspents o s = (Ok h, s') ->
  Available (Single k) unspents s us s1 -> Forall TxidOk us -> Distinct us -> Forall (SingleCoin k) us ->
  Sensible us -> Forall (Describes L) us -> outputs <> [] -> (forall f w, FeeRate fee (wl_world s1) f w -> 0 <= f) ->
  exists x sel f w coins, Asked (Single k) outputs f leftover o us sel w h x /\ map fst coins = map u_amount sel /\ Valid L x coins.
Proof.
  intros K M E A T D SC SE DE NO Hf. destruct (C50_create_single HO RO k outputs fee leftover unspents o s h s' us s1 K M E A T D SC) as (x & sel & f & w & F & Ak & Sp).
  destruct (valid_asked _ _ _ _ _ _ _ _ _ _ L Ak NO (Hf f w F) D SE DE) as (coins & MF & V); [|exists x, sel, f, w, coins; auto].
  intros j u xi Hu Hx. eapply accepts_single; eauto.
  destruct Ak as (_ & _ & _ & _ & _ & _ & _ & _ & _ & _ & _ & _ & _ & (taken & unused & Pm & _ & _ & Hs) & _).
  assert (FS : Forall (SingleCoin k) sel).
  { rewrite Hs. apply Forall_rbf.
    - intros v. unfold SingleCoin. destruct (rbf_keep v) as (_ & _ & -> & -> & _). auto.
    - eapply Permutation_Forall in SC; [|apply Permutation_sym; exact Pm]. apply Forall_app in SC as [SC _]. exact SC. }
  rewrite Forall_forall in FS. apply FS. eapply nth_error_In; eauto.
Qed.

(** A multisig wallet, with as many co-signers as needed, one after the other. *)
Theorem C79_multi (RO : RandomOk WD) e k ks outputs fee leftover unspents o s h s' us s1 L :
  EnvOk e -> Signers e (k :: ks) -> zlen (k :: ks) = e_m e -> MsgOk o ->
  create_transaction (Multi (wallet e k)) outputs fee leftover unspents o s = (Ok h, s') ->
  Available (Multi (wallet e k)) unspents s us s1 -> Forall TxidOk us -> Distinct us -> Forall (MultiCoin e) us ->
  Sensible us -> Forall (Describes L) us -> outputs <> [] -> (forall f w, FeeRate fee (wl_world s1) f w -> 0 <= f) ->
  exists h' x sel f w coins, pass_all e sel h ks = Ok h' /\ Asked (Multi (wallet e k)) outputs f leftover o us sel w h' x /\
    map fst coins = map u_amount sel /\ Valid L x coins.
Proof.
  intros EO SG Lm M E A T D SC SE DE NO Hf.
  destruct (C50_create_multi HO RO e k ks outputs fee leftover unspents o s h s' us s1 EO SG ltac:(lia) M E A T D SC) as (h' & x & sel & f & w & F & Ep & Ak & Sp).
  destruct (valid_asked _ _ _ _ _ _ _ _ _ _ L Ak NO (Hf f w F) D SE DE) as (coins & MF & V); [|exists h', x, sel, f, w, coins; auto].
  intros j u xi Hu Hx. destruct (Sp j u xi Hu Hx) as (z & PS & Z0). rewrite (Z0 Lm) in PS. eapply accepts_multi; eauto.
  - destruct Ak as (_ & _ & _ & _ & _ & _ & _ & _ & _ & _ & _ & _ & _ & (taken & unused & Pm & _ & _ & Hs) & _).
    assert (FS : Forall (MultiCoin e) sel).
    { rewrite Hs. apply Forall_rbf.
      - intros v. unfold MultiCoin. destruct (rbf_keep v) as (_ & _ & -> & -> & _). auto.
      - eapply Permutation_Forall in SC; [|apply Permutation_sym; exact Pm]. apply Forall_app in SC as [SC _]. exact SC. }
    rewrite Forall_forall in FS. apply FS. eapply nth_error_In; eauto.
  - intros k' m Hk. destruct SG as [SG _]. rewrite Forall_forall in SG. apply (cs_len _ _ (SG k' Hk)).
Qed.

(** ** C80: what the transaction does to the ledger once it is confirmed *)
Lemma nth_combine {A B} (l : list A) : forall (m : list B) j a b, nth_error l j = Some a -> nth_error m j = Some b -> nth_error (combine l m) j = Some (a, b).
Proof.
  induction l as [|x l IH]; intros m [|j] a b; destruct m as [|y m]; cbn; try discriminate; auto. intros [= ->] [= ->]. reflexivity.
Qed.

Theorem C80_effect sg outputs f leftover o us sel w h x L id :
  Asked sg outputs f leftover o us sel w h x -> Distinct us -> Forall (Describes L) us ->
  exists sats w1 change back,
    Converted w outputs sats w1 /\ 0 <= change /\
    (* payees have what was asked for *)
    (forall j a n c, nth_error outputs j = Some (a, n, c) -> exists sat script, nth_error sats j = Some sat /\
       address_to_scriptpubkey a = Ok (Some script) /\ confirmed L x id id (Z.of_nat j) = Some (sat, script)) /\
    (* the change is back *)
    (0 < change -> exists script, address_to_scriptpubkey back = Ok (Some script) /\
       confirmed L x id id (Z.of_nat (length outputs)) = Some (change, script)) /\
    (match leftover with
     | Some (c :: r) => back = c :: r
     | _ => if existsb u_is_segwit us then sg_segwit_address sg = Ok (Some back) else sg_address sg = Ok back
     end) /\
    (* the coins that were used are gone, the others are still there *)
    (exists spent kept, Permutation (spent ++ kept) us /\ map u_amount spent = map u_amount sel /\
       (forall u t, In u spent -> hex_to_bytes (u_txid u) = Ok t -> rev t <> id -> confirmed L x id (rev t) (u_txindex u) = None) /\
       (forall u t, In u kept -> hex_to_bytes (u_txid u) = Ok t -> rev t <> id ->
          exists spk, u_script u = bytes_to_hex spk /\ confirmed L x id (rev t) (u_txindex u) = Some (u_amount u, spk)) /\
       (* and they held the payments, the change and the fee *)
       exists paid sizes, amounts spent = total sats + change + paid /\
         (FeeFor (o_absolute_fee o) f sizes sel paid \/ (change = 0 /\ Changeless (total sats) f sizes (map coin sel)))).
Proof.
  intros (outs & sats & w1 & change & msgs & back & B & C & Eo & Ls & Hc & Hb & (M0 & Hm) & (taken & unused & Pm & NE & _ & Hs) & sizes & SZ & Fee) D HD.
  destruct B as (_ & _ & _ & FI & FO).
  exists sats, w1, (total (map snd change)), back. split; auto.
  assert (C0 : 0 <= total (map snd change)) by (destruct Hc as [->|(n & Hn & ->)]; cbn; lia). split; auto.
  assert (LO : length (t_outs x) = length outs) by (symmetry; eapply F2_len; eauto).
  assert (LC : length (combine (map Addr (dests outputs)) sats) = length outputs).
  { rewrite combine_length, Ls. unfold dests. rewrite !map_length. lia. }
  assert (AT : forall j d n, nth_error outs j = Some (d, n) -> exists y, OutFor (d, n) y /\ confirmed L x id id (Z.of_nat j) = Some (n, o_script y)).
  { intros j d n Hj. destruct (F2_nth_l _ _ _ _ _ FO Hj) as (y & Hy & Y). exists y. split; auto. unfold confirmed.
    assert (j < length (t_outs x))%nat by (apply nth_error_Some; congruence). rewrite list_eqb_refl.
    replace (0 <=? Z.of_nat j) with true by lia. replace (Z.of_nat j <? _) with true by lia. cbn [andb]. rewrite Nat2Z.id, Hy. cbn [option_map].
    destruct Y as [-> _]. reflexivity. }
  split; [|split; [|split; [auto|]]].
  - intros j a n c Hj. assert (Hl : (j < length outputs)%nat) by (apply nth_error_Some; congruence).
    destruct (nth_error sats j) as [sat|] eqn:Es; [|apply nth_error_None in Es; lia].
    assert (Hd : nth_error (map Addr (dests outputs)) j = Some (Addr a)).
    { unfold dests. rewrite map_map, nth_error_map, Hj. reflexivity. }
    destruct (AT j (Addr a) sat) as (y & [_ Y] & Q); [|exists sat, (o_script y); auto].
    rewrite Eo, nth_error_app1 by lia. apply nth_combine; auto.
  - intros Hp. destruct Hc as [->|(n & Hn & ->)]; [cbn in Hp; lia|]. cbn [map total snd] in *.
    destruct (AT (length outputs) (Addr back) n) as (y & [_ Y] & Q).
    + rewrite Eo, nth_error_app2 by lia. rewrite LC, Nat.sub_diag. reflexivity.
    + replace (n + 0) with n by lia. exists (o_script y). split; [exact Y|exact Q].
  - exists taken, unused. split; auto.
    assert (MA : map u_amount taken = map u_amount sel).
    { rewrite Hs. destruct (o_replace_by_fee o); auto. destruct (rbf_maps taken) as (-> & _). auto. }
    split; auto.
    assert (KO : map (fun u => (hex_to_bytes (u_txid u), u_txindex u)) taken = map (fun i => (Ok (rev (i_txid i)), i_vout i)) (t_ins x)).
    { transitivity (map (fun u => (hex_to_bytes (u_txid u), u_txindex u)) sel).
      - rewrite Hs. destruct (o_replace_by_fee o); auto. rewrite map_map. apply map_ext. intros u. destruct (rbf_keep u) as (-> & -> & _). auto.
      - clear -FI. induction FI as [|u xi us xs ((A & B) & _) F IH]; cbn [map]; auto. rewrite IH, A, B. reflexivity. }
    assert (IFF : forall t n, existsb (fun i => list_eqb (rev t) (i_txid i) && (n =? i_vout i)) (t_ins x) = true <->
       In (Ok t, n) (map (fun u => (hex_to_bytes (u_txid u), u_txindex u)) taken)).
    { intros t n. rewrite KO, existsb_exists. split.
      - intros (i & Hi & Q). apply andb_true_iff in Q as [Q1 Q2]. apply list_eqb_eq in Q1. apply in_map_iff. exists i. split; auto.
        rewrite <- Q1, rev_involutive. f_equal. lia.
      - intros Hi. apply in_map_iff in Hi as (i & Q & Hi). exists i. split; auto. injection Q as Q1 Q2. rewrite <- Q1, rev_involutive, list_eqb_refl. cbn. lia. }
    split; [|split].
    + intros u t Hu Ht Ni. unfold confirmed. assert (list_eqb (rev t) id = false) as -> by (apply list_eqb_neq; auto). cbn [andb].
      rewrite (proj2 (IFF t (u_txindex u))); auto. apply in_map_iff. exists u. rewrite Ht. auto.
    + intros u t Hu Ht Ni. unfold confirmed. assert (list_eqb (rev t) id = false) as -> by (apply list_eqb_neq; auto). cbn [andb].
      destruct (existsb _ (t_ins x)) eqn:Q.
      * exfalso. apply IFF in Q. unfold Distinct in D. eapply Permutation_NoDup in D; [|apply Permutation_map, Permutation_sym; exact Pm].
        rewrite map_app in D. apply in_split in Hu as (l1 & l2 & ->). rewrite map_app in D. cbn [map] in D. rewrite app_assoc in D. apply NoDup_remove_2 in D.
        apply D. rewrite Ht. apply in_or_app. left. apply in_or_app. left. exact Q.
      * assert (Hin : In u us) by (eapply Permutation_in; [exact Pm|apply in_or_app; auto]). rewrite Forall_forall in HD.
        destruct (HD u Hin) as (t' & spk & H1 & H2 & _ & H4). rewrite Ht in H1. injection H1 as <-. exists spk. auto.
    + exists (amounts sel - total (map o_value (t_outs x))), sizes.
      assert (T : total (map o_value (t_outs x)) = total sats + total (map snd change)).
      { rewrite (outs_values _ _ FO), Eo, !map_app, !total_app.
        assert (Z0 : forall l : list (dest * Z), Forall (fun p => snd p = 0) l -> total (map snd l) = 0) by (clear; induction 1; cbn; lia).
        rewrite (Z0 msgs M0). assert (TS : total (map snd (combine (map Addr (dests outputs)) sats)) = total sats); [|lia].
        assert (Hl : length (map Addr (dests outputs)) = length sats) by (unfold dests; rewrite !map_length; auto). clear -Hl. revert sats Hl.
        generalize (map Addr (dests outputs)) as l. intros l. induction l as [|a l IH]; intros [|n sats] H; try discriminate; cbn; auto. injection H as H.
        specialize (IH sats H). lia. }
      split.
      * unfold amounts at 1. rewrite MA. fold (amounts sel). lia.
      * cbv zeta in Fee. destruct Fee as [Fee|(_ & _ & -> & Ch)]; auto.
Qed.

(** The rules do refuse: what was paid to a key is spent only with a public key
    of that hash, a good signature for this very transaction and nothing else on
    its way. *)
Ltac step_inv := intros S; inversion S; subst; first [exfalso; unfold OP_1, OP_16, OP_DUP_code, OP_HASH160_code, OP_EQUALVERIFY_code, OP_CHECKSIG_code in *; lia | eauto 6].
Lemma step_dup chk s t : Step chk (Op OP_DUP_code) s t -> exists d r, s = d :: r /\ t = d :: d :: r.
Proof. step_inv. Qed.
Lemma step_hash chk s t : Step chk (Op OP_HASH160_code) s t -> exists d r, s = d :: r /\ t = hash160 d :: r.
Proof. step_inv. Qed.
Lemma step_eqv chk s t : Step chk (Op OP_EQUALVERIFY_code) s t -> exists d, s = d :: d :: t.
Proof. step_inv. Qed.
Lemma step_sig chk s t : Step chk (Op OP_CHECKSIG_code) s t -> exists pub sig r, s = pub :: sig :: r /\ chk sig pub.
Proof. step_inv. Qed.
Lemma run_keyhash chk h s t : Run chk [Op OP_DUP_code; Op OP_HASH160_code; Push h; Op OP_EQUALVERIFY_code; Op OP_CHECKSIG_code] s t ->
  exists pub sig r, s = pub :: sig :: r /\ hash160 pub = h /\ chk sig pub.
Proof.
  intros R. inversion R as [|? ? ? s1 ? S1 R1]; subst. apply step_dup in S1 as (d & r & -> & ->).
  inversion R1 as [|? ? ? s2 ? S2 R2]; subst. apply step_hash in S2 as (d' & r' & E & ->). injection E as <- <-.
  inversion R2 as [|? ? ? s3 ? S3 R3]; subst. inversion S3; subst.
  inversion R3 as [|? ? ? s4 ? S4 R4]; subst. apply step_eqv in S4 as (d'' & E). injection E as -> E <-.
  inversion R4 as [|? ? ? s5 ? S5 R5]; subst. apply step_sig in S5 as (pub & sig & r' & E & C). injection E as -> ->. eauto 6.
Qed.
Theorem C79_refuses x j i value pub : Accepts x j i value (p2pkh_script pub) ->
  exists pub' sig rest, hash160 pub' = hash160 pub /\ ParsesTo (i_script i) (map Push (rest ++ [sig; pub'])) /\
    legacy_sig x j (p2pkh_script pub) sig pub'.
Proof.
  assert (L : length (hash160 pub) = 20%nat) by apply (h160_len HO).
  intros A. inversion A as [items t s P (ops & _ & P2 & R) T _ _ _| ? ? ? ? ? ? _ _ SH | ? ? ? _ SH | ? WO]; clear A.
  - destruct (p2pkh_parse _ L) as [_ P']. rewrite (ParsesTo_fun _ _ P2 _ P') in R. clear P2 P'. apply run_keyhash in R as (pub' & sig & r & E & H & C).
    exists pub', sig, (rev r). split; auto. split; auto. apply (f_equal (@rev bytes)) in E. rewrite rev_involutive in E. subst items. cbn [rev] in P.
    rewrite <- app_assoc in P. exact P.
  - destruct (not_scripthash_p2pkh _ SH).
  - destruct (not_scripthash_p2pkh _ SH).
  - inversion WO.
Qed.

(** ** C81: change below what nodes relay *)

(** Nodes do not relay transactions with outputs they call dust: for the output
    types here less than 540 (P2SH) or 546 (P2PKH) satoshis. *)
Definition Dust (spk : bytes) (value : Z) : Prop :=
  (ScriptHash spk /\ value < 540) \/ ((exists h, IsP2PKH h spk) /\ value < 546).

(** When all coins are combined, whatever they hold beyond payments and fee
    becomes change, were it a single satoshi. *)
Theorem C81_change (RO : RandomOk WD) us w outs fee back min_change v o sel outs' us' w' sats w1 sizes f r msgs :
  0 <= min_change -> o_combine o = true ->
  sanitize_tx_data outs fee (Some back) min_change v o (us, w) = (Ok (sel, outs'), (us', w')) ->
  Converted w outs sats w1 -> message_outputs (o_message o) (o_message_is_hex o) = Ok msgs -> OutputSizes (dests outs) (length msgs) back sizes ->
  FeeFor (o_absolute_fee o) fee sizes us f -> amounts us = total sats + f + r -> 0 < r ->
  In (Addr back, r) outs'.
Proof.
  intros Hmin Hc E C Em SZ F A Hr.
  destruct (C44_outputs _ _ _ _ _ _ _ _ _ _ _ _ E) as (sats' & w1' & change & msgs' & bk & C' & Q & Eo & Ls & Hch & _ & Em').
  injection Q as <-. destruct (Converted_fun _ _ _ _ _ _ C C') as [<- _]. rewrite Em in Em'. injection Em' as <-.
  destruct (C44_inputs RO _ _ _ _ _ _ _ _ _ _ _ _ E) as (taken & unused & Pm & NE & Hall & Hs). rewrite (Hall Hc) in Hs. clear Hall Pm NE taken unused.
  destruct (C44_books RO _ _ _ _ _ _ _ _ _ _ _ _ Hmin E) as (sats' & w1'' & msgs' & bk' & sizes' & C'' & Q & Em' & SZ' & B).
  injection Q as <-. destruct (Converted_fun _ _ _ _ _ _ C C'') as [<- _]. rewrite Em in Em'. injection Em' as <-. cbv zeta in B.
  destruct B as [B|(_ & B & _)]; [|congruence].
  assert (sizes' = sizes) as ->.
  { destruct SZ as (l & c & F1 & (sc & E1 & ->) & ->), SZ' as (l' & c' & F2 & (sc' & E2 & ->) & ->). rewrite E1 in E2. injection E2 as <-. f_equal.
    clear -F1 F2. revert l' F2. induction F1 as [|a z p l (q & E1 & ->) F1 IH]; intros l' F2; inversion F2 as [|? ? ? ? (q' & E2 & ->)]; subst; auto.
    rewrite E1 in E2. injection E2 as <-. f_equal; auto. }
  assert (HS : amounts sel = amounts us /\ map u_vsize sel = map u_vsize us /\ existsb u_is_segwit sel = existsb u_is_segwit us).
  { rewrite Hs. unfold amounts. destruct (o_replace_by_fee o); auto. destruct (rbf_maps us) as (-> & -> & ->). auto. }
  destruct HS as (S1 & S2 & S3). unfold FeeFor in B. rewrite S2, S3 in B. change (FeeFor (o_absolute_fee o) fee sizes us (amounts sel - total (map snd outs'))) in B.
  apply coin_fee_For in B. apply coin_fee_For in F. rewrite S1 in B.
  assert (T : total (map snd outs') = total sats + total (map snd change)).
  { rewrite Eo, !map_app, !total_app.
    assert (Z0 : total (map snd msgs) = 0).
    { clear -Em. unfold message_outputs in Em. destruct (o_message o) as [m|]; [|injection Em as <-; reflexivity].
      destruct (msg_empty m); [injection Em as <-; reflexivity|]. apply bind_ok in Em as (ch & _ & Em). injection Em as <-. induction ch; cbn; auto. }
    rewrite Z0. assert (TS : total (map snd (combine (map Addr (dests outs)) sats)) = total sats); [|lia].
    assert (Hl : length (map Addr (dests outs)) = length sats) by (unfold dests; rewrite !map_length; auto). clear -Hl. revert sats Hl.
    generalize (map Addr (dests outs)) as l. intros l. induction l as [|a l IH]; intros [|n sats] H; try discriminate; cbn; auto. injection H as H.
    specialize (IH sats H). lia. }
  rewrite Eo. apply in_or_app. right. apply in_or_app. left. destruct Hch as [->|(n & Hn & ->)]; cbn in T; [lia|]. left. f_equal. lia.
Qed.
End WithCrypto.
Print Assumptions C79_single.
Print Assumptions C79_multi.
Print Assumptions C79_refuses.
Print Assumptions C80_effect.
Print Assumptions C81_change.

Local Opaque create_transaction get_unspents.
(** ** The hypotheses are met: the cases of C50, with the coins on a ledger. *)
Definition ledger_of (us : list Unspent) : ledger := fun t n =>
  match find (fun u => match hex_to_bytes (u_txid u) with Ok t' => list_eqb (rev t') t && (u_txindex u =? n) | _ => false end) us with
  | Some u => match hex_to_bytes (u_script u) with Ok s => Some (u_amount u, s) | _ => None end
  | None => None
  end.
Definition describesb (L : ledger) (u : Unspent) : bool :=
  match hex_to_bytes (u_txid u), hex_to_bytes (u_script u) with
  | Ok t, Ok spk => list_eqb (u_script u) (bytes_to_hex spk) && bytes_ok spk &&
      match L (rev t) (u_txindex u) with Some (a, s) => (a =? u_amount u) && list_eqb s spk | None => false end
  | _, _ => false
  end.
Lemma describesb_ok L u : describesb L u = true -> Describes L u.
Proof.
  unfold describesb, Describes. destruct (hex_to_bytes (u_txid u)) as [t|]; [|discriminate]. destruct (hex_to_bytes (u_script u)) as [spk|]; [|discriminate].
  intros E. apply andb_true_iff in E as [E E3]. apply andb_true_iff in E as [E1 E2]. exists t, spk. split; auto. split; [apply list_eqb_eq; auto|]. split; auto.
  destruct (L (rev t) (u_txindex u)) as [(a & s)|]; [|discriminate]. apply andb_true_iff in E3 as [E3 E4]. apply list_eqb_eq in E4. repeat f_equal; auto. lia.
Qed.
Definition sensibleb (us : list Unspent) : bool :=
  forallb (fun u => 0 <=? u_amount u) us && forallb (fun u => 0 <=? u_vsize u) us && (amounts us <=? MAX_MONEY).
Lemma sensibleb_ok us : sensibleb us = true -> Sensible us.
Proof.
  unfold sensibleb, Sensible. intros E. apply andb_true_iff in E as [E E3]. apply andb_true_iff in E as [E1 E2]. rewrite forallb_forall in E1, E2.
  split; [|split; [|lia]]; apply Forall_forall; intros u Hu; [specialize (E1 u Hu)|specialize (E2 u Hu)]; lia.
Qed.
Definition toy_us1 : list Unspent := match toy_fetched with (Ok us, _) => us | _ => [] end.
Example C79_single_hypotheses : exists us s1, toy_fetched = (Ok us, s1) /\ Sensible us /\ Forall (Describes (ledger_of toy_us1)) us /\
  wouts other_key <> [] /\ (forall f w, @FeeRate _ _ toy_world None (wl_world s1) f w -> 0 <= f).
Proof.
  assert (G : (match toy_fetched with (Ok us, _) => sensibleb us && forallb (describesb (ledger_of toy_us1)) us | _ => false end) = true) by (vm_compute; reflexivity).
  revert G. generalize (ledger_of toy_us1) as L. intros L. generalize toy_fetched. intros ([us|] & s1) G; [|discriminate]. exists us, s1. split; auto.
  apply andb_true_iff in G as [G1 G2]. split; [apply sensibleb_ok; auto|]. rewrite forallb_forall in G2. split; [apply Forall_forall; intros u Hu; apply describesb_ok; auto|].
  split; [discriminate|]. intros f w F. inversion F as [|? ? ? ? _ H]; subst. injection H as <- <-. lia.
Qed.
(** With the other hypotheses (C50_single_hypotheses) the theorem applies: a
    transaction with three inputs, one of them segwit, is valid. *)
Example C79_single_case : exists h s' x coins, create_toy true = (Ok h, s') /\ @Valid toy (ledger_of toy_us1) x coins /\ length coins = 3%nat.
Proof.
  destruct C50_single_hypotheses as (K & M & (h & s' & E) & us & s1 & F & Lu & T & D & SC & _).
  destruct C79_single_hypotheses as (us' & s1' & F' & SE & DE & NO & Hf). rewrite F in F'. injection F' as <- <-.
  destruct (@C79_single toy toy_ok _ _ toy_world toy_random_ok wkey (wouts other_key) None None None (wopts true true) wallet0 h s' us s1 (ledger_of toy_us1)
    K M E F T D SC SE DE NO Hf) as (x & sel & f & w & coins & Ak & MF & V).
  exists h, s', x, coins. split; auto. split; auto.
  destruct Ak as (_ & _ & _ & _ & _ & _ & _ & _ & _ & _ & _ & _ & _ & (taken & unused & _ & _ & All & Hs) & _). specialize (All eq_refl). subst taken.
  apply (f_equal (@length Z)) in MF. rewrite !map_length, Hs in MF. cbn [o_replace_by_fee wopts] in MF. rewrite map_length in MF. congruence.
Qed.
(** The creator and one co-signer of a 2-of-3 wallet, one coin of each kind. *)
Example C79_multi_case : exists h s' sel h' x coins, create_toy_multi = (Ok h, s') /\ @pass_all toy toy_env sel h [toy_k 7] = Ok h' /\
  @Valid toy (ledger_of toy_mus) x coins /\ length coins = 2%nat.
Proof.
  destruct C50_multi_hypotheses as (EO & SG & _ & M & (h & s' & E) & T & D & SC).
  assert (SE : Sensible toy_mus) by (apply sensibleb_ok; vm_compute; reflexivity).
  assert (DE : Forall (Describes (ledger_of toy_mus)) toy_mus).
  { assert (G : forallb (describesb (ledger_of toy_mus)) toy_mus = true) by (vm_compute; reflexivity). rewrite forallb_forall in G. apply Forall_forall.
    intros u Hu. apply describesb_ok. auto. }
  destruct (@C79_multi toy toy_ok _ _ toy_world toy_random_ok toy_env (toy_k 5) [toy_k 7] mouts (Some 3) None (Some toy_mus) (wopts true true) wallet0 h s' toy_mus
    (set_caller toy_mus wallet0) (ledger_of toy_mus) EO SG eq_refl M E (conj eq_refl eq_refl) T D SC SE DE ltac:(discriminate)) as (h' & x & sel & f & w & coins & Ep & Ak & MF & V).
  { intros f w F. inversion F; subst; [lia|]. match goal with H : _ \/ _ |- _ => destruct H; discriminate end. }
  exists h, s', sel, h', x, coins. split; auto. split; auto. split; auto.
  destruct Ak as (_ & _ & _ & _ & _ & _ & _ & _ & _ & _ & _ & _ & _ & (taken & unused & _ & _ & All & Hs) & _). specialize (All eq_refl). subst taken.
  apply (f_equal (@length Z)) in MF. rewrite !map_length, Hs in MF. cbn [o_replace_by_fee wopts] in MF. rewrite map_length in MF. rewrite MF. reflexivity.
Qed.

(** All 90000 satoshis of the key, 89000 paid, a fee of 999: one satoshi comes
    back, and the transaction, though valid, is not relayed. *)
Definition dust_outs : list (pystr * Z * pystr) := [(addr_of other_key, 89000, str "satoshi")].
Definition dust_opts : Options := mkOptions true None true false false.
Definition create_dust := @create_transaction toy _ _ toy_world (Single wkey) dust_outs (Some 999) None None dust_opts wallet0.
Theorem C81_refuted : ~ (forall (CR : Crypto) (W Amt : Type) (WD : World W Amt), HashOk CR -> RandomOk WD -> forall k outputs fee leftover unspents o s h s' x,
  KeyOk k -> create_transaction (Single k) outputs fee leftover unspents o s = (Ok h, s') ->
  (exists b, h = bytes_to_hex b /\ (EncSegwit x b \/ EncLegacy x b)) ->
  Forall (fun y => ~ Dust (o_script y) (o_value y)) (t_outs x)).
Proof.
  intros H.
  assert (R : exists h s', create_dust = (Ok h, s')) by (apply is_ok; vm_compute; reflexivity). destruct R as (h & s' & E).
  destruct C50_single_hypotheses as (K & _ & _ & us & s1 & F & Lu & T & D & SC & SG).
  destruct (@C50_create_single toy toy_ok _ _ toy_world toy_random_ok wkey dust_outs (Some 999) None None dust_opts wallet0 h s' us s1 K I E F T D SC)
    as (x & sel & f & w & FR & Ak & _).
  assert (f = 999) as -> by (inversion FR as [|? ? ? ? [Q|Q]]; subst; [reflexivity|discriminate|discriminate]).
  pose proof Ak as (outs & sats & w1 & change & msgs & back & B & C & Eo & Ls & Hc & Hb & (M0 & Hm) & (taken & unused & Pm & NE & All & Hs) & sizes & SZ & Fee).
  rewrite (All eq_refl) in Hs. cbn [o_replace_by_fee dust_opts] in Hs. subst sel. cbn [o_message dust_opts] in Hm. subst msgs.
  assert (AM : amounts us = 90000).
  { assert (G : match toy_fetched with (Ok l, _) => amounts l =? 90000 | _ => false end = true) by (vm_compute; reflexivity).
    unfold toy_fetched in *. rewrite F in G. lia. }
  cbv zeta in Fee. destruct Fee as [(z & _ & Fee)|(Q & _)]; [|discriminate]. cbn [o_absolute_fee dust_opts] in Fee. rewrite AM in Fee.
  destruct B as ((b & (Eh & _) & Eb) & _ & _ & _ & FO).
  assert (sats = [89000]) as ->.
  { inversion C as [|? ? ? ? ? ? ? ? ? E1 C']; subst. inversion C'; subst. injection E1 as <- _. reflexivity. }
  rewrite SG in Hb.
  assert (BK : back = segwit_addr_of wkey) by (unfold segwit_addr_of; cbn [sg_segwit_address] in Hb; rewrite Hb; reflexivity).
  rewrite (outs_values _ _ FO), Eo in Fee. destruct Hc as [->|(n & Hn & ->)]; [cbn in Fee; lia|]. cbn [map snd app combine dests dust_outs fst total] in Fee.
  assert (n = 1) as -> by lia.
  specialize (H toy _ _ toy_world toy_ok toy_random_ok wkey dust_outs (Some 999) None None dust_opts wallet0 h s' x K E).
  specialize (H ltac:(exists b; split; auto; rewrite SG in Eb; auto)).
  rewrite Eo in FO. cbn [map app combine dests dust_outs fst] in FO. inversion FO as [|? y1 ? l1 _ FO1 E1 E2]; subst. inversion FO1 as [|? y2 ? l2 [V2 S2] FO2 E3 E4]; subst.
  cbn [fst snd] in *. rewrite <- E2 in H. apply Forall_cons_iff in H as [_ H]. apply Forall_cons_iff in H as [H _]. apply H. left. rewrite V2. split; [|lia].
  assert (G : match @address_to_scriptpubkey toy (segwit_addr_of wkey) with Ok (Some sc) => list_eqb sc (@p2sh_script toy ([0; 20] ++ @hash160 toy (k_public_key wkey))) | _ => false end = true)
    by (vm_compute; reflexivity).
  rewrite S2 in G. apply list_eqb_eq in G. rewrite G. apply (scripthash_p2sh toy_ok).
Qed.
Print Assumptions C81_refuted.
