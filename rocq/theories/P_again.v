(** C94, C95: payments one after the other, and in place of each other. *)
From Coq Require Import String Permutation.
From Verif Require Import F_cosign F_cosigntx F_signtx F_wallet F_utf8 F_spend F_wire F_build P_outputs P_select P_sign P_multi P_wallet P_create P_state P_send P_size X_world X_server.
From Verif Require Import M_app F_app S_Decimal S_History S_Servers S_Failover S_After S_Size S_Replace F_decimal F_network F_servers P_rates P_network P_services P_failover P_anyservice P_app P_after P_live S_Consensus P_consensus P_lies.

(** ** Inputs and coins *)
Definition upoint (u : Unspent) : result bytes * Z := (hex_to_bytes (u_txid u), u_txindex u).
Definition shown (o : bytes * Z) : result bytes * Z := (Ok (rev (fst o)), snd o).
Lemma shown_inj o p : shown o = shown p -> o = p.
Proof.
  destruct o as [a n], p as [b m]. unfold shown. cbn [fst snd]. intros E. injection E as E ->. apply (f_equal (@rev Z)) in E. rewrite !rev_involutive in E. congruence.
Qed.
Lemma in_points us xs : Forall2 InFor us xs -> map upoint us = map (fun i => shown (outpoint i)) xs.
Proof. induction 1 as [|u i us xs ((A & B) & _) F IH]; cbn [map]; auto. rewrite IH. unfold upoint at 1, shown, outpoint. cbn [fst snd]. rewrite A, B. reflexivity. Qed.
Lemma rbf_points l : map upoint (map opt_in_for_RBF l) = map upoint l.
Proof. rewrite map_map. apply map_ext. intros u. unfold upoint. destruct (rbf_keep u) as (-> & -> & _). reflexivity. Qed.
Lemma points_incl us xs vs ys : Forall2 InFor us xs -> Forall2 InFor vs ys -> incl (map upoint vs) (map upoint us) -> incl (map outpoint ys) (map outpoint xs).
Proof.
  intros F G I. rewrite (in_points _ _ F), (in_points _ _ G) in I. intros p H. apply in_map_iff in H as (j & <- & J).
  specialize (I (shown (outpoint j)) (in_map (fun i => shown (outpoint i)) _ _ J)). apply in_map_iff in I as (i & Q & I). apply shown_inj in Q. rewrite <- Q. apply in_map. auto.
Qed.
Lemma incl_conflict x y : t_ins y <> [] -> incl (map outpoint (t_ins y)) (map outpoint (t_ins x)) -> Conflict x y.
Proof.
  intros N I. destruct (t_ins y) as [|j r] eqn:Q; [congruence|]. specialize (I (outpoint j) (or_introl eq_refl)). apply in_map_iff in I as (i & E & H).
  exists i, j. rewrite Q. split; auto. split; [left; auto|auto].
Qed.
Lemma F2_in_r {A B} (R : A -> B -> Prop) l m b : Forall2 R l m -> In b m -> exists a, In a l /\ R a b.
Proof. induction 1 as [|a c l m H F IH]; cbn; [contradiction|]. intros [<-|I]; [eauto|]. destruct (IH I) as (a' & I' & H'). eauto. Qed.
Lemma conflict_sym x y : Conflict x y -> Conflict y x.
Proof. intros (i & j & A & B & C). exists j, i. auto. Qed.

Section WithCrypto.
Context {CR : Crypto} (HO : HashOk CR) {W Amt : Type} {WD : World W Amt}.

(** What was built spends coins that were available. *)
Lemma asked_coins sg (outputs : list (pystr * Amt * pystr)) f leftover o us sel w h x : Asked sg outputs f leftover o us sel w h x ->
  Forall2 InFor sel (t_ins x) /\ sel <> [] /\ incl (map upoint sel) (map upoint us) /\ (o_combine o = true -> map upoint sel = map upoint us) /\
  (o_replace_by_fee o = true -> Forall (fun u => u_sequence u <= 0xfffffffd) sel).
Proof.
  intros (outs & sats & w1 & change & msgs & back & (_ & _ & _ & FI & _) & _ & _ & _ & _ & _ & _ & (taken & unused & Pm & NE & All & Hs) & _).
  split; auto. assert (Q : map upoint sel = map upoint taken) by (rewrite Hs; destruct (o_replace_by_fee o); [apply rbf_points|reflexivity]).
  split; [subst sel; destruct (o_replace_by_fee o); auto; destruct taken; [contradiction|discriminate]|]. split.
  - rewrite Q. intros p H. eapply Permutation_in; [apply Permutation_map; exact Pm|]. rewrite map_app. apply in_or_app. auto.
  - split; [intros C; rewrite Q, (All C); reflexivity|]. intros R. rewrite R in Hs. subst sel. apply Forall_map, Forall_forall. intros u _.
    unfold opt_in_for_RBF. destruct (Z.gtb_spec (u_sequence u) 4294967293); cbn; lia.
Qed.
Lemma ins_nonempty sel xs : Forall2 InFor sel xs -> sel <> [] -> xs <> [].
Proof. intros F N. destruct F; congruence. Qed.

Lemma in_signals sel x : Forall2 InFor sel (t_ins x) -> sel <> [] -> Forall (fun u => u_sequence u <= 0xfffffffd) sel -> Signals x.
Proof.
  unfold Signals. generalize (t_ins x). intros xs F N S1. destruct F as [|u i us0 xs (_ & Q) F]; [congruence|]. left. apply Forall_cons_iff in S1 as [S1 _]. rewrite Q. lia.
Qed.

(** ** C95: replacing *)
(** The same coins, in any order; sequence numbers, which replacing changes, do not matter. *)
Definition known (u : Unspent) : pystr * Z * Z * Z * bool := (u_txid u, u_txindex u, u_amount u, u_vsize u, u_is_segwit u).
Definition SameCoins (us vs : list Unspent) : Prop := Permutation (map known us) (map known vs).

Lemma same_points us vs : SameCoins us vs -> Permutation (map upoint us) (map upoint vs).
Proof.
  intros P. apply (Permutation_map (fun '(t, n, _, _, _) => (hex_to_bytes t, n))) in P. rewrite !map_map in P. exact P.
Qed.
Lemma total_permutation l m : Permutation l m -> S_Fee.total l = S_Fee.total m.
Proof. induction 1; cbn [S_Fee.total]; lia. Qed.
Lemma existsb_perm {A} (f : A -> bool) l m : Permutation l m -> existsb f l = existsb f m.
Proof.
  intros P. destruct (existsb f l) eqn:E.
  - apply existsb_exists in E as (a & I & H). symmetry. apply existsb_exists. exists a. split; auto. eapply Permutation_in; eauto.
  - destruct (existsb f m) eqn:E'; auto. apply existsb_exists in E' as (a & I & H). assert (existsb f l = true); [|congruence].
    apply existsb_exists. exists a. split; auto. eapply Permutation_in; [apply Permutation_sym; eauto|auto].
Qed.
Lemma existsb_known l : existsb u_is_segwit l = existsb (fun k => snd k) (map known l).
Proof. induction l; cbn; congruence. Qed.
Lemma same_estimate us vs sizes s : SameCoins us vs -> EstimatedSize (map u_vsize us) sizes (existsb u_is_segwit us) s ->
  EstimatedSize (map u_vsize vs) sizes (existsb u_is_segwit vs) s.
Proof.
  intros P (ki & ko & A & B & C). rewrite existsb_known, (existsb_perm _ _ _ P), <- existsb_known in C.
  pose proof (Permutation_map (fun k => snd (fst k)) P) as PV. rewrite !map_map in PV. change (Permutation (map u_vsize us) (map u_vsize vs)) in PV.
  exists ki, ko. rewrite <- (Permutation_length PV). split; auto. split; auto.
  rewrite <- (total_permutation _ _ PV). exact C.
Qed.
Lemma rbf_known l : map known (map opt_in_for_RBF l) = map known l.
Proof.
  rewrite map_map. apply map_ext. intros u. unfold known. destruct (rbf_keep u) as (-> & -> & _ & -> & ->). destruct (rbf_same u) as (_ & -> & _). reflexivity.
Qed.
Lemma OutputSize_fun a n n' : OutputSize a n -> OutputSize a n' -> n = n'.
Proof. intros (s & E & ->) (s' & E' & ->). congruence. Qed.
Lemma OutputSizes_fun pay n back l l' : OutputSizes pay n back l -> OutputSizes pay n back l' -> l = l'.
Proof.
  intros (a & c & F & C & ->) (a' & c' & F' & C' & ->). rewrite (OutputSize_fun _ _ _ C C'). f_equal. clear -F F'. revert a' F'.
  induction F as [|p n ps ns H F IH]; intros a' F'; inversion F'; subst; auto. f_equal; [eapply OutputSize_fun; eauto|auto].
Qed.

(** Two attempts at the same payment with all of the same coins. *)
Lemma asked_twice sg (outputs : list (pystr * Amt * pystr)) f f' leftover o us vs sel sel' w w' h h' x y : ShortMessage o -> o_combine o = true ->
  Asked sg outputs f leftover o us sel w h x -> Asked sg outputs f' leftover o vs sel' w' h' y -> SameCoins us vs ->
  Permutation (map outpoint (t_ins x)) (map outpoint (t_ins y)) /\
  exists s, amounts sel - S_Fee.total (map o_value (t_outs x)) = (if o_absolute_fee o then f else f * s) /\
            amounts sel' - S_Fee.total (map o_value (t_outs y)) = (if o_absolute_fee o then f' else f' * s).
Proof.
  intros SM CB A A' SC. destruct (asked_coins _ _ _ _ _ _ _ _ _ _ A) as (F & _ & _ & P & _), (asked_coins _ _ _ _ _ _ _ _ _ _ A') as (F' & _ & _ & P' & _).
  specialize (P CB). specialize (P' CB). split.
  - pose proof (same_points _ _ SC) as PP. rewrite <- P, <- P', (in_points _ _ F), (in_points _ _ F') in PP.
    pose proof (Permutation_map (fun q => (match fst q with Ok b => rev b | _ => [] end, snd q)) PP) as PQ. rewrite !map_map in PQ.
    assert (Q : forall l, map (fun i => (match fst (shown (outpoint i)) with Ok b => rev b | _ => [] end, snd (shown (outpoint i)))) l = map outpoint l)
      by (intros l; apply map_ext; intros i; unfold shown, outpoint; cbn [fst snd]; rewrite rev_involutive; reflexivity).
    rewrite !Q in PQ. exact PQ.
  - destruct A as (outs & sats & w1 & change & msgs & back & _ & _ & _ & _ & _ & HB & (_ & HM) & (taken & unused & _ & _ & All & Hs) & sizes & SZ & B).
    destruct A' as (outs' & sats' & w1' & change' & msgs' & back' & _ & _ & _ & _ & _ & HB' & (_ & HM') & (taken' & unused' & _ & _ & All' & Hs') & sizes' & SZ' & B').
    assert (EM : length msgs = length msgs').
    { unfold ShortMessage in SM. destruct (o_message o) as [m|]; [|subst; reflexivity]. destruct SM as (b & MB & _).
      destruct (HM b MB) as (c & -> & C), (HM' b MB) as (c' & -> & C'). rewrite (chunks_fun _ _ _ C C'). reflexivity. }
    assert (back' = back) as ->.
    { rewrite existsb_known, <- (existsb_perm _ _ _ SC), <- existsb_known in HB'. destruct leftover as [[|c r]|]; [|congruence|]; destruct (existsb u_is_segwit us); congruence. }
    rewrite <- EM in SZ'. rewrite (OutputSizes_fun _ _ _ _ _ SZ' SZ) in *. clear SZ' EM.
    cbv zeta in B, B'. destruct B as [(s & ES & EP)|(_ & Q & _)]; [|congruence]. destruct B' as [(s' & ES' & EP')|(_ & Q & _)]; [|congruence].
    assert (K : SameCoins sel sel').
    { rewrite (All CB) in Hs. rewrite (All' CB) in Hs'. unfold SameCoins. subst sel sel'. destruct (o_replace_by_fee o); [rewrite !rbf_known|]; exact SC. }
    pose proof (same_estimate _ _ _ _ K ES) as ES2. rewrite (EstimatedSize_fun _ _ _ _ _ ES' ES2) in EP'. exists s. auto.
Qed.

(** If the fees differ by the price of the second one's size, it replaces the first. *)
Lemma replaced sg (outputs : list (pystr * Amt * pystr)) f f' leftover o us vs sel sel' w w' h h' x y b v : ShortMessage o -> o_combine o = true -> o_replace_by_fee o = true ->
  Asked sg outputs f leftover o us sel w h x -> Asked sg outputs f' leftover o vs sel' w' h' y -> SameCoins us vs ->
  let fx := amounts sel - S_Fee.total (map o_value (t_outs x)) in let fy := amounts sel' - S_Fee.total (map o_value (t_outs y)) in
  VirtualSize y b v -> fx + v <= fy -> Replaces x y b fx fy.
Proof.
  intros SM CB RB Ax Ay SC fx fy V Hv. destruct (asked_twice _ _ _ _ _ _ _ _ _ _ _ _ _ _ _ _ SM CB Ax Ay SC) as (P & _).
  destruct (asked_coins _ _ _ _ _ _ _ _ _ _ Ax) as (Fx & Nx & _ & _ & Sx). destruct (asked_coins _ _ _ _ _ _ _ _ _ _ Ay) as (Fy & Ny & _).
  assert (I : incl (map outpoint (t_ins y)) (map outpoint (t_ins x))) by (intros p Hp; eapply Permutation_in; [apply Permutation_sym; exact P|exact Hp]).
  split; [eapply in_signals; eauto|]. split; [apply incl_conflict; auto; eapply ins_nonempty; eauto|]. split; [exact I|]. exists v. auto.
Qed.
Lemma replaced_rate sg (outputs : list (pystr * Amt * pystr)) f f' leftover o us vs sel sel' w w' h h' x y b : ShortMessage o -> o_combine o = true -> o_replace_by_fee o = true -> o_absolute_fee o = false ->
  Asked sg outputs f leftover o us sel w h x -> Asked sg outputs f' leftover o vs sel' w' h' y -> SameCoins us vs ->
  0 <= f < f' -> Covered f' o outputs y b sel' -> Uniform_coins sel' ->
  Replaces x y b (amounts sel - S_Fee.total (map o_value (t_outs x))) (amounts sel' - S_Fee.total (map o_value (t_outs y))).
Proof.
  intros SM CB RB AB Ax Ay SC Hf CV U. destruct (asked_twice _ _ _ _ _ _ _ _ _ _ _ _ _ _ _ _ SM CB Ax Ay SC) as (_ & sz & P1 & P2). rewrite AB in P1, P2.
  destruct CV as (wt & v & _ & V & [(_ & C)|(C & _)]); [|congruence]. eapply replaced; eauto. specialize (C U). rewrite P2 in C. rewrite P1, P2.
  assert (0 <= v). { destruct V as (w0 & (base & _ & ->) & V). unfold zlen in V. lia. }
  assert (v <= sz) by nia. nia.
Qed.

(** C95: a payment that consolidates all coins, and may be replaced, is replaced
    by one from the same coins at a higher rate. *)
Theorem C95_replaces (RO : RandomOk WD) k outputs fee fee' leftover unspents unspents' o s h s' us s1 t h' t' vs t1 :
  KeyOk k -> MsgOk o -> o_combine o = true -> o_replace_by_fee o = true -> o_absolute_fee o = false -> ShortMessage o ->
  create_transaction (Single k) outputs fee leftover unspents o s = (Ok h, s') -> Available (Single k) unspents s us s1 ->
  create_transaction (Single k) outputs fee' leftover unspents' o t = (Ok h', t') -> Available (Single k) unspents' t vs t1 -> SameCoins us vs ->
  Forall TxidOk us -> Distinct us -> Forall (SingleCoin k) us -> Forall TxidOk vs -> Distinct vs -> Forall (SingleCoin k) vs ->
  Forall (SizedSingle k) vs -> Uniform_coins vs -> (forall m, (length (ec_sign (k_secret k) m) <= 71)%nat) ->
  exists x y sel sel' f f' w w' b,
    FeeRate fee (wl_world s1) f w /\ Asked (Single k) outputs f leftover o us sel w h x /\
    FeeRate fee' (wl_world t1) f' w' /\ Asked (Single k) outputs f' leftover o vs sel' w' h' y /\ h' = bytes_to_hex b /\
    (0 <= f < f' -> Small y ->
     Replaces x y b (amounts sel - S_Fee.total (map o_value (t_outs x))) (amounts sel' - S_Fee.total (map o_value (t_outs y)))).
Proof.
  intros K M CB RB AB SM E A E' A' SC T D S1 T' D' S1' SZ U LS.
  destruct (C50_create_single HO RO _ _ _ _ _ _ _ _ _ _ _ K M E A T D S1) as (x & sel & f & w & Ef & Ax & _).
  destruct (C43_single HO RO _ _ _ _ _ _ _ _ _ _ _ K M E' A' T' D' S1' SZ LS SM AB) as (y & sel' & f' & w' & b & Ef' & Ay & Hb & UU & CV).
  exists x, y, sel, sel', f, f', w, w', b. do 5 (split; auto). intros Hf Sm.
  eapply replaced_rate; eauto. apply CV; auto. lia.
Qed.
(** For a wallet with several keys, when enough of them have signed. *)
Theorem C95_multi (RO : RandomOk WD) e k ks outputs fee fee' leftover unspents unspents' o s h s' us s1 t h' t' vs t1 :
  EnvOk e -> Signers e (k :: ks) -> zlen (k :: ks) = e_m e -> MsgOk o -> o_combine o = true -> o_replace_by_fee o = true -> o_absolute_fee o = false -> ShortMessage o ->
  create_transaction (Multi (wallet e k)) outputs fee leftover unspents o s = (Ok h, s') -> Available (Multi (wallet e k)) unspents s us s1 ->
  create_transaction (Multi (wallet e k)) outputs fee' leftover unspents' o t = (Ok h', t') -> Available (Multi (wallet e k)) unspents' t vs t1 -> SameCoins us vs ->
  Forall TxidOk us -> Distinct us -> Forall (MultiCoin e) us -> Forall TxidOk vs -> Distinct vs -> Forall (MultiCoin e) vs ->
  Forall (SizedMulti e) vs -> Uniform_coins vs -> Forall (fun k => forall m, (length (ec_sign (k_secret k) m) <= 71)%nat) (k :: ks) ->
  exists g g' x y sel sel' f f' w w' b,
    FeeRate fee (wl_world s1) f w /\ pass_all e sel h ks = Ok g /\ Asked (Multi (wallet e k)) outputs f leftover o us sel w g x /\
    FeeRate fee' (wl_world t1) f' w' /\ pass_all e sel' h' ks = Ok g' /\ Asked (Multi (wallet e k)) outputs f' leftover o vs sel' w' g' y /\ g' = bytes_to_hex b /\
    (0 <= f < f' -> Small y ->
     Replaces x y b (amounts sel - S_Fee.total (map o_value (t_outs x))) (amounts sel' - S_Fee.total (map o_value (t_outs y)))).
Proof.
  intros EO SG LM M CB RB AB SM E A E' A' SC T D S1 T' D' S1' SZ U LS.
  destruct (C50_create_multi HO RO _ _ _ _ _ _ _ _ _ _ _ _ _ EO SG ltac:(lia) M E A T D S1) as (g & x & sel & f & w & Ef & Eg & Ax & _).
  destruct (C43_multi HO RO _ _ _ _ _ _ _ _ _ _ _ _ _ EO SG LM M E' A' T' D' S1' SZ LS SM AB) as (g' & y & sel' & f' & w' & b & Ef' & Eg' & Ay & Hb & UU & CV).
  exists g, g', x, y, sel, sel', f, f', w, w', b. do 7 (split; auto). intros Hf Sm.
  eapply replaced_rate; eauto. apply CV; auto. lia.
Qed.
(** With absolute fees the difference is the one of the fees. *)
Theorem C95_absolute (RO : RandomOk WD) k outputs fee fee' leftover unspents unspents' o s h s' us s1 t h' t' vs t1 :
  KeyOk k -> MsgOk o -> o_combine o = true -> o_replace_by_fee o = true -> o_absolute_fee o = true -> ShortMessage o ->
  create_transaction (Single k) outputs fee leftover unspents o s = (Ok h, s') -> Available (Single k) unspents s us s1 ->
  create_transaction (Single k) outputs fee' leftover unspents' o t = (Ok h', t') -> Available (Single k) unspents' t vs t1 -> SameCoins us vs ->
  Forall TxidOk us -> Distinct us -> Forall (SingleCoin k) us -> Forall TxidOk vs -> Distinct vs -> Forall (SingleCoin k) vs ->
  exists x y sel sel' f f' w w',
    FeeRate fee (wl_world s1) f w /\ Asked (Single k) outputs f leftover o us sel w h x /\
    FeeRate fee' (wl_world t1) f' w' /\ Asked (Single k) outputs f' leftover o vs sel' w' h' y /\
    amounts sel - S_Fee.total (map o_value (t_outs x)) = f /\ amounts sel' - S_Fee.total (map o_value (t_outs y)) = f' /\
    forall b v, VirtualSize y b v -> f + v <= f' -> Replaces x y b f f'.
Proof.
  intros K M CB RB AB SM E A E' A' SC T D S1 T' D' S1'.
  destruct (C50_create_single HO RO _ _ _ _ _ _ _ _ _ _ _ K M E A T D S1) as (x & sel & f & w & Ef & Ax & _).
  destruct (C50_create_single HO RO _ _ _ _ _ _ _ _ _ _ _ K M E' A' T' D' S1') as (y & sel' & f' & w' & Ef' & Ay & _).
  destruct (asked_twice _ _ _ _ _ _ _ _ _ _ _ _ _ _ _ _ SM CB Ax Ay SC) as (_ & sz & P1 & P2). rewrite AB in P1, P2.
  exists x, y, sel, sel', f, f', w, w'. do 6 (split; auto). intros b v V Hf.
  rewrite <- P1, <- P2. eapply replaced; eauto. lia.
Qed.

(** The coins a call leaves in the caller's list are those its transaction spends. *)
Lemma create_caller (RO : RandomOk WD) k outputs fee leftover us o s h s' : us <> [] ->
  KeyOk k -> MsgOk o -> create_transaction (Single k) outputs fee leftover (Some us) o s = (Ok h, s') ->
  Forall TxidOk us -> Distinct us -> Forall (SingleCoin k) us ->
  exists x f w, FeeRate fee (wl_world s) f w /\ Asked (Single k) outputs f leftover o us (wl_caller s') w h x /\
    Forall TxidOk (wl_caller s') /\ Distinct (wl_caller s') /\ Forall (SingleCoin k) (wl_caller s') /\ wl_caller s' <> [].
Proof.
  intros NE K M E T D SC. destruct (create_steps _ _ _ _ _ _ _ _ _ E) as (us2 & s2 & back & f & w1 & sel & outs & w2 & A2 & Ef & Es & En & Hs & Hb).
  assert (us2 = us /\ s2 = set_caller us s) as [-> ->]. { unfold Available in *. destruct us as [|u r]; [congruence|]. cbn in A2. intuition congruence. }
  assert (GV : given (Some us) = true) by (destruct us; [congruence|reflexivity]). rewrite GV in Hs. subst s'. cbn [wl_caller set_world set_caller wl_world] in *.
  assert (P : Forall (fun u => TxidOk u /\ SingleCoin k u) us) by (rewrite Forall_forall in *; auto).
  destruct (sel_coins RO (fun u => TxidOk u /\ SingleCoin k u) us w1 outputs f back (sg_version (Single k)) o sel outs w2) as (P' & D' & NE'); auto.
  { intros u [H1 H2]. unfold TxidOk, SingleCoin in *. destruct (rbf_keep u) as (-> & _ & -> & -> & _). auto. }
  assert (DO : Forall DataOk outs).
  { destruct (C45_same_network _ _ _ _ _ _ _ _ _ _ _ _ Es) as (pay & msgs & -> & Em & Fp & _). apply Forall_app. split; [|eapply message_data; eauto].
    eapply Forall_impl; [|exact Fp]. intros (d & n) (a & Q & _). cbn in Q. subst d. exact I. }
  assert (P1 : Forall TxidOk sel) by (eapply Forall_impl; [|exact P']; intros u [Q _]; exact Q).
  assert (P2 : Forall (SingleCoin k) sel) by (eapply Forall_impl; [|exact P']; intros u [_ Q]; exact Q).
  destruct (C50_new_single HO k sel outs h K NE') as (x & B & S); auto.
  exists x, f, w1. split; auto. split; [eapply asked; eauto|]. auto.
Qed.
(** C95: a second call with the list of the first one, as that left it, spends
    coins of the first transaction only: whatever it pays, one of them is void. *)
Theorem C95_given (RO : RandomOk WD) k us o s outputs fee leftover h s' o' t outputs' fee' leftover' h' t' : us <> [] ->
  KeyOk k -> MsgOk o -> MsgOk o' -> Forall TxidOk us -> Distinct us -> Forall (SingleCoin k) us ->
  create_transaction (Single k) outputs fee leftover (Some us) o s = (Ok h, s') ->
  create_transaction (Single k) outputs' fee' leftover' (Some (wl_caller s')) o' t = (Ok h', t') ->
  exists x y f f' w w', Asked (Single k) outputs f leftover o us (wl_caller s') w h x /\
    Asked (Single k) outputs' f' leftover' o' (wl_caller s') (wl_caller t') w' h' y /\
    incl (map outpoint (t_ins y)) (map outpoint (t_ins x)) /\ Conflict x y.
Proof.
  intros NE K M M' T D SC E E'. destruct (create_caller RO _ _ _ _ _ _ _ _ _ NE K M E T D SC) as (x & f & w & _ & A & T1 & D1 & S1 & N1).
  destruct (create_caller RO _ _ _ _ _ _ _ _ _ N1 K M' E' T1 D1 S1) as (y & f' & w' & _ & A' & _).
  exists x, y, f, f', w, w'. split; auto. split; auto.
  destruct (asked_coins _ _ _ _ _ _ _ _ _ _ A) as (F & _). destruct (asked_coins _ _ _ _ _ _ _ _ _ _ A') as (F' & N' & I & _).
  pose proof (points_incl _ _ _ _ F F' I) as J. split; auto. apply incl_conflict; auto. eapply ins_nonempty; eauto.
Qed.
End WithCrypto.

(** ** C94: one payment after the other *)
Section Apart.
Context {CR : Crypto}.
Definition cpoint (c : Coin) : result bytes * Z := (hex_to_bytes (c_txid c), c_index c).
Lemma held_points sg L1 L2 us1 us2 : AllHeld sg false L1 us1 -> AllHeld sg true L2 us2 -> Permutation (map upoint (us1 ++ us2)) (map cpoint (l_coins L1 ++ l_coins L2)).
Proof.
  intros (cs1 & P1 & F1) (cs2 & P2 & F2). rewrite map_app. unfold upoint. rewrite (held_ids _ _ _ _ _ F1), (held_ids _ _ _ _ _ F2), <- map_app.
  apply Permutation_map, Permutation_app; apply Permutation_sym; auto.
Qed.
Lemma received_ids script id outs : forall n g, In g (received script id n outs) -> snd (fst g) = id.
Proof.
  induction outs as [|o r IH]; intros n g; cbn [received]; [contradiction|]. intros I. apply in_app_or in I as [I|I]; [|eauto].
  destruct (list_eqb _ _); [|contradiction]. destruct I as [<-|[]]. reflexivity.
Qed.
(** No coin known so far is of a transaction with this id. *)
Definition NewId (id : pystr) (L1 L2 : Ledger) : Prop := Forall (fun c => hex_to_bytes (c_txid c) <> hex_to_bytes id) (l_coins L1 ++ l_coins L2).

Lemma after_unspent x id L L' i : After x id L L' -> In i (t_ins x) -> In (shown (outpoint i)) (map cpoint (l_coins L')) -> hex_to_bytes id = Ok (rev (i_txid i)).
Proof.
  intros (_ & sp & kp & _ & _ & NS & PE) I J. apply in_map_iff in J as (c & Ec & J). unfold cpoint, shown, outpoint in Ec. cbn [fst snd] in Ec. injection Ec as E1 E2.
  pose proof (Permutation_in _ PE (in_map entry _ _ J)) as G. apply in_app_or in G as [G|G].
  - exfalso. apply in_map_iff in G as (c2 & Q & G). unfold entry in Q. injection Q as _ Q1 Q2. rewrite Forall_forall in NS. apply (NS c2 G). exists i. rewrite Q1, Q2. auto.
  - apply received_ids in G. cbn [entry fst snd] in G. rewrite <- G. exact E1.
Qed.

Section Two.
Context {W W' Amt Amt' : Type} {WD : World W Amt} {WD' : World W' Amt'}.
Lemma apart sg sg' outputs f leftover o us1 us2 sel w h x id L1 L2 outputs' f' leftover' o' vs1 vs2 sel' w' h' y L1' L2' :
  @Asked CR W Amt WD sg outputs f leftover o (us1 ++ us2) sel w h x -> AllHeld sg false L1 us1 -> AllHeld sg true L2 us2 ->
  @Asked CR W' Amt' WD' sg' outputs' f' leftover' o' (vs1 ++ vs2) sel' w' h' y -> AllHeld sg' false L1' vs1 -> AllHeld sg' true L2' vs2 ->
  NewId id L1 L2 -> After x id L1 L1' -> After x id L2 L2' -> ~ Conflict x y.
Proof.
  intros A H1 H2 A' H1' H2' NI F1 F2 (i & j & I & J & EQ).
  destruct (asked_coins _ _ _ _ _ _ _ _ _ _ A) as (FI & _ & IN & _). destruct (asked_coins _ _ _ _ _ _ _ _ _ _ A') as (FI' & _ & IN' & _).
  assert (K : In (shown (outpoint j)) (map cpoint (l_coins L1' ++ l_coins L2'))).
  { eapply Permutation_in; [apply (held_points _ _ _ _ _ H1' H2')|]. apply IN'. rewrite (in_points _ _ FI'). apply (in_map (fun i => shown (outpoint i))). exact J. }
  assert (K' : In (shown (outpoint i)) (map cpoint (l_coins L1 ++ l_coins L2))).
  { eapply Permutation_in; [apply (held_points _ _ _ _ _ H1 H2)|]. apply IN. rewrite (in_points _ _ FI). apply (in_map (fun i => shown (outpoint i))). exact I. }
  rewrite <- EQ in K.
  assert (ID : hex_to_bytes id = Ok (rev (i_txid i))) by (rewrite map_app in K; apply in_app_or in K as [K|K]; [exact (after_unspent _ _ _ _ _ F1 I K)|exact (after_unspent _ _ _ _ _ F2 I K)]).
  apply in_map_iff in K' as (c & Ec & K'). unfold cpoint, shown, outpoint in Ec. cbn [fst snd] in Ec. injection Ec as E1 E2.
  unfold NewId in NI. rewrite Forall_forall in NI. apply (NI c K'). congruence.
Qed.
(** Two transactions from the same coins, one of them using them all. *)
Lemma together sg sg' outputs f leftover o us1 us2 sel w h x L1 L2 outputs' f' leftover' o' vs1 vs2 sel' w' h' y :
  @Asked CR W Amt WD sg outputs f leftover o (us1 ++ us2) sel w h x -> AllHeld sg false L1 us1 -> AllHeld sg true L2 us2 ->
  @Asked CR W' Amt' WD' sg' outputs' f' leftover' o' (vs1 ++ vs2) sel' w' h' y -> AllHeld sg' false L1 vs1 -> AllHeld sg' true L2 vs2 ->
  o_combine o = true \/ o_combine o' = true -> Conflict x y.
Proof.
  intros A H1 H2 A' H1' H2' C.
  destruct (asked_coins _ _ _ _ _ _ _ _ _ _ A) as (FI & NE & IN & ALL & _). destruct (asked_coins _ _ _ _ _ _ _ _ _ _ A') as (FI' & NE' & IN' & ALL' & _).
  pose proof (held_points _ _ _ _ _ H1 H2) as P. pose proof (held_points _ _ _ _ _ H1' H2') as P'.
  pose proof (Permutation_trans P (Permutation_sym P')) as PP.
  destruct C as [C|C].
  - apply incl_conflict; [eapply ins_nonempty; eauto|]. apply (points_incl _ _ _ _ FI FI'). rewrite (ALL C). intros p Hp. eapply Permutation_in; [apply Permutation_sym; exact PP|auto].
  - apply conflict_sym, incl_conflict; [eapply ins_nonempty; eauto|]. apply (points_incl _ _ _ _ FI' FI). rewrite (ALL' C). intros p Hp. eapply Permutation_in; [exact PP|auto].
Qed.
End Two.
End Apart.

(** A later payment of the same signer, anywhere: from the coins its addresses
    hold by then, by services that know them. *)
Definition LaterPays {CR : Crypto} (k : PrivateKey) (L1 L2 : Ledger) (P : Options -> tx -> Prop) : Prop :=
  forall E (OU : Outside E) (CH : Chance E) rounds (SF : forall x rnd x', o_random x = (Ok rnd, x') -> Shuffle (r_shuffle rnd))
    t1 t2 e calls outputs fee leftover o s i s',
    Reached rounds t1 t2 e calls (wl_world s) -> MsgOk o -> Owns rounds calls (g_prec (n_globals (wl_world s))) (Single k) L1 L2 -> GoodIds (l_coins L1 ++ l_coins L2) ->
    @send CR _ _ (network rounds) (Single k) outputs fee leftover None o s = (Ok i, s') ->
    exists us sel f w h y, @Asked CR _ _ (network rounds) (Single k) outputs f leftover o us sel w h y /\ IdOf y i /\ P o y.

(** The same for a wallet with several keys, its transactions completed. *)
Definition LaterPaysMulti {CR : Crypto} (ms : Env) (L1 L2 : Ledger) (P : Options -> tx -> Prop) : Prop :=
  forall E (OU : Outside E) (CH : Chance E) rounds (SF : forall x rnd x', o_random x = (Ok rnd, x') -> Shuffle (r_shuffle rnd))
    t1 t2 e calls k ks outputs fee leftover o s h s',
    Signers ms (k :: ks) -> zlen (k :: ks) <= e_m ms ->
    Reached rounds t1 t2 e calls (wl_world s) -> MsgOk o -> Owns rounds calls (g_prec (n_globals (wl_world s))) (Multi (wallet ms k)) L1 L2 -> GoodIds (l_coins L1 ++ l_coins L2) ->
    @create_transaction CR _ _ (network rounds) (Multi (wallet ms k)) outputs fee leftover None o s = (Ok h, s') ->
    exists us sel f w h' y, pass_all ms sel h ks = Ok h' /\ @Asked CR _ _ (network rounds) (Multi (wallet ms k)) outputs f leftover o us sel w h' y /\ P o y.

Section Pay.
Context {CR : Crypto} (HO : HashOk CR) {E : Type} {OU : Outside E} {CH : Chance E} (rounds : nat).
Notation NW := (network (CR:=CR) (E:=E) rounds).

(** C94: once the services know of the first payment, another one spends none of
    its coins; as long as they do not, the two may be at odds, and are if either
    consolidates. *)
Theorem C94_send (SF : forall x rnd x', o_random x = (Ok rnd, x') -> Shuffle (r_shuffle rnd)) t1 t2 e calls k outputs fee leftover o s i s' L1 L2 :
  Reached rounds t1 t2 e calls (wl_world s) -> KeyOk k -> MsgOk o -> Owns rounds calls (g_prec (n_globals (wl_world s))) (Single k) L1 L2 ->
  GoodIds (l_coins L1 ++ l_coins L2) -> @send CR _ _ NW (Single k) outputs fee leftover None o s = (Ok i, s') ->
  exists us sel f w h x, @Asked CR _ _ NW (Single k) outputs f leftover o us sel w h x /\ IdOf x i /\
    (forall L1' L2', NewId i L1 L2 -> After x i L1 L1' -> After x i L2 L2' -> LaterPays k L1' L2' (fun _ y => ~ Conflict x y)) /\
    LaterPays k L1 L2 (fun o' y => o_combine o = true \/ o_combine o' = true -> Conflict x y).
Proof.
  intros R K M O G ES. destruct (C75_send rounds HO SF _ _ _ _ _ _ _ _ _ _ _ _ _ _ R K M O G ES) as (us1 & us2 & s1 & h & w1 & x & sel & f & w2 & A1 & A2 & _ & _ & A & _ & _ & ID).
  exists (us1 ++ us2), sel, f, w2, h, x. split; auto. split; auto. split.
  - intros L1' L2' NI F1 F2 E2 OU2 CH2 r2 SF2 ta tb e2 calls2 outputs2 fee2 lo2 o2 t i2 t' R2 M2 O2 G2 ES2.
    destruct (C75_send r2 HO SF2 _ _ _ _ _ _ _ _ _ _ _ _ _ _ R2 K M2 O2 G2 ES2) as (vs1 & vs2 & s2 & h2 & w3 & y & sel2 & f2 & w4 & B1 & B2 & _ & _ & B & _ & _ & ID2).
    exists (vs1 ++ vs2), sel2, f2, w4, h2, y. split; auto. split; auto. exact (apart _ _ _ _ _ _ _ _ _ _ _ _ _ _ _ _ _ _ _ _ _ _ _ _ _ _ _ A A1 A2 B B1 B2 NI F1 F2).
  - intros E2 OU2 CH2 r2 SF2 ta tb e2 calls2 outputs2 fee2 lo2 o2 t i2 t' R2 M2 O2 G2 ES2.
    destruct (C75_send r2 HO SF2 _ _ _ _ _ _ _ _ _ _ _ _ _ _ R2 K M2 O2 G2 ES2) as (vs1 & vs2 & s2 & h2 & w3 & y & sel2 & f2 & w4 & B1 & B2 & _ & _ & B & _ & _ & ID2).
    exists (vs1 ++ vs2), sel2, f2, w4, h2, y. split; auto. split; auto. exact (together _ _ _ _ _ _ _ _ _ _ _ _ _ _ _ _ _ _ _ _ _ _ _ _ A A1 A2 B B1 B2).
Qed.
(** For a wallet with several keys; [i] is the id under which the services know
    the transaction. *)
Theorem C94_multi (SF : forall x rnd x', o_random x = (Ok rnd, x') -> Shuffle (r_shuffle rnd)) t1 t2 e calls ms k ks outputs fee leftover o s h s' L1 L2 :
  Reached rounds t1 t2 e calls (wl_world s) -> EnvOk ms -> Signers ms (k :: ks) -> zlen (k :: ks) <= e_m ms -> MsgOk o ->
  Owns rounds calls (g_prec (n_globals (wl_world s))) (Multi (wallet ms k)) L1 L2 -> GoodIds (l_coins L1 ++ l_coins L2) ->
  @create_transaction CR _ _ NW (Multi (wallet ms k)) outputs fee leftover None o s = (Ok h, s') ->
  exists us sel f w h' x, pass_all ms sel h ks = Ok h' /\ @Asked CR _ _ NW (Multi (wallet ms k)) outputs f leftover o us sel w h' x /\
    (forall i L1' L2', NewId i L1 L2 -> After x i L1 L1' -> After x i L2 L2' -> LaterPaysMulti ms L1' L2' (fun _ y => ~ Conflict x y)) /\
    LaterPaysMulti ms L1 L2 (fun o' y => o_combine o = true \/ o_combine o' = true -> Conflict x y).
Proof.
  intros R EO K LM M O G EC.
  destruct (C75_multi rounds HO SF _ _ _ _ _ _ _ _ _ _ _ _ _ _ _ _ R EO K LM M O G EC) as (us1 & us2 & s1 & h' & x & sel & f & w2 & A1 & A2 & _ & _ & EP & A & _).
  exists (us1 ++ us2), sel, f, w2, h', x. split; auto. split; auto. split.
  - intros i L1' L2' NI F1 F2 E2 OU2 CH2 r2 SF2 ta tb e2 calls2 k2 ks2 outputs2 fee2 lo2 o2 t h2 t' K2 LM2 R2 M2 O2 G2 ES2.
    destruct (C75_multi r2 HO SF2 _ _ _ _ _ _ _ _ _ _ _ _ _ _ _ _ R2 EO K2 LM2 M2 O2 G2 ES2) as (vs1 & vs2 & s2 & h3 & y & sel2 & f2 & w4 & B1 & B2 & _ & _ & EP2 & B & _).
    exists (vs1 ++ vs2), sel2, f2, w4, h3, y. split; auto. split; auto. exact (apart _ _ _ _ _ _ _ _ _ _ _ _ _ _ _ _ _ _ _ _ _ _ _ _ _ _ _ A A1 A2 B B1 B2 NI F1 F2).
  - intros E2 OU2 CH2 r2 SF2 ta tb e2 calls2 k2 ks2 outputs2 fee2 lo2 o2 t h2 t' K2 LM2 R2 M2 O2 G2 ES2.
    destruct (C75_multi r2 HO SF2 _ _ _ _ _ _ _ _ _ _ _ _ _ _ _ _ R2 EO K2 LM2 M2 O2 G2 ES2) as (vs1 & vs2 & s2 & h3 & y & sel2 & f2 & w4 & B1 & B2 & _ & _ & EP2 & B & _).
    exists (vs1 ++ vs2), sel2, f2, w4, h3, y. split; auto. split; auto. exact (together _ _ _ _ _ _ _ _ _ _ _ _ _ _ _ _ _ _ _ _ _ _ _ _ A A1 A2 B B1 B2).
Qed.
End Pay.
Print Assumptions C94_send.
Print Assumptions C94_multi.
Print Assumptions C95_replaces.
Print Assumptions C95_multi.
Print Assumptions C95_absolute.
Print Assumptions C95_given.

Local Opaque create_transaction get_unspents.
(** ** The hypotheses are met. *)
(** The payment of C75_send_hypotheses, and a second one once Blockstream knows of
    the first (C87_hypotheses). *)
Definition again_outs : list (pystr * pystr * pystr) := [(addr_of other_key, str "20000", str "satoshi")].
Definition later_send := @send toy _ _ (@network toy Town later_town town_chance 5) (Single wkey) again_outs (Some 3) None None (wopts false true) town_wallet.
(** Inputs of the transactions that were sent. *)
Definition sent_points (r : result pystr * @Wallet (Net Town)) : list (list (bytes * bytes)) :=
  match r with (Ok _, s) => map (fun h => match deserialize_hex h with Ok t => map (fun i => (txid i, txindex i)) (TxIns t) | _ => [] end) (snd (n_outside (wl_world s))) | _ => [] end.
Example C94_hypotheses : KeyOk (CR:=toy) wkey /\ NewId paid_id town_legacy town_segwit /\
  (forall x rnd x', @o_random _ town_chance x = (Ok rnd, x') -> Shuffle (r_shuffle rnd)) /\
  GoodIds (l_coins later_legacy ++ l_coins later_segwit) /\ MsgOk (wopts false true) /\
  exists i s', later_send = (Ok i, s').
Proof.
  split; [apply toy_key_ok|]. split; [repeat constructor; vm_compute; discriminate|].
  split; [intros x rnd x' E; injection E as <- <-; intros l; apply Permutation_sym, Permutation_rev|].
  split; [|split; [cbn; repeat constructor; unfold is_char; lia|apply is_ok; vm_compute; reflexivity]].
  split; [repeat constructor; eexists; split; [vm_compute; reflexivity|reflexivity]|]. cbn [l_coins]. repeat constructor. cbn. tauto.
Qed.
(** What was sent: all coins at first, then the change; and, when the services do
    not know of the first payment, the same coins again. *)
Example C94_case : let a := sent_points town_send in let b := sent_points later_send in
  match a, b with [a], [b] => length a = 3%nat /\ length b = 1%nat /\ forallb (fun p => negb (existsb (fun q => list_eqb (fst p) (fst q)) a)) b = true | _, _ => False end.
Proof. vm_compute. auto. Qed.

Lemma rate_given {W Amt} (WD : World W Amt) f0 f w s : f0 <> 0 -> FeeRate (Some f0) s f w -> f = f0.
Proof. intros N F. inversion F as [|? ? ? ? [Q|Q]]; subst; congruence. Qed.

(** One payment of 25000 satoshis, twice: at 10 satoshis per byte, then at 12. *)
Definition again_opts : Options := mkOptions true None false false true.
Definition create_again (f : Z) := @create_transaction toy _ _ toy_world (Single wkey) one_out (Some f) None (Some legacy_coins) again_opts wallet0.
Lemma small_again f w sel h y : @Asked toy _ _ toy_world (Single wkey) one_out f None again_opts legacy_coins sel w h y -> Small y.
Proof.
  intros (outs & sats & w1 & change & msgs & back & (_ & _ & _ & FI & FO) & _ & -> & LS & HC & HB & (_ & ->) & (taken & unused & _ & _ & All & Hs) & _).
  rewrite (All eq_refl) in Hs. subst sel. pose proof (Forall2_length _ _ _ FI) as LI. pose proof (Forall2_length _ _ _ FO) as LO. cbn [o_replace_by_fee again_opts] in LI.
  rewrite !app_length, combine_length in LO. rewrite map_length in LI. rewrite LS in LO.
  assert (LC : (length change <= 1)%nat) by (destruct HC as [->|(n & _ & ->)]; cbn; lia).
  split; [unfold zlen; rewrite <- LI; vm_compute; discriminate|]. split; [unfold zlen; rewrite <- LO; cbn; lia|].
  assert (SC : forall a, a = addr_of other_key \/ a = back -> forall sc, @address_to_scriptpubkey toy a = Ok (Some sc) -> zlen sc <= 252).
  { intros a Ha sc E. assert (G : match @address_to_scriptpubkey toy a with Ok (Some s) => (zlen s <=? 252)%Z | _ => true end = true).
    { destruct Ha as [->| ->]; [vm_compute; reflexivity|]. cbn [existsb] in HB.
      assert (HB' : @key_address toy wkey = Ok back) by exact HB. assert (KA : @key_address toy wkey = Ok (addr_of wkey)) by (vm_compute; reflexivity). rewrite KA in HB'. injection HB' as <-. vm_compute. reflexivity. }
    rewrite E in G. apply Z.leb_le in G. exact G. }
  apply Forall_forall. intros o Ho. destruct (F2_in_r _ _ _ _ FO Ho) as ((d & n) & Hd & _ & OF). cbn [fst] in OF.
  apply in_app_or in Hd as [Hd|Hd].
  - apply in_combine_l in Hd. unfold dests, one_out in Hd. cbn [map In fst] in Hd. destruct Hd as [<-|[]]. apply (SC _ (or_introl eq_refl) _ OF).
  - rewrite app_nil_r in Hd. destruct HC as [->|(n' & _ & ->)]; [destruct Hd|]. destruct Hd as [Q|[]]. assert (d = Addr back) as -> by congruence. apply (SC _ (or_intror eq_refl) _ OF).
Qed.
Example C95_case : exists h s' h' s'' x y b fx fy, create_again 10 = (Ok h, s') /\ create_again 12 = (Ok h', s'') /\ h' = bytes_to_hex b /\ Replaces x y b fx fy.
Proof.
  destruct (is_ok (create_again 10) ltac:(vm_compute; reflexivity)) as (h & s' & E). destruct (is_ok (create_again 12) ltac:(vm_compute; reflexivity)) as (h' & s'' & E').
  destruct C43_single_hypotheses as (K & _ & _ & _ & _ & A & T & D & SC & SZ & U).
  destruct (@C95_replaces toy toy_ok _ _ toy_world toy_random_ok wkey one_out (Some 10) (Some 12) None (Some legacy_coins) (Some legacy_coins) again_opts wallet0 h s' legacy_coins _ wallet0 h' s'' legacy_coins _
    K I eq_refl eq_refl eq_refl I E A E' A (Permutation_refl _) T D SC T D SC SZ U ltac:(intros m; rewrite toy_key_sigs; lia)) as (x & y & sel & sel' & f & f' & w & w' & b & F1 & A1 & F2 & A2 & Hb & R).
  exists h, s', h', s'', x, y, b. eexists _, _. do 3 (split; auto). apply R.
  - apply rate_given in F1; [|discriminate]. apply rate_given in F2; [|discriminate]. lia.
  - eapply small_again; eauto.
Qed.
(** Given absolutely: 2000, then 3000. *)
Definition create_abs (f : Z) := @create_transaction toy _ _ toy_world (Single wkey) one_out (Some f) None (Some legacy_coins) (mkOptions true None true false true) wallet0.
Example C95_absolute_hypotheses : (exists h s', create_abs 2000 = (Ok h, s')) /\ exists h s', create_abs 3000 = (Ok h, s').
Proof. split; apply is_ok; vm_compute; reflexivity. Qed.
(** The second call gets the list of the first, as left; it needs not consolidate. *)
Definition given_opts : Options := mkOptions false None false false true.
Example C95_given_hypotheses : exists h s' h' s'', @create_transaction toy _ _ toy_world (Single wkey) one_out (Some 1) None (Some legacy_coins) given_opts wallet0 = (Ok h, s') /\
  @create_transaction toy _ _ toy_world (Single wkey) [(addr_of other_key, 1000, str "satoshi")] (Some 2) None (Some (wl_caller s')) given_opts wallet0 = (Ok h', s'').
Proof.
  set (r := @create_transaction toy _ _ toy_world (Single wkey) one_out (Some 1) None (Some legacy_coins) given_opts wallet0).
  assert (G : match r with (Ok h, s') => match @create_transaction toy _ _ toy_world (Single wkey) [(addr_of other_key, 1000, str "satoshi")] (Some 2) None (Some (wl_caller s')) given_opts wallet0 with (Ok _, _) => true | _ => false end | _ => false end = true) by (vm_compute; reflexivity).
  destruct r as ([h|] & s'); [|discriminate]. destruct (create_transaction _ _ _ _ _ _ _) as ([h'|] & s'') eqn:E'; [|discriminate]. exists h, s', h', s''. auto.
Qed.
(** Two signers of a 2-of-3 wallet. *)
Definition create_again_multi (f : Z) := @create_transaction toy _ _ toy_world (Multi (wallet toy_env (toy_k 5))) [(addr_of other_key, 2000, str "satoshi")] (Some f) None (Some sized_mus) again_opts wallet0.
Example C95_multi_hypotheses : (exists h s', create_again_multi 3 = (Ok h, s')) /\ (exists h s', create_again_multi 4 = (Ok h, s')) /\
  Forall (fun k => forall m, (length (@ec_sign toy (k_secret k) m) <= 71)%nat) [toy_k 5; toy_k 7].
Proof.
  split; [apply is_ok; vm_compute; reflexivity|]. split; [apply is_ok; vm_compute; reflexivity|]. apply Forall_forall; intros k _ m; rewrite toy_key_sigs; lia.
Qed.

(** Without consolidating, a higher fee does not make the payment a replacement:
    other coins may be chosen, and then both transactions can be confirmed. *)
Definition two_coins : list Unspent := [wcoin (addr_of wkey) "p2pkh" 4 7 10200; wcoin (addr_of wkey) "p2pkh" 5 8 12000].
Definition twice_out : list (pystr * Z * pystr) := [(addr_of other_key, 10000, str "satoshi")].
Definition create_twice (f : Z) := @create_transaction toy _ _ toy_world (Single wkey) twice_out (Some f) None (Some two_coins) given_opts wallet0.
Theorem C95_refuted : ~ (forall CR W Amt WD (HO : HashOk CR) (RO : RandomOk WD) k (outputs : list (pystr * Amt * pystr)) f f' us o (s : @Wallet W) h s' h' s'' sel sel' w w' x y,
  KeyOk k -> Forall TxidOk us -> Distinct us -> Forall (SingleCoin k) us -> o_replace_by_fee o = true -> 0 < f < f' ->
  @create_transaction CR W Amt WD (Single k) outputs (Some f) None (Some us) o s = (Ok h, s') -> Asked (Single k) outputs f None o us sel w h x ->
  create_transaction (Single k) outputs (Some f') None (Some us) o s = (Ok h', s'') -> Asked (Single k) outputs f' None o us sel' w' h' y ->
  Conflict x y).
Proof.
  intros H. destruct (coins_fit two_coins) as (_ & T & D & SC & _); [discriminate|vm_compute; reflexivity|]. destruct C43_single_hypotheses as (K & _).
  assert (G : match create_twice 1, create_twice 10 with (Ok _, s'), (Ok _, s'') => forallb (fun u => u_txindex u =? 7) (wl_caller s') && forallb (fun u => u_txindex u =? 8) (wl_caller s'') | _, _ => false end = true) by (vm_compute; reflexivity).
  destruct (create_twice 1) as ([h|] & s') eqn:E; [|discriminate]. destruct (create_twice 10) as ([h'|] & s'') eqn:E'; [|discriminate].
  destruct (@create_caller toy toy_ok _ _ toy_world toy_random_ok wkey twice_out (Some 1) None two_coins given_opts wallet0 h s' ltac:(discriminate) K I E T D SC) as (x & f & w & F & A & _).
  destruct (@create_caller toy toy_ok _ _ toy_world toy_random_ok wkey twice_out (Some 10) None two_coins given_opts wallet0 h' s'' ltac:(discriminate) K I E' T D SC) as (y & f' & w' & F' & A' & _).
  assert (f = 1 /\ f' = 10) as [-> ->]. { apply rate_given in F; [|discriminate]. apply rate_given in F'; [|discriminate]. auto. }
  destruct (H toy _ _ toy_world toy_ok toy_random_ok wkey twice_out 1 10 two_coins given_opts wallet0 h s' h' s'' _ _ w w' x y K T D SC eq_refl ltac:(lia) E A E' A') as (i & j & I1 & J1 & Q).
  destruct (asked_coins _ _ _ _ _ _ _ _ _ _ A) as (FI & _). destruct (asked_coins _ _ _ _ _ _ _ _ _ _ A') as (FJ & _).
  destruct (F2_in_r _ _ _ _ FI I1) as (u & U & (_ & U1) & _). destruct (F2_in_r _ _ _ _ FJ J1) as (v & V & (_ & V1) & _).
  apply andb_true_iff in G as [G1 G2]. rewrite forallb_forall in G1, G2. specialize (G1 u U). specialize (G2 v V). unfold outpoint in Q. injection Q as _ Q. lia.
Qed.
Print Assumptions C95_refuted.
(** Both are valid on the same chain. *)
Example C95_twice : exists h s' h' s'' x y coins coins', create_twice 1 = (Ok h, s') /\ create_twice 10 = (Ok h', s'') /\
  @Valid toy (ledger_of two_coins) x coins /\ @Valid toy (ledger_of two_coins) y coins' /\ h <> h'.
Proof.
  destruct (coins_fit two_coins) as (A & T & D & SC & SE & DE & _); [discriminate|vm_compute; reflexivity|]. destruct C43_single_hypotheses as (K & _).
  assert (G : match create_twice 1, create_twice 10 with (Ok h, _), (Ok h', _) => negb (list_eqb h h') | _, _ => false end = true) by (vm_compute; reflexivity).
  destruct (create_twice 1) as ([h|] & s') eqn:E; [|discriminate]. destruct (create_twice 10) as ([h'|] & s'') eqn:E'; [|discriminate].
  destruct (@C79_single toy toy_ok _ _ toy_world toy_random_ok wkey twice_out (Some 1) None (Some two_coins) given_opts wallet0 h s' two_coins _ (ledger_of two_coins) K I E A T D SC SE DE
    ltac:(discriminate) ltac:(intros f w F; apply rate_given in F; [lia|discriminate])) as (x & _ & _ & _ & coins & _ & _ & V).
  destruct (@C79_single toy toy_ok _ _ toy_world toy_random_ok wkey twice_out (Some 10) None (Some two_coins) given_opts wallet0 h' s'' two_coins _ (ledger_of two_coins) K I E' A T D SC SE DE
    ltac:(discriminate) ltac:(intros f w F; apply rate_given in F; [lia|discriminate])) as (y & _ & _ & _ & coins' & _ & _ & V').
  exists h, s', h', s'', x, y, coins, coins'. do 4 (split; auto). apply list_eqb_neq. apply negb_true_iff. exact G.
Qed.
