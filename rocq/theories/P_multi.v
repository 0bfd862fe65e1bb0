(** C32-C34: multisig wallets signing one after the other, each reading the
    hex string of the one before. *)
From Coq Require Import String.
From Verif Require Import F_cosigntx X_toy.

Section WithCrypto.
Context {CR : Crypto} (HO : HashOk CR).

(** The transaction before the first signature: inputs of the wallet carry no
    script or witness yet, witnesses are present for all inputs or for none (see
    C66 for what goes wrong otherwise). *)
Definition Ready (e : Env) (us : list Unspent) (x : tx) (t : TxObj) : Prop :=
  RepObj x t /\ t_ins x <> [] /\ Uniform (OwnE e) us x t /\ Fresh e us x.
(** One co-signer at least, all distinct. *)
Definition Signers (e : Env) (ks : list PrivateKey) : Prop := Forall (CoSigner e) ks /\ NoDup (map k_public_key ks).
(** In which format the result comes. *)
Definition segwit_form (e : Env) (us : list Unspent) (x : tx) (t : TxObj) : Prop :=
  all_wit t \/ exists xi u, In xi (t_ins x) /\ Match (OwnE e) us xi u /\ u_is_segwit u = true.

Lemma form_fmt e us fmt x t : t_ins x <> [] -> RepObj x t -> UniF fmt e us x t -> (fmt = true <-> segwit_form e us x t).
Proof.
  intros NE R U. unfold UniF in U. unfold segwit_form. destruct fmt; split; auto; try discriminate.
  - intros _. destruct U as [U|[U1 U2]]; auto. right. destruct (t_ins x) as [|xi r]; [contradiction|]. destruct (U2 xi (or_introl eq_refl)) as (u & M & S).
    exists xi, u. split; [left; auto|auto].
  - destruct U as [U1 U2]. intros [A|(xi & u & I & M & S)].
    + exfalso. destruct R as [[_ H2 _ _ _ _ _]]. unfold all_wit, no_wits in *. destruct (TxIns t) as [|i r]; [inversion H2; congruence|].
      apply Forall_cons_iff in A as [A _]. apply Forall_cons_iff in U1 as [U1 _]. auto.
    + rewrite (U2 xi u I M) in S. discriminate.
Qed.

(** ** C33 (first half): nothing is lost while signing goes on. *)
Theorem C33_kept e us x t k ks : EnvOk e -> Spendable e us -> Ready e us x t -> Signers e (k :: ks) -> zlen (k :: ks) <= e_m e ->
  exists h b x', cosign e us t k ks = Ok h /\ (h = bytes_to_hex b /\ bytes_ok b = true) /\
    (segwit_form e us x t -> EncSegwit x' b) /\ (~ segwit_form e us x t -> EncLegacy x' b) /\
    same_skeleton x x' /\
    (forall j xi, nth_error (t_ins x) j = Some xi -> Unmatched (OwnE e) us xi -> nth_error (t_ins x') j = Some xi) /\
    (forall j xi u, nth_error (t_ins x) j = Some xi -> Match (OwnE e) us xi u ->
       exists xi' z, nth_error (t_ins x') j = Some xi' /\ part_spends e (k :: ks) x' j u z xi' /\ (zlen (k :: ks) = e_m e -> z = 0%nat)).
Proof.
  intros O SP (R & NE & U & FR) [F ND] L. destruct (start_state e us x t R NE U FR) as (fmt & TS & _).
  destruct (cosign_state HO e us fmt x t k ks O SP F ND L TS) as (h & x' & t' & signed & E & Eh & P & TS').
  assert (NS : signed <> []) by (intros ->; apply Permutation_sym, Permutation_nil in P; discriminate).
  assert (FS : Forall (CoSigner e) signed) by (eapply Permutation_Forall; eauto).
  assert (NDS : NoDup (map k_public_key signed)) by (eapply Permutation_NoDup; [apply Permutation_map; exact P|exact ND]).
  assert (LS : zlen signed = zlen (k :: ks)) by (unfold zlen; rewrite (Permutation_length P); reflexivity).
  destruct (state_hex e us fmt x signed x' t' h NS TS' Eh) as (b & Hb & EE). pose proof (form_fmt e us fmt x t NE R (ts_uni _ _ _ _ _ _ _ TS)) as FF.
  exists h, b, x'. split; auto. split; auto. split; [|split; [|split; [|split]]].
  - intros Q. apply FF in Q. subst fmt. exact EE.
  - intros Q. destruct fmt; [|exact EE]. exfalso. apply Q, FF. reflexivity.
  - apply (ts_skel _ _ _ _ _ _ _ TS').
  - intros j xi Hx N. destruct (skel_nth (t_ins x') (t_ins x) j xi (eq_sym (proj2 (proj2 (proj2 (ts_skel _ _ _ _ _ _ _ TS'))))) Hx) as (xi' & Hx' & _).
    destruct (ts_in _ _ _ _ _ _ _ TS' j xi xi' Hx Hx') as [Q _]. rewrite <- (Q N). exact Hx'.
  - intros j xi u Hx M. destruct (state_spends HO e us fmt x signed x' t' j xi u O SP FS NDS NS TS' Hx M) as (xi' & z & Hx' & PS & Z0).
    exists xi', z. split; auto. split; [|rewrite <- LS; auto]. destruct PS as (msg & sigs & A1 & A2 & A3 & A4 & A4' & A5).
    exists msg, sigs. split; auto. split; [rewrite A2; symmetry; apply Permutation_length; auto|]. split; auto.
    split; [eapply Permutation_Forall; [apply Permutation_sym; exact P|exact A4]|]. split; auto.
    eapply Forall_impl; [|exact A4']. intros g (k' & I & ->). exists k'. split; auto. eapply Permutation_in; [apply Permutation_sym; exact P|exact I].
Qed.

(** The same for one input whatever valid signatures it holds, by whatever
    history: the field is an item that is empty, the signatures [s] in key order,
    [z] empty items, the redeem script. *)
Theorem C33_any_signatures e seg h k s z f stx : EnvOk e -> CoSigner e k -> SigsGood e h s -> Field e seg s z f ->
  zlen (sigs_of s (e_pubs e)) < e_m e ->
  exists ss wit z' sigs, sign_multi (wallet e k) h f seg stx = Ok (ss, wit) /\
    incl (filter (fun g => negb (list_eqb g (match s (k_public_key k) with Some g0 => g0 | None => [] end))) (sigs_of s (e_pubs e))) sigs /\
    In (ec_sign (k_secret k) h ++ [0x01]) sigs /\
    if seg then exists c bod, wit = c :: bod /\ EncSeq VarBytes ([] :: sigs ++ repeat [] z' ++ [e_redeem e]) bod
    else MinPushes ([] :: sigs ++ repeat [] z' ++ [e_redeem e]) ss.
Proof.
  intros O C G Ff Hm. destruct (redeem_shape e O) as (_ & Hm15 & _). pose proof (eo_m _ O) as Hm1.
  destruct (push_exists e seg O) as (l & Rl). destruct (field_scan e h seg s z f O G Ff) as (st & SF & ST & STs).
  assert (NE : f <> []).
  { destruct Ff as (l0 & c0 & _ & ->). destruct seg; discriminate. }
  destruct (start_field e k h f s st O G NE SF ST) as [_ SO]. destruct (SO Hm) as (d & SO' & Dd). clear SO.
  assert (Hc : 0 <= e_m e + 2 < 253) by lia.
  rewrite (start_ok e k h f seg stx _ d _ s l O C G Rl Hc SO' Dd). set (s' := sset s _ _). set (z' := Z.to_nat _).
  assert (G' : SigsGood e h s') by (apply SigsGood_set; auto).
  unfold ms_result. do 2 eexists. exists z', (sigs_of s' (e_pubs e)). split; [reflexivity|]. split; [|split].
  - intros g Ig. apply filter_In in Ig as [Ig Ng]. apply sigs_of_in in Ig as (p & Ip & Ep). apply in_flat_map. exists p. split; auto.
    unfold s', sset. destruct (list_eqb (k_public_key k) p) eqn:Q; [|rewrite Ep; left; auto].
    apply list_eqb_eq in Q. rewrite Q in Ng. rewrite Ep, list_eqb_refl in Ng. discriminate.
  - apply in_flat_map. exists (k_public_key k). split; [apply (cs_in _ _ C)|]. unfold s', sset. rewrite list_eqb_refl. left. auto.
  - destruct seg.
    + eexists. eexists. split; [reflexivity|]. exact (seq_stack e h s' z' l G' Rl).
    + eapply parse_body; eauto.
Qed.

(** ** C32: m co-signers complete every input of the wallet, ... *)
Theorem C32_complete e us x t k ks : EnvOk e -> Spendable e us -> Ready e us x t -> Signers e (k :: ks) -> zlen (k :: ks) = e_m e ->
  exists h b x', cosign e us t k ks = Ok h /\ (h = bytes_to_hex b /\ bytes_ok b = true) /\
    (segwit_form e us x t -> EncSegwit x' b) /\ (~ segwit_form e us x t -> EncLegacy x' b) /\
    same_skeleton x x' /\
    forall j xi u, nth_error (t_ins x) j = Some xi -> Match (OwnE e) us xi u ->
      exists xi' msg sigs, nth_error (t_ins x') j = Some xi' /\
        SigMsg (u_is_segwit u) x' j (e_redeem e) (u_amount u) msg /\
        zlen sigs = e_m e /\ CheckMulti msg sigs (e_pubs e) /\
        Forall (fun g => exists k', In k' (k :: ks) /\ g = ec_sign (k_secret k') (sha256 msg) ++ [0x01]) sigs /\
        if u_is_segwit u
        then MinPushes [[0x00; 0x20] ++ sha256 (e_redeem e)] (i_script xi') /\ i_wit xi' = [] :: sigs ++ [e_redeem e]
        else MinPushes ([] :: sigs ++ [e_redeem e]) (i_script xi') /\ i_wit xi' = [].
Proof.
  intros O SP RD SG L. destruct (C33_kept e us x t k ks O SP RD SG) as (h & b & x' & E & Hb & E1 & E2 & Sk & _ & A); [lia|].
  exists h, b, x'. do 5 (split; auto). intros j xi u Hx M. destruct (A j xi u Hx M) as (xi' & z & Hx' & (msg & sigs & B1 & B2 & B3 & _ & B4 & B5) & Z0).
  rewrite (Z0 L) in B5. cbn [repeat app] in B5. exists xi', msg, sigs. do 2 (split; auto). split; [unfold zlen in *; lia|]. do 2 (split; auto).
Qed.

(** ... in whatever order they sign. *)
Theorem C32_order e us x t k ks k' ks' : EnvOk e -> Spendable e us -> Ready e us x t -> Signers e (k :: ks) -> zlen (k :: ks) = e_m e ->
  Permutation (k :: ks) (k' :: ks') -> cosign e us t k ks = cosign e us t k' ks'.
Proof.
  intros O SP (R & NE & U & FR) [F ND] L P. destruct (start_state e us x t R NE U FR) as (fmt & TS & _).
  assert (F' : Forall (CoSigner e) (k' :: ks')) by (eapply Permutation_Forall; eauto).
  assert (ND' : NoDup (map k_public_key (k' :: ks'))) by (eapply Permutation_NoDup; [apply Permutation_map; exact P|exact ND]).
  assert (L' : zlen (k' :: ks') = e_m e) by (unfold zlen in *; rewrite <- (Permutation_length P); auto).
  destruct (cosign_state HO e us fmt x t k ks O SP F ND ltac:(lia) TS) as (h & x1 & t1 & s1 & -> & H1 & P1 & TS1).
  destruct (cosign_state HO e us fmt x t k' ks' O SP F' ND' ltac:(lia) TS) as (h' & x2 & t2 & s2 & -> & H2 & P2 & TS2).
  f_equal. apply (state_det HO e us fmt x s1 s2 x1 x2 t1 t2 h h' k); auto.
  - unfold zlen in *. rewrite <- (Permutation_length P1). auto.
  - eapply Permutation_NoDup; [apply Permutation_map; exact P1|exact ND].
  - exact (Permutation_trans (Permutation_sym P1) (Permutation_trans P P2)).
Qed.

(** ** C33 (second half): after completion any wallet's signing is refused. *)
Theorem C33_refused e us x t k ks k' h : EnvOk e -> Spendable e us -> Ready e us x t -> Signers e (k :: ks) -> zlen (k :: ks) = e_m e ->
  cosign e us t k ks = Ok h -> In (k_public_key k') (e_pubs e) ->
  (exists xi u, In xi (t_ins x) /\ Match (OwnE e) us xi u) ->
  pass_on e us h k' = Raise ValueError.
Proof.
  intros O SP (R & NE & U & FR) [F ND] L E I MM. destruct (start_state e us x t R NE U FR) as (fmt & TS & _).
  destruct (cosign_state HO e us fmt x t k ks O SP F ND ltac:(lia) TS) as (h' & x1 & t1 & s1 & E1 & H1 & P1 & TS1).
  rewrite E in E1. injection E1 as <-. destruct (tx_pass _ _ _ _ _ _ _ TS1) as (h2 & t2 & H2 & D & TS2). rewrite H1 in H2. injection H2 as <-.
  unfold pass_on. rewrite D. cbn [bind]. unfold sign_tx. rewrite (state_refused HO e us fmt x s1 x1 t2 k'); auto.
  - eapply Permutation_Forall; eauto.
  - eapply Permutation_NoDup; [apply Permutation_map; exact P1|exact ND].
  - unfold zlen in *. rewrite <- (Permutation_length P1). auto.
Qed.

(** The same for one input and any valid signatures. *)
Theorem C33_refused_any e seg h k s z f stx : EnvOk e -> SigsGood e h s -> Field e seg s z f ->
  e_m e <= zlen (sigs_of s (e_pubs e)) -> sign_multi (wallet e k) h f seg stx = Raise ValueError.
Proof.
  intros O G Ff Hm. assert (NE : f <> []) by (destruct Ff as (l0 & c0 & _ & ->); destruct seg; discriminate). destruct (field_scan e h seg s z f O G Ff) as (st & SF & ST & _).
  destruct (start_field e k h f s st O G NE SF ST) as [SR _]. apply start_raise. apply SR. auto.
Qed.

(** ** C34: signing a segwit input twice with the same key *)
(** The witness declares m + 2 items, and holds m + 1: no stack at all. *)
Theorem C34_witness e h k s z f stx : EnvOk e -> CoSigner e k -> SigsGood e h s -> Field e true s z f -> s (k_public_key k) <> None ->
  zlen (sigs_of s (e_pubs e)) < e_m e ->
  exists ss items bod, sign_multi (wallet e k) h f true stx = Ok (ss, (e_m e + 2) :: bod) /\
    EncSeq VarBytes items bod /\ zlen items = e_m e + 1 /\ forall st, ~ EncStack st ((e_m e + 2) :: bod).
Proof.
  intros O C G Ff Sk Hm. destruct (segwit_again e h k s z f stx O C G Ff Sk Hm) as (items & bod & E1 & E2 & E3).
  destruct (redeem_shape e O) as (_ & Hm15 & _). pose proof (eo_m _ O) as Hm1.
  exists ([0x22; 0; 32] ++ sha256 (e_redeem e)), items, bod. do 3 (split; auto). intros st E.
  eapply (short_stack items bod (e_m e + 2) st _ [] []); eauto; try lia.
Qed.

(** The resulting hex string is no transaction. *)
Theorem C34_corrupt e us x t k ks k' xi u h : EnvOk e -> Spendable e us -> Ready e us x t -> Signers e (k :: ks) -> zlen (k :: ks) < e_m e ->
  cosign e us t k ks = Ok h -> In k' (k :: ks) -> t_ins x = [xi] -> Match (OwnE e) us xi u -> u_is_segwit u = true ->
  exists b, pass_on e us h k' = Ok (bytes_to_hex b) /\ forall y, t_ins y <> [] -> ~ EncSegwit y b /\ ~ EncLegacy y b.
Proof.
  intros O SP (R & NE & U & FR) [F ND] L E I X M Sg. destruct (start_state e us x t R NE U FR) as (fmt & TS & _).
  destruct (cosign_state HO e us fmt x t k ks O SP F ND ltac:(lia) TS) as (h' & x1 & t1 & s1 & E1 & H1 & P1 & TS1).
  rewrite E in E1. injection E1 as <-. destruct (tx_pass _ _ _ _ _ _ _ TS1) as (h2 & t2 & H2 & D & TS2). rewrite H1 in H2. injection H2 as <-.
  destruct (segwit_again_tx HO e us fmt x s1 x1 t2 k' xi u) as (t3 & b & E3 & Eb & Q); auto.
  - eapply Permutation_Forall; eauto.
  - eapply Permutation_NoDup; [apply Permutation_map; exact P1|exact ND].
  - eapply Permutation_in; eauto.
  - unfold zlen in *. rewrite <- (Permutation_length P1). auto.
  - exists b. split; auto. unfold pass_on. rewrite D. cbn [bind]. unfold sign_tx, to_hex. rewrite E3. cbn [bind]. rewrite Eb. reflexivity.
Qed.

(** For legacy inputs it is harmless: the others complete as if it had not
    happened. *)
Theorem C34_legacy e us x t k ks k' h rest : EnvOk e -> Spendable e us -> Ready e us x t -> ~ segwit_form e us x t -> Signers e (rest ++ k :: ks) ->
  zlen (k :: ks) < e_m e -> zlen (rest ++ k :: ks) = e_m e ->
  cosign e us t k ks = Ok h -> In k' (k :: ks) ->
  exists h' h'', pass_on e us h k' = Ok h' /\ pass_all e us h rest = Ok h'' /\ pass_all e us h' rest = Ok h''.
Proof.
  intros O SP (R & NE & U & FR) NS [F ND] L L2 E I. destruct (start_state e us x t R NE U FR) as (fmt & TS & _).
  assert (fmt = false) as ->. { destruct fmt; auto. exfalso. apply NS. apply (form_fmt e us true x t NE R (ts_uni _ _ _ _ _ _ _ TS)). reflexivity. }
  apply Forall_app in F as [Fr F]. pose proof ND as ND0. rewrite map_app in ND0. assert (NDk : NoDup (map k_public_key (k :: ks))).
  { clear -ND0. induction (map k_public_key rest) as [|a l IH]; auto. apply IH. cbn in ND0. apply NoDup_cons_iff in ND0. tauto. }
  destruct (cosign_state HO e us false x t k ks O SP F NDk ltac:(lia) TS) as (h0 & x1 & t1 & s1 & E1 & H1 & P1 & TS1).
  rewrite E in E1. injection E1 as <-. destruct (tx_pass _ _ _ _ _ _ _ TS1) as (h2 & t2 & H2 & D & TS2). rewrite H1 in H2. injection H2 as <-.
  assert (F1 : Forall (CoSigner e) s1) by (eapply Permutation_Forall; eauto).
  assert (ND1 : NoDup (map k_public_key s1)) by (eapply Permutation_NoDup; [apply Permutation_map; exact P1|exact NDk]).
  assert (L1 : zlen s1 = zlen (k :: ks)) by (unfold zlen; rewrite (Permutation_length P1); reflexivity).
  destruct (legacy_again HO e us x s1 x1 t2 k' O SP F1 ND1) as (t3 & x3 & E3 & TS3); auto.
  { eapply Permutation_in; eauto. }
  { lia. }
  destruct (tx_pass _ _ _ _ _ _ _ TS3) as (h3 & _ & H3 & _).
  assert (PR : Permutation (rest ++ k :: ks) (rev rest ++ s1)) by (apply Permutation_app; [apply Permutation_rev|exact P1]).
  assert (NDr : NoDup (map k_public_key (rev rest ++ s1))) by (eapply Permutation_NoDup; [apply Permutation_map; exact PR|exact ND]).
  assert (LR : zlen rest + zlen s1 <= e_m e) by (unfold zlen in *; rewrite app_length in L2; lia).
  destruct (pass_all_state HO e us false x rest O SP Fr s1 x1 t1 h F1 NDr LR TS1 H1) as (ha & xa & ta & A1 & A2 & A3).
  destruct (pass_all_state HO e us false x rest O SP Fr s1 x3 t3 h3 F1 NDr LR TS3 H3) as (hb & xb & tb & B1 & B2 & B3).
  exists h3, ha. split; [unfold pass_on; rewrite D; cbn [bind]; unfold sign_tx; rewrite E3; cbn [bind]; exact H3|]. split; auto.
  rewrite B1. f_equal. symmetry. apply (state_det HO e us false x (rev rest ++ s1) (rev rest ++ s1) xa xb ta tb ha hb k); auto.
  unfold zlen in *. rewrite app_length, rev_length in *. lia.
Qed.
End WithCrypto.
Print Assumptions C33_kept.
Print Assumptions C33_any_signatures.
Print Assumptions C32_complete.
Print Assumptions C32_order.
Print Assumptions C33_refused.
Print Assumptions C33_refused_any.
Print Assumptions C34_witness.
Print Assumptions C34_corrupt.
Print Assumptions C34_legacy.

(** ** The hypotheses are met: a 2-of-3 wallet, the transaction of P_sign with a
    legacy input, a nested segwit input and a foreign one. *)
From Verif Require Import P_sign.
Definition toy_k (b : Z) : PrivateKey := @make_key toy Main (repeat b 32) true.
Definition toy_pubs : list bytes := map (fun b => k_public_key (toy_k b)) [5; 6; 7].
Definition toy_redeem : bytes := match multisig_to_redeemscript toy_pubs 2 with Ok r => r | Raise _ => [] end.
Definition toy_env : Env := mkEnv Main toy_pubs 2 toy_redeem.
Definition no30 (b : bytes) : bool := forallb (fun z => negb (z =? 0x30)) b.
Lemma no30_sub a s b : no30 (a ++ s ++ b) = true -> @der_ok toy s = true -> False.
Proof.
  unfold no30. rewrite !forallb_app. intros H D. apply andb_true_iff in H as [_ H]. apply andb_true_iff in H as [H _].
  destruct s as [|z s]; [discriminate|]. cbn [forallb] in H. apply andb_true_iff in H as [H _]. cbn [der_ok toy] in D.
  destruct (z =? 0x30) eqn:Q; [discriminate|]. clear H. apply Z.eqb_neq in Q. 
  repeat match type of D with match ?p with _ => _ end = true => destruct p; try discriminate end. contradiction.
Qed.
Lemma toy_env_ok : @EnvOk toy toy_env.
Proof.
  constructor.
  - vm_compute. reflexivity.
  - cbn. lia.
  - cbn [toy_env e_pubs]. vm_compute. repeat constructor; cbn; intuition discriminate.
  - repeat constructor.
  - intros b D. cbn [der_ok toy] in D. destruct b as [|z r]; [discriminate|]. exists r. f_equal.
    repeat match type of D with match ?p with _ => _ end = true => destruct p; try discriminate end. reflexivity.
  - intros a s b E D. exfalso. apply (no30_sub a s b); auto. rewrite <- E. vm_compute. reflexivity.
Qed.
Lemma toy_cosigner b : b = 5 \/ b = 6 \/ b = 7 -> @CoSigner toy toy_env (toy_k b).
Proof.
  intros B. constructor.
  - destruct B as [-> | [-> | ->]]; cbn; auto.
  - intros h. reflexivity.
  - intros h. apply toy_sign_ok.
  - intros h. cbn [ec_sign toy]. rewrite toy_sign_len. lia.
  - intros h p I. assert (S3 : forall c, c = 5 \/ c = 6 \/ c = 7 ->
      @ec_verify toy (@ec_sign toy (k_secret (toy_k b)) h) h (k_public_key (toy_k c)) = Ok (list_eqb (k_public_key (toy_k b)) (k_public_key (toy_k c)))).
    { intros c Hc. destruct (Z.eq_dec b c) as [->|N].
      - rewrite list_eqb_refl. apply (toy_verify_own (repeat c 32) true).
      - replace (list_eqb _ _) with false by (destruct B as [-> | [-> | ->]], Hc as [-> | [-> | ->]]; congruence || (vm_compute; reflexivity)).
        apply (toy_verify_other (repeat b 32) (repeat c 32) true). destruct B as [-> | [-> | ->]], Hc as [-> | [-> | ->]]; congruence || (vm_compute; discriminate). }
    destruct I as [<-|[<-|[<-|[]]]]; apply S3; auto.
Qed.
Definition toy_mus : list Unspent :=
  [toy_u (@p2sh_script toy toy_redeem) "p2sh" 1 0 5000;
   toy_u (@p2sh_script toy ([0; 32] ++ @sha256 toy toy_redeem)) "np2wsh" 2 1 6000].
Lemma toy_spendable : @Spendable toy toy_env toy_mus.
Proof.
  constructor.
  - intros k. constructor; [exists true; vm_compute; reflexivity|]. constructor; [exists true; vm_compute; reflexivity|]. constructor.
  - repeat constructor; eexists; exists (repeat 1 32) + exists (repeat 2 32); eexists; (split; [vm_compute; reflexivity|]); split; reflexivity.
  - repeat constructor; cbn; lia.
Qed.
Lemma toy_mmatch1 : Match (@OwnE toy toy_env) toy_mus (nth 0 (t_ins toy_x) (Tin [] 0 [] 0 [])) (nth 0 toy_mus (toy_u [] "" 0 0 0)).
Proof.
  exists [], (tl toy_mus). split; [reflexivity|]. split.
  - split; [|split; reflexivity]. left. reflexivity.
  - constructor; [|constructor]. intros [_ [H _]]. vm_compute in H. discriminate.
Qed.
Lemma toy_mmatch2 : Match (@OwnE toy toy_env) toy_mus (nth 1 (t_ins toy_x) (Tin [] 0 [] 0 [])) (nth 1 toy_mus (toy_u [] "" 0 0 0)).
Proof.
  exists (firstn 1 toy_mus), []. split; [reflexivity|]. split; [|constructor].
  split; [|split; reflexivity]. right. split; [repeat constructor|reflexivity].
Qed.
Lemma toy_mready : @Ready toy toy_env toy_mus toy_x (toy_t [0]).
Proof.
  split; [apply toy_rep; auto|]. split; [discriminate|]. split; [left; repeat constructor; discriminate|].
  intros xi u [<-|[<-|[<-|[]]]] M; split; auto.
  intros _. exfalso. destruct M as (l1 & l2 & E & [_ [H _]] & _).
  assert (I : In u toy_mus) by (rewrite E; apply in_or_app; right; left; auto).
  destruct I as [<-|[<-|[]]]; vm_compute in H; discriminate.
Qed.
Lemma toy_signers a b : a = 5 \/ a = 6 \/ a = 7 -> b = 5 \/ b = 6 \/ b = 7 -> a <> b -> @Signers toy toy_env [toy_k a; toy_k b].
Proof.
  intros A B N. split; [constructor; [apply toy_cosigner; auto|constructor; [apply toy_cosigner; auto|constructor]]|]. cbn [map]. constructor; [|repeat constructor; auto].
  intros [Q|[]]. destruct A as [-> | [-> | ->]], B as [-> | [-> | ->]]; try congruence; vm_compute in Q; discriminate.
Qed.

Example C32_hypotheses : @EnvOk toy toy_env /\ @Spendable toy toy_env toy_mus /\ @Ready toy toy_env toy_mus toy_x (toy_t [0]) /\
  @Signers toy toy_env [toy_k 7; toy_k 5] /\ zlen [toy_k 7; toy_k 5] = e_m toy_env /\
  Match (@OwnE toy toy_env) toy_mus (nth 0 (t_ins toy_x) (Tin [] 0 [] 0 [])) (nth 0 toy_mus (toy_u [] "" 0 0 0)) /\
  Match (@OwnE toy toy_env) toy_mus (nth 1 (t_ins toy_x) (Tin [] 0 [] 0 [])) (nth 1 toy_mus (toy_u [] "" 0 0 0)) /\
  u_is_segwit (nth 0 toy_mus (toy_u [] "" 0 0 0)) = false /\ u_is_segwit (nth 1 toy_mus (toy_u [] "" 0 0 0)) = true.
Proof.
  split; [apply toy_env_ok|]. split; [apply toy_spendable|]. split; [apply toy_mready|]. split; [apply toy_signers; auto; lia|].
  split; [reflexivity|]. split; [exact toy_mmatch1|]. split; [exact toy_mmatch2|]. split; reflexivity.
Qed.
(** Two orders, by computation: the same string. *)
Example C32_two_orders :
  match @cosign toy toy_env toy_mus (toy_t [0]) (toy_k 7) [toy_k 5], @cosign toy toy_env toy_mus (toy_t [0]) (toy_k 5) [toy_k 7] with
  | Ok a, Ok b => list_eqb a b && (100 <? zlen a) | _, _ => false end = true.
Proof. vm_compute. reflexivity. Qed.

(** C34: one segwit input; a legacy one. *)
Definition toy_x1 (b n : Z) : tx := Tx 1 [Tin (repeat b 32) n [] 0xffffffff []] [Tout 10000 [0x51]] 0.
Definition toy_t1 (b n : Z) (wit : bytes) : TxObj := mkTx (le4 1) [toy_in b n 0xffffffff [] wit] [mkOut (le_bytes 8 10000) [1] [0x51]] (le4 0).
Lemma toy_rep1 b n wit : wit = [] \/ wit = [0] -> 0 <= b < 256 -> 0 <= n < 10 -> RepObj (toy_x1 b n) (toy_t1 b n wit).
Proof.
  intros W Hb Hn. constructor. constructor; cbn [toy_x1 toy_t1 t_ver t_ins t_outs t_lock version TxIns TxOuts locktime].
  - apply LEnum_le_bytes. cbn. lia.
  - constructor; [apply toy_in_rep; try (cbn; lia); reflexivity|]. constructor.
  - constructor; [|constructor]. split; [constructor|]. cbn. destruct W as [-> | ->]; [auto|right; apply EncStack_nil].
  - cbn. lia.
  - constructor; [|constructor]. constructor; cbn; auto; [apply (LEnum_le_bytes 8); cbn; lia|constructor; lia].
  - cbn. lia.
  - apply LEnum_le_bytes. cbn. lia.
Qed.
Example C34_hypotheses : @Ready toy toy_env toy_mus (toy_x1 2 1) (toy_t1 2 1 [0]) /\ @Signers toy toy_env [toy_k 6] /\ zlen [toy_k 6] < e_m toy_env /\
  (exists u, Match (@OwnE toy toy_env) toy_mus (Tin (repeat 2 32) 1 [] 0xffffffff []) u /\ u_is_segwit u = true).
Proof.
  split; [|split; [|split]].
  - split; [apply toy_rep1; auto; lia|]. split; [discriminate|]. split; [left; repeat constructor; discriminate|].
    intros xi u [<-|[]] M. auto.
  - split; [constructor; [apply toy_cosigner; auto|constructor]|repeat constructor; auto].
  - cbn. lia.
  - eexists. split; [exact toy_mmatch2|reflexivity].
Qed.
Example C34_legacy_hypotheses : @Ready toy toy_env toy_mus (toy_x1 1 0) (toy_t1 1 0 []) /\
  ~ @segwit_form toy toy_env toy_mus (toy_x1 1 0) (toy_t1 1 0 []) /\ @Signers toy toy_env ([toy_k 5] ++ [toy_k 6]) /\
  (exists u, Match (@OwnE toy toy_env) toy_mus (Tin (repeat 1 32) 0 [] 0xffffffff []) u).
Proof.
  assert (L : forall xi u, In xi (t_ins (toy_x1 1 0)) -> Match (@OwnE toy toy_env) toy_mus xi u -> u_is_segwit u = false).
  { intros xi u [<-|[]] M. rewrite (Match_fun _ _ _ _ _ M toy_mmatch1). reflexivity. }
  split; [|split; [|split]].
  - split; [apply toy_rep1; auto; lia|]. split; [discriminate|]. split; [right; left; split; [repeat constructor|exact L]|].
    intros xi u [<-|[]] M. auto.
  - intros [A|(xi & u & I & M & Sg)]; [inversion A as [|? ? N]; apply N; reflexivity|]. rewrite (L xi u I M) in Sg. discriminate.
  - apply toy_signers; auto; lia.
  - eexists. exact toy_mmatch1.
Qed.
