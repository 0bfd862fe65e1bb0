(** sign_tx input by input. *)
From Verif Require Export F_sighash.

(** ** Indexed pointwise relations *)
Inductive F2i {A B} (R : nat -> A -> B -> Prop) : nat -> list A -> list B -> Prop :=
| f2i_nil n : F2i R n [] []
| f2i_cons n a b l m : R n a b -> F2i R (S n) l m -> F2i R n (a :: l) (b :: m).

Lemma F2i_length {A B} (R : nat -> A -> B -> Prop) n l m : F2i R n l m -> length l = length m.
Proof. induction 1; cbn; auto. Qed.
Lemma F2i_nth {A B} (R : nat -> A -> B -> Prop) n l m j a : F2i R n l m -> nth_error l j = Some a ->
  exists b, nth_error m j = Some b /\ R (n + j)%nat a b.
Proof.
  intros H. revert j a. induction H as [n|n x y l m Hr H IH]; intros [|j] a E; try discriminate; cbn in *.
  - injection E as <-. exists y. rewrite Nat.add_0_r. auto.
  - destruct (IH j a E) as (b & E' & R'). exists b. replace (n + S j)%nat with (S n + j)%nat by lia. auto.
Qed.
Lemma F2i_intro {A B} (R : nat -> A -> B -> Prop) n l m : length l = length m ->
  (forall j a b, nth_error l j = Some a -> nth_error m j = Some b -> R (n + j)%nat a b) -> F2i R n l m.
Proof.
  revert n m. induction l as [|a l IH]; intros n [|b m] L H; try discriminate; constructor.
  - specialize (H 0%nat a b eq_refl eq_refl). rewrite Nat.add_0_r in H. auto.
  - apply IH; [auto|]. intros j x y Hx Hy. specialize (H (S j) x y Hx Hy). replace (S n + j)%nat with (n + S j)%nat by lia. auto.
Qed.
Lemma F2i_imp {A B} (R R' : nat -> A -> B -> Prop) n l m : (forall j a b, In a l -> R j a b -> R' j a b) -> F2i R n l m -> F2i R' n l m.
Proof. intros H F. induction F; constructor; auto using in_eq. apply IHF. intros. apply H; auto. right; auto. Qed.
Lemma F2i_exists {A B} (R : nat -> A -> B -> Prop) n l : (forall j a, nth_error l j = Some a -> exists b, R (n + j)%nat a b) ->
  exists m, F2i R n l m.
Proof.
  revert n. induction l as [|a l IH]; intros n H; [exists []; constructor|].
  destruct (H 0%nat a eq_refl) as (b & Hb). rewrite Nat.add_0_r in Hb.
  destruct (IH (S n)) as (m & Hm).
  { intros j x Hx. destruct (H (S j) x Hx) as (c & Hc). exists c. replace (S n + j)%nat with (n + S j)%nat by lia. auto. }
  exists (b :: m). constructor; auto.
Qed.

Lemma upd_app {A} (pre : list A) x y suf : upd (pre ++ x :: suf) (length pre) y = pre ++ y :: suf.
Proof. induction pre as [|a pre IH]; cbn; auto. rewrite IH. reflexivity. Qed.
Lemma nth_app {A} (pre : list A) x suf : nth_error (pre ++ x :: suf) (length pre) = Some x.
Proof. induction pre; cbn; auto. Qed.
Lemma snoc_app {A} (pre : list A) x suf : pre ++ x :: suf = (pre ++ [x]) ++ suf.
Proof. rewrite <- app_assoc. reflexivity. Qed.
Lemma snoc_len {A} (pre : list A) x : length (pre ++ [x]) = S (length pre).
Proof. rewrite app_length. cbn. lia. Qed.

Section WithCrypto.
Context {CR : Crypto}.

(** ** The first loop *)
Definition prep (pk : signer) (d : indict) (x : TxIn) : result (TxIn * bytes * option bool) :=
  match dict_get (outpoint x) d with
  | None => Ok (x, script_sig x, None)
  | Some u =>
      code <- sg_scriptcode pk ;;
      l <- int_to_varint (zlen code) ;;
      if d_is_segwit u then
        a <- to_bytes_le (d_amount u) 8 ;;
        Ok (mkIn (code ++ a) l (txid x) (txindex x) (witness x) (amount x) (sequence x) true, witness x, Some true)
      else Ok (mkIn code l (txid x) (txindex x) (witness x) (amount x) (sequence x) false, script_sig x, Some false)
  end.
Definition p_in (q : TxIn * bytes * option bool) : TxIn := fst (fst q).
Definition p_field (q : TxIn * bytes * option bool) : bytes := snd (fst q).
Definition p_flag (q : TxIn * bytes * option bool) : option bool := snd q.

Fixpoint poss (n : nat) (fl : list (option bool)) : list (nat * bytes * bool) :=
  match fl with
  | [] => []
  | None :: r => poss (S n) r
  | Some s :: r => (n, HASH_TYPE, s) :: poss (S n) r
  end.

Lemma prepare_pointwise pk d suf : forall pre fpre params, length fpre = length pre ->
  prepare_loop pk d (sign_inputs d suf (length pre)) (pre ++ suf) (fpre ++ map script_sig suf) params =
  (r <- mapM (prep pk d) suf ;;
   Ok (pre ++ map p_in r, fpre ++ map p_field r, params ++ poss (length pre) (map p_flag r))).
Proof.
  induction suf as [|x suf IH]; intros pre fpre params L.
  - cbn [sign_inputs prepare_loop mapM bind map poss]. rewrite !app_nil_r. reflexivity.
  - cbn [sign_inputs mapM map]. unfold prep at 1. destruct (dict_get (outpoint x) d) as [u|] eqn:G.
    + cbn [prepare_loop]. unfold nth_in at 1. rewrite nth_app. cbn [bind]. rewrite G.
      destruct (sg_scriptcode pk) as [code|e]; [|reflexivity]. cbn [bind].
      destruct (int_to_varint (zlen code)) as [l|e]; [|reflexivity]. cbn [bind].
      destruct (d_is_segwit u).
      * destruct (to_bytes_le (d_amount u) 8) as [a|e]; [|reflexivity]. cbn [bind].
        rewrite upd_app. rewrite <- L at 2. rewrite upd_app. rewrite !(snoc_app _ _ suf), (snoc_app fpre), <- (snoc_len pre (mkIn (code ++ a) l (txid x) (txindex x) (witness x) (amount x) (sequence x) true)).
        rewrite IH by (rewrite !snoc_len; auto). destruct (mapM (prep pk d) suf); [|reflexivity]. cbn [bind map poss p_in p_field p_flag fst snd].
        rewrite snoc_len, <- !app_assoc. reflexivity.
      * rewrite upd_app. rewrite !(snoc_app _ _ suf), (snoc_app fpre), <- (snoc_len pre (mkIn code l (txid x) (txindex x) (witness x) (amount x) (sequence x) false)).
        rewrite IH by (rewrite !snoc_len; auto). destruct (mapM (prep pk d) suf); [|reflexivity]. cbn [bind map poss p_in p_field p_flag fst snd].
        rewrite snoc_len, <- !app_assoc. reflexivity.
    + rewrite (snoc_app pre), (snoc_app fpre), <- (snoc_len pre x).
      rewrite IH by (rewrite !snoc_len; auto). cbn [bind]. destruct (mapM (prep pk d) suf); [|reflexivity]. cbn [bind map poss p_in p_field p_flag fst snd].
      rewrite snoc_len, <- !app_assoc. reflexivity.
Qed.

(** ** The second loop *)
Definition sign_one (pk : signer) (push hash f : bytes) (seg stx : bool) : result (bytes * bytes) :=
  match pk with
  | Multi ms => sign_multi ms hash f seg stx
  | Single k => sign_single k push hash seg stx
  end.

Definition set_signed (x : TxIn) (ss l wit : bytes) (seg : bool) : TxIn :=
  mkIn ss l (txid x) (txindex x) wit (amount x) (sequence x) seg.

Definition step2 (pk : signer) (push : bytes) (stx : bool) (T : TxObj) (j : nat) (q : TxIn * bytes * option bool) (x' : TxIn) : Prop :=
  match p_flag q with
  | None => x' = p_in q
  | Some seg => exists hash ss wit l, preimage_of T (j, HASH_TYPE, seg) = Ok hash /\
      sign_one pk push hash (p_field q) seg stx = Ok (ss, wit) /\ int_to_varint (zlen ss) = Ok l /\
      x' = set_signed (p_in q) ss l wit seg
  end.

Lemma sign_loop_pointwise pk push stx T field r : forall pre n pres ins', n = length pre ->
  (forall j q, nth_error r j = Some q -> nth_error field (n + j) = Some (p_field q)) ->
  mapM (preimage_of T) (poss n (map p_flag r)) = Ok pres ->
  (sign_loop pk push stx field (combine pres (poss n (map p_flag r))) (pre ++ map p_in r) = Ok ins' <->
   exists suf', ins' = pre ++ suf' /\ F2i (step2 pk push stx T) n r suf').
Proof.
  induction r as [|q r IH]; intros pre n pres ins' Hn HF HP.
  - cbn [map poss] in *. cbn [mapM] in HP. injection HP as <-. cbn [combine sign_loop]. split.
    + intros E. exists []. split; [rewrite app_nil_r in *; congruence|constructor].
    + intros (suf' & -> & F). inversion F; subst. rewrite !app_nil_r. reflexivity.
  - assert (HF' : forall j q0, nth_error r j = Some q0 -> nth_error field (S n + j) = Some (p_field q0)).
    { intros j q0 H. specialize (HF (S j) q0 H). replace (S n + j)%nat with (n + S j)%nat by lia. auto. }
    specialize (HF 0%nat q eq_refl). rewrite Nat.add_0_r in HF.
    cbn [map poss] in *. destruct (p_flag q) as [seg|] eqn:Fl.
    + cbn [mapM] in HP. apply bind_ok in HP as (h & Hh & HP). apply bind_ok in HP as (hs & Hhs & HP). injection HP as <-.
      cbn [combine sign_loop]. unfold nth_in. subst n. rewrite nth_app. cbn [bind].
      replace (match pk with
               | Single k => sign_single k push h seg stx
               | Multi ms => match nth_error field (length pre) with
                             | Some f => sign_multi ms h f seg stx
                             | None => Raise IndexError
                             end
               end) with (sign_one pk push h (p_field q) seg stx) by (unfold sign_one; rewrite HF; destruct pk; reflexivity).
      split.
      * intros E. apply bind_ok in E as ([ss wit] & E1 & E). apply bind_ok in E as (l & E2 & E).
        rewrite upd_app in E. fold (set_signed (p_in q) ss l wit seg) in E. rewrite (snoc_app pre) in E.
        rewrite <- (snoc_len pre (set_signed (p_in q) ss l wit seg)) in E, Hhs, HF'.
        apply (IH _ _ hs ins' eq_refl HF' Hhs) in E as (suf' & -> & F).
        exists (set_signed (p_in q) ss l wit seg :: suf'). rewrite <- app_assoc. split; [reflexivity|].
        rewrite snoc_len in F. constructor; auto. unfold step2. rewrite Fl. exists h, ss, wit, l. auto.
      * intros (suf' & -> & F). inversion F as [|? ? b ? m Hb F']; subst. unfold step2 in Hb. rewrite Fl in Hb.
        destruct Hb as (h' & ss & wit & l & P & E1 & E2 & ->). rewrite Hh in P. injection P as <-.
        rewrite E1. cbn [bind]. rewrite E2. cbn [bind]. rewrite upd_app. fold (set_signed (p_in q) ss l wit seg). rewrite (snoc_app pre _ (map p_in r)), (snoc_app pre _ m).
        rewrite <- (snoc_len pre (set_signed (p_in q) ss l wit seg)) in *.
        apply (IH _ _ hs _ eq_refl HF' Hhs). eauto.
    + rewrite (snoc_app pre). subst n. rewrite <- (snoc_len pre (p_in q)) in *.
      rewrite (IH _ _ pres ins' eq_refl HF' HP). split.
      * intros (suf' & -> & F). exists (p_in q :: suf'). rewrite <- app_assoc. split; [reflexivity|]. rewrite snoc_len in F. constructor; auto.
        unfold step2. rewrite Fl. reflexivity.
      * intros (suf' & -> & F). inversion F as [|? ? b ? m Hb F']; subst. unfold step2 in Hb. rewrite Fl in Hb. subst b.
        exists m. rewrite <- app_assoc. split; [reflexivity|]. rewrite snoc_len. auto.
Qed.

(** ** The signature hash of the prepared transaction *)
Record SkelIn (x : tin) (i : TxIn) : Prop := {
  sk_txid : txid i = i_txid x;
  sk_len : length (i_txid x) = 32%nat;
  sk_vout : LEnum 4 (i_vout x) (txindex i);
  sk_seq : LEnum 4 (i_seq x) (sequence i)
}.
Lemma RepIn_skel x i : RepIn x i -> SkelIn x i.
Proof. intros [? ? ? ? ? ? ? ?]. constructor; auto. Qed.

Lemma CS0 : CompactSize 0 [0]. Proof. constructor. lia. Qed.
Lemma LE4_1 : LEnum 4 1 [1; 0; 0; 0].
Proof. apply (LE4 1). lia. Qed.

Definition blank (k : tin) : tin := Tin (i_txid k) (i_vout k) [] (i_seq k) [].
Lemma enc_blank x i : SkelIn x i -> EncIn (blank x) (blank_in i).
Proof.
  intros [H1 H2 H3 H4]. exists (txindex i), [0], (sequence i). cbn. repeat (split; auto).
  - exists [0]. split; [apply CS0|reflexivity].
  - unfold blank_in. rewrite H1. reflexivity.
Qed.
Lemma enc_blanks xs is : Forall2 SkelIn xs is -> EncSeq EncIn (map blank xs) (concat (map blank_in is)).
Proof. induction 1; cbn [map concat]; constructor; auto. apply enc_blank; auto. Qed.

Lemma enc_blank_except xs is : Forall2 SkelIn xs is -> forall j i code l, nth_error is j = Some i ->
  CompactSize (zlen code) l ->
  EncSeq EncIn (blank_except j code xs)
    (concat (map blank_in (firstn j is)) ++ (txid i ++ txindex i ++ l ++ code ++ sequence i) ++ concat (map blank_in (skipn (S j) is))).
Proof.
  induction 1 as [|x i0 xs is H F IH]; intros j i code l N C; [destruct j; discriminate|].
  destruct j as [|j]; cbn [nth_error] in N.
  - injection N as ->. cbn [blank_except firstn map concat app]. change (skipn 1 (i :: is)) with is.
    constructor; [|apply enc_blanks; auto]. destruct H as [H1 H2 H3 H4]. exists (txindex i), (l ++ code), (sequence i). cbn. repeat (split; auto).
    + exists l. auto.
    + rewrite H1, <- !app_assoc. reflexivity.
  - cbn [blank_except firstn map concat]. rewrite <- app_assoc. constructor; [apply (enc_blank x i0 H)|].
    apply (IH j i code l N C).
Qed.

Record RepObj (x : tx) (t : TxObj) : Prop := { ro : Rep x (version t) (TxIns t) (TxOuts t) (locktime t) }.

Lemma preimage_legacy x v ins outs l j i code len :
  LEnum 4 (t_ver x) v -> Forall2 SkelIn (t_ins x) ins -> zlen ins < 2 ^ 64 -> Forall2 RepOut (t_outs x) outs -> zlen outs < 2 ^ 64 ->
  LEnum 4 (t_lock x) l -> nth_error ins j = Some i -> script_sig i = code -> script_sig_len i = len -> CompactSize (zlen code) len ->
  exists msg, preimage_of (mkTx v ins outs l) (j, HASH_TYPE, false) = Ok (sha256 msg) /\ LegacyMsg x j code msg.
Proof.
  intros Hv Hi Ni Ho No Hl N Es El C.
  destruct (cs_exists ins Ni) as (ni & Ei & Ci). destruct (cs_exists outs No) as (no & Eo & Co).
  unfold preimage_of. cbn [TxIns TxOuts version locktime]. rewrite Ei, Eo. cbn [bind]. rewrite list_eqb_refl. cbn [negb].
  unfold nth_in. rewrite N. cbn [bind]. eexists. split; [reflexivity|].
  split; [rewrite (F2_len _ _ _ Hi); apply nth_error_Some; congruence|].
  pose proof (enc_blank_except _ _ Hi j i code len N C) as SQ. rewrite Es, El.
  exists (v ++ (ni ++ concat (map blank_in (firstn j ins)) ++ (txid i ++ txindex i ++ len ++ code ++ sequence i) ++ concat (map blank_in (skipn (S j) ins)))
          ++ (no ++ concat (map out_bytes outs)) ++ l), HASH_TYPE.
  split; [|split; [apply LE4_1|rewrite <- !app_assoc; reflexivity]].
  exists v, (ni ++ concat (map blank_in (firstn j ins)) ++ (txid i ++ txindex i ++ len ++ code ++ sequence i) ++ concat (map blank_in (skipn (S j) ins))),
    (no ++ concat (map out_bytes outs)), l. cbn [t_ver t_ins t_outs t_lock].
  split; auto. split; [|split; [|split; auto]].
  - exists ni. eexists. split; [|split; [exact SQ|reflexivity]]. rewrite blank_except_length, (F2_len _ _ _ Hi). exact Ci.
  - exists no. eexists. split; [|split; [|reflexivity]]; [rewrite (F2_len _ _ _ Ho); exact Co|].
    apply (EncSeq_map EncOut RepOut); auto. apply RepOut_enc.
Qed.

Lemma preimage_segwit x v ins outs l j i code len value a :
  LEnum 4 (t_ver x) v -> Forall2 SkelIn (t_ins x) ins -> zlen ins < 2 ^ 64 -> Forall2 RepOut (t_outs x) outs -> zlen outs < 2 ^ 64 ->
  LEnum 4 (t_lock x) l -> nth_error ins j = Some i -> script_sig i = code ++ a -> LEnum 8 value a -> script_sig_len i = len -> CompactSize (zlen code) len ->
  exists msg, preimage_of (mkTx v ins outs l) (j, HASH_TYPE, true) = Ok (sha256 msg) /\ BIP143Msg x j code value msg.
Proof.
  intros Hv Hi Ni Ho No Hl N Es Ha El C.
  destruct (cs_exists ins Ni) as (ni & Ei & Ci). destruct (cs_exists outs No) as (no & Eo & Co).
  unfold preimage_of. cbn [TxIns TxOuts version locktime]. rewrite Ei, Eo. cbn [bind]. rewrite list_eqb_refl. cbn [negb].
  unfold nth_in. rewrite N. cbn [bind]. eexists. split; [reflexivity|].
  assert (exists xi, nth_error (t_ins x) j = Some xi /\ SkelIn xi i) as (xi & Nx & Sk).
  { clear -Hi N. revert j N. induction Hi as [|x0 i0 xs is H F IH]; intros [|j] N; try discriminate; cbn in *; [injection N as <-; eauto|eauto]. }
  pose proof Sk as [S1 S2 S3 S4].
  exists xi, v, (concat (map (fun i => txid i ++ txindex i) ins)), (concat (map sequence ins)), (txid i ++ txindex i), (len ++ code), a,
    (sequence i), (concat (map out_bytes outs)), l, HASH_TYPE.
  rewrite Es, El. repeat (split; auto).
  - apply (EncSeq_map EncOutpoint SkelIn); auto. intros b c [? ? ? ?]. exists (txindex c). repeat (split; auto). congruence.
  - apply (EncSeq_map EncSequence SkelIn); auto. intros b c [? ? ? ?]. auto.
  - exists (txindex i). repeat (split; auto). congruence.
  - exists len. auto.
  - apply (EncSeq_map EncOut RepOut); auto. apply RepOut_enc.
  - apply LE4_1.
  - unfold double_sha256. rewrite <- !app_assoc. reflexivity.
Qed.

(** ** sign_tx as a pointwise relation *)
Definition signs_in (pk : signer) (push : bytes) (stx : bool) (d : indict) (x : tx) (code : bytes) (j : nat) (i i' : TxIn) : Prop :=
  match dict_get (outpoint i) d with
  | None => i' = i
  | Some u => exists msg ss wit l,
      SigMsg (d_is_segwit u) x j code (d_amount u) msg /\
      sign_one pk push (sha256 msg) (if d_is_segwit u then witness i else script_sig i) (d_is_segwit u) stx = Ok (ss, wit) /\
      int_to_varint (zlen ss) = Ok l /\ i' = set_signed i ss l wit (d_is_segwit u)
  end.

Lemma prep_skel pk d x i q : prep pk d i = Ok q -> SkelIn x i -> SkelIn x (p_in q).
Proof.
  unfold prep. intros E [H1 H2 H3 H4]. destruct (dict_get (outpoint i) d) as [u|].
  - apply bind_ok in E as (c & _ & E). apply bind_ok in E as (l & _ & E). destruct (d_is_segwit u).
    + apply bind_ok in E as (a & _ & E). injection E as <-. constructor; auto.
    + injection E as <-. constructor; auto.
  - injection E as <-. constructor; auto.
Qed.

Lemma mapM_preimages T fl n : (forall j seg, nth_error fl j = Some (Some seg) -> exists h, preimage_of T ((n + j)%nat, HASH_TYPE, seg) = Ok h) ->
  exists pres, mapM (preimage_of T) (poss n fl) = Ok pres.
Proof.
  revert n. induction fl as [|f fl IH]; intros n H; cbn [poss mapM]; [eexists; reflexivity|].
  assert (H' : forall j seg, nth_error fl j = Some (Some seg) -> exists h, preimage_of T ((S n + j)%nat, HASH_TYPE, seg) = Ok h).
  { intros j seg E. specialize (H (S j) seg E). replace (S n + j)%nat with (n + S j)%nat by lia. auto. }
  destruct f as [seg|]; [|apply IH; auto]. cbn [mapM].
  destruct (H 0%nat seg eq_refl) as (h & Eh). rewrite Nat.add_0_r in Eh. rewrite Eh. cbn [bind].
  destruct (IH (S n) H') as (pres & Ep). rewrite Ep. cbn [bind]. eexists. reflexivity.
Qed.

Lemma F2_nth_l {A B} (R : A -> B -> Prop) l m j a : Forall2 R l m -> nth_error l j = Some a -> exists b, nth_error m j = Some b /\ R a b.
Proof. intros H. revert j. induction H; intros [|j] E; try discriminate; cbn in *; [injection E as <-; eauto|eauto]. Qed.
Lemma F2_nth_r {A B} (R : A -> B -> Prop) l m j b : Forall2 R l m -> nth_error m j = Some b -> exists a, nth_error l j = Some a /\ R a b.
Proof. intros H. revert j. induction H; intros [|j] E; try discriminate; cbn in *; [injection E as <-; eauto|eauto]. Qed.

(** The preimages of the prepared transaction are the standard messages. *)
Lemma prepared_preimage pk d x t r j q seg : RepObj x t -> Forall2 (fun i q => prep pk d i = Ok q) (TxIns t) r ->
  nth_error r j = Some q -> p_flag q = Some seg ->
  exists i u code msg, nth_error (TxIns t) j = Some i /\ dict_get (outpoint i) d = Some u /\ seg = d_is_segwit u /\
    sg_scriptcode pk = Ok code /\ p_field q = (if seg then witness i else script_sig i) /\
    (forall ss l wit s, set_signed (p_in q) ss l wit s = set_signed i ss l wit s) /\
    preimage_of (mkTx (version t) (map p_in r) (TxOuts t) (locktime t)) (j, HASH_TYPE, seg) = Ok (sha256 msg) /\
    SigMsg seg x j code (d_amount u) msg.
Proof.
  intros [[H1 H2 H3 H4 H5 H6 H7]] F N Fl. destruct (F2_nth_r _ _ _ _ _ F N) as (i & Ni & P).
  assert (SK : Forall2 SkelIn (t_ins x) (map p_in r)).
  { clear -H2 F. revert r F. induction H2 as [|xi i xs is H F2 IH]; intros r F; inversion F as [|? q ? r' P F']; subst; cbn [map]; constructor.
    - eapply prep_skel; eauto. apply RepIn_skel; auto.
    - apply IH; auto. }
  assert (NL : zlen (map p_in r) < 2 ^ 64).
  { unfold zlen in *. rewrite map_length, <- (F2_len _ _ _ F). auto. }
  assert (NI : nth_error (map p_in r) j = Some (p_in q)) by (rewrite nth_error_map, N; reflexivity).
  unfold prep in P. destruct (dict_get (outpoint i) d) as [u|] eqn:G; [|injection P as <-; discriminate].
  apply bind_ok in P as (code & Ec & P). apply bind_ok in P as (l & El & P). exists i, u, code.
  apply varint_spec in El. destruct (d_is_segwit u) eqn:Sg.
  - apply bind_ok in P as (a & Ea & P). injection P as <-. cbn in Fl. injection Fl as <-.
    apply to_bytes_le_ok in Ea as [Ra ->].
    destruct (preimage_segwit x _ _ _ _ j _ code l (d_amount u) _ H1 SK NL H5 H6 H7 NI eq_refl (LEnum_le_bytes 8 _ Ra) eq_refl El) as (msg & E & M).
    exists msg. repeat (split; auto).
  - injection P as <-. cbn in Fl. injection Fl as <-.
    destruct (preimage_legacy x _ _ _ _ j _ code l H1 SK NL H5 H6 H7 NI eq_refl eq_refl El) as (msg & E & M).
    exists msg. repeat (split; auto).
Qed.

Lemma sign_tx_sound pk t us t' x : RepObj x t -> sign_tx_obj pk t us = Ok t' ->
  exists d push stx, build_dict pk us [] = Ok d /\ tx_is_segwit t = Ok stx /\ script_push (zlen (sg_public_key pk)) = Ok push /\
    version t' = version t /\ TxOuts t' = TxOuts t /\ locktime t' = locktime t /\
    F2i (fun j i i' => match dict_get (outpoint i) d with
                       | None => i' = i
                       | Some _ => exists code, sg_scriptcode pk = Ok code /\ signs_in pk push stx d x code j i i'
                       end) 0 (TxIns t) (TxIns t').
Proof.
  intros R E. unfold sign_tx_obj in E. apply bind_ok in E as (d & Ed & E). apply bind_ok in E as (stx & Es & E).
  apply bind_ok in E as (push & Ep & E). exists d, push, stx. split; auto. split; auto. split; auto.
  pose proof (prepare_pointwise pk d (TxIns t) [] [] [] eq_refl) as PP. cbn [length app] in PP. rewrite PP in E. clear PP.
  destruct (mapM (prep pk d) (TxIns t)) as [r|e] eqn:Er; [|discriminate]. cbn [bind] in E.
  apply bind_ok in E as (pres & Epre & E). unfold calculate_preimages in Epre.
  apply bind_ok in Epre as (c1 & _ & Epre). apply bind_ok in Epre as (c2 & _ & Epre).
  apply bind_ok in E as (ins' & El & E). injection E as <-. cbn [version TxOuts locktime TxIns].
  repeat (split; auto). apply mapM_ok in Er.
  change (map p_in r) with ([] ++ map p_in r) in El at 1.
  apply (sign_loop_pointwise pk push stx (mkTx (version t) (map p_in r) (TxOuts t) (locktime t)) (map p_field r) r [] 0 pres ins' eq_refl) in El; [|intros j q Hq; rewrite nth_error_map; cbn [Nat.add]; rewrite Hq; reflexivity|exact Epre].
  destruct El as (suf & -> & F). cbn [app]. apply F2i_intro.
  - rewrite (F2_len _ _ _ Er). eapply F2i_length; eauto.
  - intros j i i' Hi Hi'. cbn [Nat.add]. destruct (F2_nth_l _ _ _ _ _ Er Hi) as (q & Hq & Pq).
    destruct (F2i_nth _ _ _ _ _ _ F Hq) as (b & Hb & S). cbn [Nat.add] in S. rewrite Hi' in Hb. injection Hb as <-.
    unfold step2 in S. destruct (p_flag q) as [seg|] eqn:Fl.
    + destruct (prepared_preimage pk d x t r j q seg R Er Hq Fl) as (i0 & u & code & msg & Hi0 & G & -> & Ec & Ef & Es' & Epr & M).
      rewrite Hi in Hi0. injection Hi0 as <-. rewrite G. exists code. split; auto.
      destruct S as (h & ss & wit & l & E1 & E2 & E3 & ->). rewrite Epr in E1. injection E1 as <-.
      unfold signs_in. rewrite G. exists msg, ss, wit, l. rewrite Ef in E2. rewrite Es'. auto.
    + unfold prep in Pq. destruct (dict_get (outpoint i) d) as [u|].
      * exfalso. apply bind_ok in Pq as (c & _ & Pq). apply bind_ok in Pq as (l & _ & Pq). destruct (d_is_segwit u).
        -- apply bind_ok in Pq as (a & _ & Pq). injection Pq as <-. discriminate.
        -- injection Pq as <-. discriminate.
      * injection Pq as <-. exact S.
Qed.

Lemma sign_tx_complete pk t us x d push stx code ins' : RepObj x t ->
  build_dict pk us [] = Ok d -> tx_is_segwit t = Ok stx -> script_push (zlen (sg_public_key pk)) = Ok push ->
  sg_scriptcode pk = Ok code -> zlen code < 2 ^ 64 ->
  F2i (signs_in pk push stx d x code) 0 (TxIns t) ins' ->
  sign_tx_obj pk t us = Ok (mkTx (version t) ins' (TxOuts t) (locktime t)).
Proof.
  intros R Ed Es Ep Ec Lc F. unfold sign_tx_obj. rewrite Ed. cbn [bind]. rewrite Es. cbn [bind]. rewrite Ep. cbn [bind].
  pose proof (prepare_pointwise pk d (TxIns t) [] [] [] eq_refl) as PP. cbn [length app] in PP. rewrite PP. clear PP.
  destruct (cs_exists code Lc) as (lc & Elc & _).
  assert (exists r, mapM (prep pk d) (TxIns t) = Ok r) as (r & Er).
  { clear -F Ec Elc. revert F. generalize 0%nat. generalize (TxIns t) as ins. revert ins'. intros ins' ins n F.
    induction F as [|n a b l m H F (r & IH)]; [eexists; reflexivity|]. cbn [mapM]. rewrite IH. unfold prep at 1.
    unfold signs_in in H. destruct (dict_get (outpoint a) d) as [u|]; [|cbn [bind]; eexists; reflexivity].
    rewrite Ec. cbn [bind]. rewrite Elc. cbn [bind]. destruct (d_is_segwit u); [|eexists; reflexivity].
    destruct H as (msg & ss & wit & l0 & M & _). cbn in M.
    destruct M as (i & v & pv & sq & op & sc & am & s & o & l1 & h & _ & _ & _ & _ & _ & _ & H7 & _).
    apply LEnum_range in H7. rewrite to_bytes_le_ok' by exact H7. eexists. reflexivity. }
  rewrite Er. cbn [bind]. apply mapM_ok in Er.
  unfold calculate_preimages. cbn [TxIns TxOuts].
  pose proof R as [[H1 H2 H3 H4 H5 H6 H7]].
  destruct (cs_exists (TxIns t) H4) as (ni & Ei & _). destruct (cs_exists (TxOuts t) H6) as (no & Eo & _).
  replace (zlen (map p_in r)) with (zlen (TxIns t)) by (unfold zlen; rewrite map_length, (F2_len _ _ _ Er); auto).
  rewrite Ei, Eo. cbn [bind].
  set (T := mkTx (version t) (map p_in r) (TxOuts t) (locktime t)).
  destruct (mapM_preimages T (map p_flag r) 0) as (pres & Epre).
  { intros j seg E. rewrite nth_error_map in E. destruct (nth_error r j) as [q|] eqn:Hq; [|discriminate]. cbn in E. injection E as Fl.
    destruct (prepared_preimage pk d x t r j q seg R Er Hq Fl) as (i0 & u & code' & msg & _ & _ & _ & _ & _ & _ & Epr & _). eauto. }
  rewrite Epre. cbn [bind].
  assert (SL : sign_loop pk push stx (map p_field r) (combine pres (poss 0 (map p_flag r))) ([] ++ map p_in r) = Ok ins').
  { apply (sign_loop_pointwise pk push stx T (map p_field r) r [] 0 pres ins' eq_refl);
      [intros j q Hq; rewrite nth_error_map; cbn [Nat.add]; rewrite Hq; reflexivity|exact Epre|].
    exists ins'. split; [reflexivity|]. apply F2i_intro.
    - rewrite <- (F2_len _ _ _ Er). eapply F2i_length; eauto.
    - intros j q i' Hq Hi'. cbn [Nat.add]. destruct (F2_nth_r _ _ _ _ _ Er Hq) as (i & Hi & Pq).
      destruct (F2i_nth _ _ _ _ _ _ F Hi) as (b & Hb & S). cbn [Nat.add] in S. rewrite Hi' in Hb. injection Hb as <-.
      unfold step2. destruct (p_flag q) as [seg|] eqn:Fl.
      + destruct (prepared_preimage pk d x t r j q seg R Er Hq Fl) as (i0 & u & code' & msg & Hi0 & G & -> & Ec' & Ef & Es' & Epr & M).
        rewrite Hi in Hi0. injection Hi0 as <-. rewrite Ec in Ec'. injection Ec' as <-.
        unfold signs_in in S. rewrite G in S. destruct S as (msg' & ss & wit & l & M' & E1 & E2 & ->).
        rewrite (SigMsg_fun _ _ _ _ _ _ _ M' M) in E1. exists (sha256 msg), ss, wit, l. rewrite Ef, Es'. auto.
      + unfold prep in Pq. unfold signs_in in S. destruct (dict_get (outpoint i) d) as [u|].
        * exfalso. apply bind_ok in Pq as (c & _ & Pq). apply bind_ok in Pq as (l & _ & Pq). destruct (d_is_segwit u).
          -- apply bind_ok in Pq as (a & _ & Pq). injection Pq as <-. discriminate.
          -- injection Pq as <-. discriminate.
        * injection Pq as <-. exact S. }
  cbn [app] in SL. rewrite SL. reflexivity.
Qed.

(** The standard message exists for every input within the limits. *)
Lemma SigMsg_exists seg x t j code value : RepObj x t -> (j < length (t_ins x))%nat -> zlen code < 2 ^ 64 ->
  (seg = true -> 0 <= value < 2 ^ 64) -> exists msg, SigMsg seg x j code value msg.
Proof.
  intros [[H1 H2 H3 H4 H5 H6 H7]] Lj Lc Hv. destruct (cs_exists code Lc) as (lc & Elc & Cc).
  destruct (nth_error (TxIns t) j) as [i|] eqn:Ni; [|apply nth_error_None in Ni; rewrite <- (F2_len _ _ _ H2) in Ni; lia].
  set (a := le_bytes 8 value).
  set (f := fun k : TxIn => mkIn (code ++ if seg then a else []) lc (txid k) (txindex k) [] None (sequence k) seg).
  assert (SK : Forall2 SkelIn (t_ins x) (map f (TxIns t))).
  { clear -H2. induction H2 as [|xi i xs is H F IH]; cbn [map]; constructor; auto. destruct H. constructor; auto. }
  assert (NL : zlen (map f (TxIns t)) < 2 ^ 64) by (unfold zlen in *; rewrite map_length; auto).
  assert (N : nth_error (map f (TxIns t)) j = Some (f i)) by (rewrite nth_error_map, Ni; reflexivity).
  destruct seg; cbn [SigMsg].
  - destruct (preimage_segwit x _ _ _ _ j (f i) code lc value a H1 SK NL H5 H6 H7 N eq_refl) as (msg & _ & M); eauto.
    apply LE8. auto.
  - destruct (preimage_legacy x _ _ _ _ j (f i) code lc H1 SK NL H5 H6 H7 N) as (msg & _ & M); eauto.
    cbn. apply app_nil_r.
Qed.

End WithCrypto.
