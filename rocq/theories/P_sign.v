(** C28-C31, C66: signature messages, what signing changes, single-key inputs. *)
From Coq Require Import String.
From Verif Require Import F_spend X_toy.

(** ** C28: legacy inputs sign the SIGHASH_ALL message.
    [SkelObj x t]: the object denotes x as far as everything except scripts and
    witnesses of inputs is concerned (calculate_preimages is called when the
    scripts have been replaced by script codes). *)
Record SkelObj (x : tx) (t : TxObj) : Prop := {
  so_ver : LEnum 4 (t_ver x) (version t); so_ins : Forall2 SkelIn (t_ins x) (TxIns t); so_nin : zlen (TxIns t) < 2 ^ 64;
  so_outs : Forall2 RepOut (t_outs x) (TxOuts t); so_nout : zlen (TxOuts t) < 2 ^ 64; so_lock : LEnum 4 (t_lock x) (locktime t)
}.

Lemma preimage_call {CR : Crypto} x t p h : SkelObj x t -> preimage_of t p = Ok h -> calculate_preimages t [p] = Ok [h].
Proof.
  intros [H1 H2 H3 H4 H5 H6] E. unfold calculate_preimages. destruct (cs_exists _ H3) as (n & -> & _). destruct (cs_exists _ H5) as (m & -> & _).
  cbn [bind mapM]. rewrite E. reflexivity.
Qed.

Theorem C28_message {CR : Crypto} x t j i code :
  SkelObj x t -> nth_error (TxIns t) j = Some i -> script_sig i = code -> CompactSize (zlen code) (script_sig_len i) ->
  exists msg, LegacyMsg x j code msg /\ calculate_preimages t [(j, HASH_TYPE, false)] = Ok [sha256 msg].
Proof.
  intros S N E C. pose proof S as [H1 H2 H3 H4 H5 H6]. destruct t as [v ins outs l]. cbn [version TxIns TxOuts locktime] in *.
  destruct (preimage_legacy x v ins outs l j i code _ H1 H2 H3 H4 H5 H6 N E eq_refl C) as (msg & P & M).
  exists msg. split; auto. eapply preimage_call; eauto.
Qed.
Print Assumptions C28_message.

(** What sign_tx hands to the signer for a matching legacy input is this hash,
    with the script code of the key or wallet. *)
Theorem C28_sign_tx {CR : Crypto} pk t us t' x j i u :
  RepObj x t -> sign_tx_obj pk t us = Ok t' -> nth_error (TxIns t) j = Some i ->
  LastMatch pk us (outpoint i) u -> u_is_segwit u = false ->
  exists code msg push stx i' wit, sg_scriptcode pk = Ok code /\ LegacyMsg x j code msg /\
    nth_error (TxIns t') j = Some i' /\
    match pk with
    | Single k => sign_single k push (sha256 msg) false stx = Ok (script_sig i', wit)
    | Multi ms => sign_multi ms (sha256 msg) (script_sig i) false stx = Ok (script_sig i', wit)
    end.
Proof.
  intros R E Hi L Sg. destruct (sign_tx_sound _ _ _ _ x R E) as (d & push & stx & Ed & Es & Ep & _ & _ & _ & F).
  destruct (F2i_nth _ _ _ _ _ _ F Hi) as (i' & Hi' & Q). cbn [Nat.add] in *. destruct (dict_match _ _ _ (outpoint i) Ed) as (D & _).
  rewrite (D u L) in Q. destruct Q as (code & Ec & Q). unfold signs_in in Q. rewrite (D u L) in Q.
  destruct Q as (msg & ss & wit & l & M & S1 & S2 & ->). rewrite d_is_segwit_to_dict, Sg in *.
  exists code, msg, push, stx. eexists. exists wit. split; [exact Ec|]. split; [exact M|]. split; [exact Hi'|]. destruct pk; exact S1.
Qed.
Print Assumptions C28_sign_tx.

(** The message is determined by version, outpoints, sequences, outputs,
    locktime, position and script code ... *)
Theorem C28_nothing_else x y j code m m' : same_skeleton x y -> LegacyMsg x j code m -> LegacyMsg y j code m' -> m = m'.
Proof. intros S A B. eapply LegacyMsg_fun; [eapply LegacyMsg_skel; eauto|auto]. Qed.
Print Assumptions C28_nothing_else.

(** ... and determines them all. *)
Theorem C28_commits x x' j j' code code' m :
  code <> [] -> code' <> [] -> LegacyMsg x j code m -> LegacyMsg x' j' code' m ->
  same_skeleton x x' /\ j = j' /\ code = code'.
Proof. intros N N' A B. destruct (LegacyMsg_inj _ _ _ _ _ _ _ A B) as (S & J & C). pose proof (J N N') as Q. auto. Qed.
Print Assumptions C28_commits.

(** ** C29: segwit inputs sign the BIP143 message; the script_sig field holds
    the script code and the amount, its length field the length of the code. *)
Theorem C29_message {CR : Crypto} x t j i code value a :
  SkelObj x t -> nth_error (TxIns t) j = Some i -> script_sig i = code ++ a -> LEnum 8 value a -> CompactSize (zlen code) (script_sig_len i) ->
  exists msg, BIP143Msg x j code value msg /\ calculate_preimages t [(j, HASH_TYPE, true)] = Ok [sha256 msg].
Proof.
  intros S N E A C. pose proof S as [H1 H2 H3 H4 H5 H6]. destruct t as [v ins outs l]. cbn [version TxIns TxOuts locktime] in *.
  destruct (preimage_segwit x v ins outs l j i code _ value a H1 H2 H3 H4 H5 H6 N E A eq_refl C) as (msg & P & M).
  exists msg. split; auto. eapply preimage_call; eauto.
Qed.
Print Assumptions C29_message.

Theorem C29_sign_tx {CR : Crypto} pk t us t' x j i u :
  RepObj x t -> sign_tx_obj pk t us = Ok t' -> nth_error (TxIns t) j = Some i ->
  LastMatch pk us (outpoint i) u -> u_is_segwit u = true ->
  exists code msg push stx i' ss, sg_scriptcode pk = Ok code /\ BIP143Msg x j code (u_amount u) msg /\
    nth_error (TxIns t') j = Some i' /\
    match pk with
    | Single k => sign_single k push (sha256 msg) true stx = Ok (ss, witness i')
    | Multi ms => sign_multi ms (sha256 msg) (witness i) true stx = Ok (ss, witness i')
    end.
Proof.
  intros R E Hi L Sg. destruct (sign_tx_sound _ _ _ _ x R E) as (d & push & stx & Ed & Es & Ep & _ & _ & _ & F).
  destruct (F2i_nth _ _ _ _ _ _ F Hi) as (i' & Hi' & Q). cbn [Nat.add] in *. destruct (dict_match _ _ _ (outpoint i) Ed) as (D & _).
  rewrite (D u L) in Q. destruct Q as (code & Ec & Q). unfold signs_in in Q. rewrite (D u L) in Q.
  destruct Q as (msg & ss & wit & l & M & S1 & S2 & ->). rewrite d_is_segwit_to_dict, d_amount_to_dict, Sg in *.
  exists code, msg, push, stx. eexists. exists ss. split; [exact Ec|]. split; [exact M|]. split; [exact Hi'|]. destruct pk; exact S1.
Qed.
Print Assumptions C29_sign_tx.

(** Two calls with the same hash: the same transaction, outpoint, script code
    and amount, or a SHA-256 collision. *)
Theorem C29_commits {CR : Crypto} x x' j j' code code' a a' m m' :
  (forall y, length (sha256 y) = 32%nat) ->
  BIP143Msg x j code a m -> BIP143Msg x' j' code' a' m' -> sha256 m = sha256 m' ->
  (exists y z, y <> z /\ sha256 y = sha256 z) \/
  (same_skeleton x x' /\ code = code' /\ a = a' /\
   exists i i', nth_error (t_ins x) j = Some i /\ nth_error (t_ins x') j' = Some i' /\ in_skel i = in_skel i').
Proof.
  intros HL A B E. destruct (bytes_dec m m') as [<-|N]; [|left; eauto].
  destruct (BIP143Msg_inj _ _ _ _ _ _ _ _ _ HL A B) as [(y & z & N & C)|S]; auto.
  left. destruct (bytes_dec (sha256 y) (sha256 z)); eauto.
Qed.
Print Assumptions C29_commits.

Theorem C29_other_hash_types {CR : Crypto} x t j ht seg : SkelObj x t -> ht <> HASH_TYPE ->
  calculate_preimages t [(j, ht, seg)] = Raise ValueError.
Proof.
  intros [H1 H2 H3 H4 H5 H6] N. unfold calculate_preimages. destruct (cs_exists _ H3) as (n & En & _). destruct (cs_exists _ H5) as (m & Em & _).
  rewrite En, Em. cbn [bind mapM preimage_of]. rewrite En, Em. cbn [bind].
  assert (list_eqb ht HASH_TYPE = false) as -> by (apply list_eqb_neq; auto). reflexivity.
Qed.
Print Assumptions C29_other_hash_types.

(** ** C30: what signing leaves alone; any transaction object, key or wallet, and unspents *)
Theorem C30_frame {CR : Crypto} pk t us t' : sign_tx_obj pk t us = Ok t' ->
  version t' = version t /\ locktime t' = locktime t /\ TxOuts t' = TxOuts t /\
  length (TxIns t') = length (TxIns t) /\
  forall j i, nth_error (TxIns t) j = Some i -> exists i', nth_error (TxIns t') j = Some i' /\
    txid i' = txid i /\ txindex i' = txindex i /\ sequence i' = sequence i /\
    (NoMatch pk us (outpoint i) -> i' = i).
Proof.
  intros E. destruct (sign_tx_frame _ _ _ _ E) as (d & Ed & E1 & E2 & E3 & F). split; auto. split; auto. split; auto.
  split; [symmetry; eapply F2_len; eauto|]. intros j i Hi. destruct (F2_nth_l _ _ _ _ _ F Hi) as (i' & Hi' & (A & B & C & _) & U).
  exists i'. split; auto. split; auto. split; auto. split; auto. intros N. apply U. apply (dict_match _ _ _ (outpoint i) Ed). auto.
Qed.
Print Assumptions C30_frame.

(** [NoMatch] in terms of scripts: no unspent with that outpoint pays to the key's addresses. *)
Theorem C30_not_ours {CR : Crypto} (HO : HashOk CR) k t us t' x xi j i :
  nonzero_hash (k_public_key k) -> RepObj x t -> sign_tx_obj (Single k) t us = Ok t' ->
  nth_error (t_ins x) j = Some xi -> nth_error (TxIns t) j = Some i ->
  (forall u, In u us -> SpendsOutpoint xi u -> ~ OwnedBy (k_public_key k) u) ->
  nth_error (TxIns t') j = Some i.
Proof.
  intros N R E Hx Hi U. destruct (C30_frame _ _ _ _ E) as (_ & _ & _ & _ & F). destruct (F j i Hi) as (i' & Hi' & _ & _ & _ & Q).
  rewrite Q in Hi'; auto. apply Forall_forall. intros u Hu [C O]. pose proof R as [[_ H2 _ _ _ _ _]].
  destruct (F2_nth_l _ _ _ _ _ H2 Hx) as (i2 & Hi2 & Ri). rewrite Hi in Hi2. injection Hi2 as <-.
  apply (U u Hu); [apply (spends_outpoint xi i); auto|]. apply (can_sign_single HO k u true N C). reflexivity.
Qed.
Print Assumptions C30_not_ours.

(** ** C31: single-key inputs.
    [KeyOk k]: 33 or 65 byte public key, signatures of at most 72 bytes that
    verify.  [Uniform]: the transaction has a witness for every input, as the
    constructor makes them if an input is segwit; or for none, and then either
    no or every input is signed as segwit (otherwise see C66). *)
Theorem C31_spends {CR : Crypto} (HO : HashOk CR) k us x t h :
  KeyOk k -> RepObj x t -> t_ins x <> [] -> Uniform (OwnedBy (k_public_key k)) us x t ->
  sign_tx (Single k) t us = Ok h ->
  exists x' b, (h = bytes_to_hex b /\ bytes_ok b = true) /\ same_skeleton x x' /\
    (EncSegwit x' b \/ (EncLegacy x' b /\ Forall (fun i => i_wit i = []) (t_ins x'))) /\ (all_wit t -> EncSegwit x' b) /\
    (no_wits t -> (forall xi u, In xi (t_ins x) -> Match (OwnedBy (k_public_key k)) us xi u -> u_is_segwit u = false) -> EncLegacy x' b) /\
    forall j xi, nth_error (t_ins x) j = Some xi -> exists xi', nth_error (t_ins x') j = Some xi' /\
      (Unmatched (OwnedBy (k_public_key k)) us xi -> xi' = xi) /\
      (forall u, Match (OwnedBy (k_public_key k)) us xi u -> spends_single k x' j u xi').
Proof.
  intros K R NE U E. unfold sign_tx in E. apply bind_ok in E as (t' & Et & E). unfold to_hex in E.
  destruct (sign_single_tx HO k us x t t' K R NE U Et) as (x' & R' & Sk & W & AW & NW & F).
  pose proof R' as [[H1 H2 H3 H4 H5 H6 H7]].
  assert (NE' : t_ins x' <> []).
  { pose proof (F2i_length _ _ _ _ F) as L. intros Q. rewrite Q in L. destruct (t_ins x); [contradiction|discriminate]. }
  assert (NT : TxIns t' <> []) by (intros Q; rewrite Q in H2; inversion H2; congruence).
  destruct (obj_bytes x' t' R' NT W) as (b & Eb & B1 & B2). rewrite Eb in E. cbn [rmap] in E. injection E as <-.
  exists x', b. split; [split; auto; eapply obj_bytes_ok; eauto|]. split; auto. split.
  { destruct W as [W|W]; [left; apply B1; auto|right]. split; [apply B2; auto|]. clear -W H3. unfold no_wits in W.
    induction H3 as [|a i l m [_ Q] F IH]; constructor.
    - apply Forall_cons_iff in W as [W _]. destruct Q as [[_ Q]|Q]; auto. exfalso. exact (EncStack_ne _ _ Q W).
    - apply IH. apply Forall_cons_iff in W as [_ W]. auto. }
  split; [intros A; apply B1; auto|]. split; [intros A N; apply B2; auto|].
  intros j xi Hx. destruct (F2i_nth _ _ _ _ _ _ F Hx) as (xi' & Hx' & Q1 & Q2). cbn [Nat.add] in *. exists xi'. split; auto. split; auto.
  intros u M. destruct (Q2 u M) as (msg & sig & SM & G). exists msg, sig. split; auto. eapply SigMsg_skel; eauto.
Qed.
Print Assumptions C31_spends.

(** Signing does succeed: if the key has addresses, outpoints and amounts are in range. *)
Theorem C31_signs {CR : Crypto} (HO : HashOk CR) k us x t :
  KeyOk k -> RepObj x t -> t_ins x <> [] -> Uniform (OwnedBy (k_public_key k)) us x t ->
  (exists code, key_scriptcode k = Ok code) -> Forall (fun u => exists b, sg_can_sign (Single k) u = Ok b) us ->
  Forall (fun u => exists op, UnspentOutpoint u op) us ->
  Forall (fun u => u_is_segwit u = true -> 0 <= u_amount u < 2 ^ 64) us ->
  exists h, sign_tx (Single k) t us = Ok h.
Proof.
  intros K R NE U C F1 F2 F3. destruct (sign_single_total HO k us x t K R NE U C F1 F2 F3) as (t' & E).
  destruct (sign_single_tx HO k us x t t' K R NE U E) as (x' & R' & Sk & W & AW & NW & F). pose proof R' as [[H1 H2 H3 H4 H5 H6 H7]].
  assert (NT : TxIns t' <> []).
  { pose proof (F2i_length _ _ _ _ F) as L. intros Q. rewrite Q in H2. inversion H2 as [Q2|]. rewrite <- Q2 in L. destruct (t_ins x); [contradiction|discriminate]. }
  destruct (obj_bytes x' t' R' NT W) as (b & Eb & _). unfold sign_tx. rewrite E. cbn [bind]. unfold to_hex. rewrite Eb. eexists. reflexivity.
Qed.
Print Assumptions C31_signs.

(** ** C66: transactions serialised without witnesses.
    If a transaction object without witnesses (for example the deserialised
    legacy serialisation) is signed as segwit in some input but not in every
    input, the result is not the encoding of any transaction. *)
Theorem C66_mixed_refuted {CR : Crypto} (HO : HashOk CR) k us x t h :
  KeyOk k -> RepObj x t -> no_wits t ->
  (exists xi u, In xi (t_ins x) /\ Match (OwnedBy (k_public_key k)) us xi u /\ u_is_segwit u = true) ->
  (exists xi, In xi (t_ins x) /\ forall u, Match (OwnedBy (k_public_key k)) us xi u -> u_is_segwit u = false) ->
  sign_tx (Single k) t us = Ok h ->
  exists b, h = bytes_to_hex b /\ forall y, t_ins y <> [] -> ~ EncSegwit y b /\ ~ EncLegacy y b.
Proof.
  intros K R W (x1 & u1 & I1 & M1 & S1) (x2 & I2 & N2) E. unfold sign_tx in E. apply bind_ok in E as (t' & Et & E). unfold to_hex in E.
  destruct (sign_single_points HO k us x t t' K R Et) as (d & stx & x' & Ed & Es & R' & Sk & LL & F & PT).
  destruct (tx_bytes t') as [b|] eqn:Eb; [|discriminate]. injection E as <-. exists b. split; auto.
  pose proof R as [[H1 H2 H3 H4 H5 H6 H7]].
  assert (NT : TxIns t <> []) by (intros Q; rewrite Q in H2; inversion H2 as [Q2|]; rewrite <- Q2 in I1; destruct I1).
  destruct (obj_segwit x t R NT) as [_ SW]. specialize (SW W). rewrite Es in SW. injection SW as ->.
  assert (G : forall xi, In xi (t_ins x) -> exists i i', In i' (TxIns t') /\ witness i = [] /\ RepIn xi i /\
     wit_rule (OwnedBy (k_public_key k)) us false xi i i').
  { intros xi Hx. apply In_nth_error in Hx as (j & Hx). destruct (F2_nth_l _ _ _ _ _ H2 Hx) as (i & Hi & Ri).
    destruct (F2_nth_l _ _ _ _ _ H3 Hx) as (i2 & Hi2 & Wi). rewrite Hi in Hi2. injection Hi2 as <-.
    destruct (nth_error (TxIns t') j) as [i'|] eqn:Hi'; [|apply nth_error_None in Hi'; assert (j < length (TxIns t))%nat by (apply nth_error_Some; congruence); lia].
    exists i, i'. split; [eapply nth_error_In; eauto|]. split.
    - unfold no_wits in W. rewrite Forall_forall in W. apply W. eapply nth_error_In; eauto.
    - split; auto. eapply PT; eauto. }
  eapply mixed_not_encodable; eauto.
  - destruct (G x1 I1) as (i & i' & Hi' & _ & _ & _ & Q). exists i'. split; auto. apply (proj1 (proj2 (Q u1 M1))). auto.
  - destruct (G x2 I2) as (i & i' & Hi' & Wi & Ri & Q1 & Q2). exists i'. split; auto.
    destruct (Match_dec (Single k) _ (fun u b => can_sign_single HO k u b (ko_hash _ K)) us d x2 i Ed Ri) as [(u & M)|N].
    + apply (proj2 (proj2 (Q2 u M))); auto.
    + rewrite (Q1 N). auto.
Qed.
Print Assumptions C66_mixed_refuted.

(** ** The hypotheses are met: a toy key, a transaction with a legacy, a nested
    segwit and a foreign input. *)
Definition toy_key : PrivateKey := @make_key toy Main (repeat 7 32) true.
Lemma toy_key_ok : @KeyOk toy toy_key.
Proof.
  constructor.
  - left. reflexivity.
  - reflexivity.
  - exists (hd 0 (@hash160 toy (k_public_key toy_key))). vm_compute. split; [left; reflexivity|discriminate].
  - intros m. apply toy_sign_ok.
  - intros m. cbn [ec_sign toy]. rewrite toy_sign_len. lia.
  - intros m. apply (toy_verify_own (repeat 7 32) true).
Qed.
Definition toy_u (sc : bytes) (type : string) (b n a : Z) : Unspent :=
  new_unspent a 1 (bytes_to_hex sc) (bytes_to_hex (repeat b 32)) n (str type) None None 0xffffffff.
Definition toy_us : list Unspent :=
  [toy_u (@p2pkh_script toy (k_public_key toy_key)) "p2pkh" 1 0 5000;
   toy_u (@p2sh_script toy ([0; 20] ++ @hash160 toy (k_public_key toy_key))) "np2wkh" 2 1 6000].
Definition toy_x : tx :=
  Tx 1 [Tin (repeat 1 32) 0 [] 0xffffffff []; Tin (repeat 2 32) 1 [] 0xffffffff []; Tin (repeat 3 32) 2 [0x51] 0xfffffffd []]
     [Tout 10000 [0x51]] 0.
Definition le4 (z : Z) := le_bytes 4 z.
Definition toy_in (b n s : Z) (sc wit : bytes) : TxIn := mkIn sc [zlen sc] (repeat b 32) (le4 n) wit None (le4 s) false.
Definition toy_t (wit : bytes) : TxObj :=
  mkTx (le4 1) [toy_in 1 0 0xffffffff [] wit; toy_in 2 1 0xffffffff [] wit; toy_in 3 2 0xfffffffd [0x51] wit]
    [mkOut (le_bytes 8 10000) [1] [0x51]] (le4 0).
Lemma toy_in_rep b n s sc wit : 0 <= b < 256 -> 0 <= n < 2 ^ 32 -> 0 <= s < 2 ^ 32 -> bytes_ok sc = true -> zlen sc < 200 ->
  RepIn (Tin (repeat b 32) n sc s []) (toy_in b n s sc wit).
Proof.
  intros Hb Hn Hs Ho Hl. constructor; cbn; auto.
  - unfold is_byte. replace (0 <=? b) with true by lia. replace (b <? 256) with true by lia. reflexivity.
  - apply LEnum_le_bytes. exact Hn.
  - constructor. unfold zlen in *. lia.
  - apply LEnum_le_bytes. exact Hs.
Qed.
Lemma toy_rep wit : wit = [] \/ wit = [0] -> RepObj toy_x (toy_t wit).
Proof.
  intros W. constructor. constructor; cbn [toy_x toy_t t_ver t_ins t_outs t_lock version TxIns TxOuts locktime].
  - apply LEnum_le_bytes. cbn. lia.
  - do 3 (constructor; [apply toy_in_rep; try (cbn; lia); reflexivity|]). constructor.
  - assert (G : forall b n s sc, RepWit (Tin (repeat b 32) n sc s []) (toy_in b n s sc wit)).
    { intros. split; [constructor|]. cbn. destruct W as [-> | ->]; [auto|right; apply EncStack_nil]. }
    do 3 (constructor; [apply G|]). constructor.
  - cbn. lia.
  - constructor; [|constructor]. constructor; cbn; auto; [apply (LEnum_le_bytes 8); cbn; lia|constructor; lia].
  - cbn. lia.
  - apply LEnum_le_bytes. cbn. lia.
Qed.
Lemma toy_match1 : Match (@OwnedBy toy (k_public_key toy_key)) toy_us (nth 0 (t_ins toy_x) (Tin [] 0 [] 0 [])) (nth 0 toy_us (hd (toy_u [] "" 0 0 0) [])).
Proof.
  exists [], (tl toy_us). split; [reflexivity|]. split.
  - split; [|split; reflexivity]. exists (@p2pkh_script toy (k_public_key toy_key)). split; [left; reflexivity|reflexivity].
  - constructor; [|constructor]. intros [_ [H _]]. vm_compute in H. discriminate.
Qed.
Lemma toy_match2 : Match (@OwnedBy toy (k_public_key toy_key)) toy_us (nth 1 (t_ins toy_x) (Tin [] 0 [] 0 [])) (nth 1 toy_us (toy_u [] "" 0 0 0)).
Proof.
  exists (firstn 1 toy_us), []. split; [reflexivity|]. split; [|constructor].
  split; [|split; reflexivity]. exists (@p2sh_script toy ([0; 20] ++ @hash160 toy (k_public_key toy_key))). split; [right; split; reflexivity|reflexivity].
Qed.

Definition toy_signed (wit : bytes) : bool := match @sign_tx toy (Single toy_key) (toy_t wit) toy_us with Ok _ => true | Raise _ => false end.
Lemma toy_signed_ok wit : toy_signed wit = true -> exists h, @sign_tx toy (Single toy_key) (toy_t wit) toy_us = Ok h.
Proof. unfold toy_signed. generalize (@sign_tx toy (Single toy_key) (toy_t wit) toy_us) as r. intros [h|e]; [eauto|discriminate]. Qed.

(** C28-C31: with witness placeholders the hypotheses hold and signing succeeds. *)
Example C31_hypotheses : @KeyOk toy toy_key /\ RepObj toy_x (toy_t [0]) /\
  @Uniform (@OwnedBy toy (k_public_key toy_key)) toy_us toy_x (toy_t [0]) /\
  (exists h, @sign_tx toy (Single toy_key) (toy_t [0]) toy_us = Ok h).
Proof.
  split; [apply toy_key_ok|]. split; [apply toy_rep; auto|]. split.
  - left. repeat constructor; discriminate.
  - apply toy_signed_ok. vm_compute. reflexivity.
Qed.
(** C66: without them, the same inputs. *)
Example C66_hypotheses : no_wits (toy_t []) /\ RepObj toy_x (toy_t []) /\
  (exists xi u, In xi (t_ins toy_x) /\ Match (@OwnedBy toy (k_public_key toy_key)) toy_us xi u /\ u_is_segwit u = true) /\
  (exists xi, In xi (t_ins toy_x) /\ forall u, Match (@OwnedBy toy (k_public_key toy_key)) toy_us xi u -> u_is_segwit u = false) /\
  (exists h, @sign_tx toy (Single toy_key) (toy_t []) toy_us = Ok h).
Proof.
  split; [repeat constructor|]. split; [apply toy_rep; auto|]. split; [|split].
  { do 2 eexists. split; [|split; [exact toy_match2|reflexivity]]. right. left. reflexivity. }
  { eexists. split; [|intros u M; rewrite (Match_fun _ _ _ _ _ M toy_match1); reflexivity]. left. reflexivity. }
  apply toy_signed_ok. vm_compute. reflexivity.
Qed.
