(** Single-key signing: which inputs are signed, and the resulting transaction. *)
From Verif Require Export F_signtx.

Section WithCrypto.
Context {CR : Crypto}.

(** The unspent used for an input: the last one of the list that is owned and
    has the input's outpoint. *)
Definition Pays (Own : Unspent -> Prop) (xi : tin) (u : Unspent) : Prop := Own u /\ SpendsOutpoint xi u.
Definition Match (Own : Unspent -> Prop) (us : list Unspent) (xi : tin) (u : Unspent) : Prop :=
  exists l1 l2, us = l1 ++ u :: l2 /\ Pays Own xi u /\ Forall (fun v => ~ Pays Own xi v) l2.
Definition Unmatched (Own : Unspent -> Prop) (us : list Unspent) (xi : tin) : Prop := Forall (fun v => ~ Pays Own xi v) us.

Lemma build_dict_can pk us : forall d0 d, build_dict pk us d0 = Ok d -> Forall (fun u => exists b, sg_can_sign pk u = Ok b) us.
Proof.
  induction us as [|u us IH]; intros d0 d E; cbn [build_dict] in E; [constructor|].
  apply bind_ok in E as (c & Ec & E). destruct c; cbn [negb] in E.
  - apply bind_ok in E as (t & Et & E). apply bind_ok in E as (x & Ex & E). constructor; eauto.
  - constructor; eauto.
Qed.

Section Matching.
Variables (pk : signer) (Own : Unspent -> Prop).
Hypothesis own : forall u b, sg_can_sign pk u = Ok b -> (b = true <-> Own u).

Lemma signable_pays xi i u : RepIn xi i -> (exists b, sg_can_sign pk u = Ok b) -> (signable pk (outpoint i) u <-> Pays Own xi u).
Proof.
  intros R (b & E). unfold signable, Pays. rewrite (spends_outpoint xi i u R). specialize (own u b E). rewrite E.
  split; intros [H1 H2]; split; auto; [apply own; congruence|]. f_equal. apply own. auto.
Qed.

Lemma forall_signable xi i l : RepIn xi i -> Forall (fun u => exists b, sg_can_sign pk u = Ok b) l ->
  (Forall (fun v => ~ signable pk (outpoint i) v) l <-> Forall (fun v => ~ Pays Own xi v) l).
Proof.
  intros R F. rewrite !Forall_forall in *. split; intros H v Hv; [rewrite <- (signable_pays xi i v R (F v Hv))|rewrite (signable_pays xi i v R (F v Hv))]; auto.
Qed.

Lemma match_dict us d xi i : build_dict pk us [] = Ok d -> RepIn xi i ->
  (forall u, Match Own us xi u -> dict_get (outpoint i) d = Some (to_dict u)) /\
  (Unmatched Own us xi -> dict_get (outpoint i) d = None) /\
  (forall w, dict_get (outpoint i) d = Some w -> exists u, Match Own us xi u /\ w = to_dict u) /\
  (dict_get (outpoint i) d = None -> Unmatched Own us xi).
Proof.
  intros E R. pose proof (build_dict_can _ _ _ _ E) as C. destruct (dict_match pk us d (outpoint i) E) as (D1 & D2 & D3 & D4).
  split; [|split; [|split]].
  - intros u (l1 & l2 & Q & P & F). apply D1. exists l1, l2. split; auto. rewrite Q in C. apply Forall_app in C as [_ C].
    apply Forall_cons_iff in C as [C1 C2]. split; [apply (signable_pays xi); auto|]. apply (forall_signable xi); auto.
  - intros U. apply D2. apply (forall_signable xi); auto.
  - intros w G. destruct (D3 w G) as (u & (l1 & l2 & Q & P & F) & ->). exists u. split; auto. exists l1, l2. split; auto.
    rewrite Q in C. apply Forall_app in C as [_ C]. apply Forall_cons_iff in C as [C1 C2].
    split; [apply (signable_pays xi i); auto|]. apply (forall_signable xi i); auto.
  - intros G. apply (forall_signable xi i); auto. apply D4. auto.
Qed.

Lemma Match_dec us d xi i : build_dict pk us [] = Ok d -> RepIn xi i -> (exists u, Match Own us xi u) \/ Unmatched Own us xi.
Proof.
  intros E R. destruct (match_dict us d xi i E R) as (_ & _ & D3 & D4). destruct (dict_get (outpoint i) d) as [w|]; [|auto].
  destruct (D3 w eq_refl) as (u & M & _). eauto.
Qed.
End Matching.

Lemma Match_not_Unmatched Own us xi u : Match Own us xi u -> Unmatched Own us xi -> False.
Proof. intros (l1 & l2 & -> & P & _) F. apply Forall_app in F as [_ F]. apply Forall_cons_iff in F as [F _]. auto. Qed.
Lemma Match_fun Own us xi u v : Match Own us xi u -> Match Own us xi v -> u = v.
Proof.
  intros (l1 & l2 & -> & S & F) (l1' & l2' & E & S' & F'). revert l1' E. induction l1 as [|a l1 IH]; intros [|b l1'] E; cbn in E.
  - congruence.
  - injection E as -> ->. exfalso. apply Forall_app in F as [_ F]. apply Forall_cons_iff in F as [F _]. auto.
  - injection E as -> <-. exfalso. apply Forall_app in F' as [_ F']. apply Forall_cons_iff in F' as [F' _]. auto.
  - injection E as -> E. eauto.
Qed.
Lemma Match_skel Own us xi xi' u : in_skel xi' = in_skel xi -> Match Own us xi u -> Match Own us xi' u.
Proof.
  intros E (l1 & l2 & -> & P & F). injection E as E1 E2 E3. exists l1, l2. unfold Pays, SpendsOutpoint in *. rewrite E1, E2. auto.
Qed.
Lemma Unmatched_skel Own us xi xi' : in_skel xi' = in_skel xi -> Unmatched Own us xi -> Unmatched Own us xi'.
Proof. intros E F. injection E as E1 E2 E3. unfold Unmatched, Pays, SpendsOutpoint in *. rewrite E1, E2. auto. Qed.

(** Whether the result has a serialisation: a witness for every input or for none. *)
Definition Uniform (Own : Unspent -> Prop) (us : list Unspent) (x : tx) (t : TxObj) : Prop :=
  all_wit t \/
  (no_wits t /\ (forall xi u, In xi (t_ins x) -> Match Own us xi u -> u_is_segwit u = false)) \/
  (no_wits t /\ (forall xi, In xi (t_ins x) -> exists u, Match Own us xi u /\ u_is_segwit u = true)).

Lemma push_cost_small d : (length d <= 75)%nat -> push_cost d = S (length d).
Proof. intros H. unfold push_cost. replace (zlen d <=? 75) with true by (unfold zlen; lia). lia. Qed.
(** ** The single-key input after signing *)
Definition spends_single (k : PrivateKey) (x : tx) (j : nat) (u : Unspent) (xi' : tin) : Prop :=
  exists msg sig, SigMsg (u_is_segwit u) x j (p2pkh_script (k_public_key k)) (u_amount u) msg /\
    GoodSig msg (k_public_key k) sig /\ sig = ec_sign (k_secret k) (sha256 msg) ++ [0x01] /\
    if u_is_segwit u
    then MinPushes [[0x00; 0x14] ++ hash160 (k_public_key k)] (i_script xi') /\ i_wit xi' = [sig; k_public_key k]
    else MinPushes [sig; k_public_key k] (i_script xi') /\ i_wit xi' = [].

Context (HO : HashOk CR).

Lemma ok_app a b : bytes_ok a = true -> bytes_ok b = true -> bytes_ok (a ++ b) = true.
Proof. intros A B. rewrite bytes_ok_app, A, B. reflexivity. Qed.
Lemma ok_cons a b : 0 <= a < 256 -> bytes_ok b = true -> bytes_ok (a :: b) = true.
Proof. intros A B. change (bytes_ok ([a] ++ b) = true). apply ok_app; auto. cbn. unfold is_byte. lia. Qed.

Lemma single_input k x j xi i i' u msg ss wit l stx : KeyOk k -> RepIn xi i -> RepWit xi i ->
  SigMsg (u_is_segwit u) x j (p2pkh_script (k_public_key k)) (u_amount u) msg ->
  sign_single k [zlen (k_public_key k)] (sha256 msg) (u_is_segwit u) stx = Ok (ss, wit) ->
  int_to_varint (zlen ss) = Ok l -> i' = set_signed i ss l wit (u_is_segwit u) ->
  (stx = true -> wit <> []) /\ (u_is_segwit u = true -> wit <> []) /\ (u_is_segwit u = false -> stx = false -> wit = []) /\
  exists xi', spends_single k x j u xi' /\ RepIn xi' i' /\ RepWit xi' i' /\ in_skel xi' = in_skel xi.
Proof.
  intros K [R1 R2 R3 R4 R5 R6 R7 R8] RW M E El ->. rewrite sign_single_ok in E by auto.
  destruct K as [K1 K2 K3 K4 K5 K6]. set (sig := ec_sign (k_secret k) (sha256 msg) ++ [0x01]) in *.
  assert (Lsig : (length sig <= 73)%nat) by (unfold sig; rewrite app_length; specialize (K5 (sha256 msg)); cbn; lia).
  assert (Osig : bytes_ok sig = true) by (unfold sig; apply ok_app; auto).
  assert (Lpub : (length (k_public_key k) <= 65)%nat) by lia.
  assert (Zs : 0 <= zlen sig < 256) by (unfold zlen; lia).
  assert (Zp : 0 <= zlen (k_public_key k) < 256) by (unfold zlen; lia).
  assert (G : GoodSig msg (k_public_key k) sig) by (eexists; split; [reflexivity|apply K6]).
  pose proof (h160_len HO (k_public_key k)) as Lh. pose proof (h160_ok HO (k_public_key k)) as Oh.
  apply varint_spec in El. destruct (u_is_segwit u) eqn:Sg; injection E as <- <-.
  - split; [discriminate|]. split; [discriminate|]. split; [discriminate|].
    exists (Tin (i_txid xi) (i_vout xi) ([22; 0; 20] ++ hash160 (k_public_key k)) (i_seq xi) [sig; k_public_key k]).
    split; [|split; [|split; [|reflexivity]]].
    + exists msg, sig. rewrite Sg. split; auto. split; auto. split; auto. cbn [i_script i_wit]. split; auto.
      pose proof (parse_push ([0; 20] ++ hash160 (k_public_key k)) [] []) as P. rewrite app_nil_r in P.
      assert (L22 : length ([0; 20] ++ hash160 (k_public_key k)) = 22%nat) by (rewrite app_length, Lh; reflexivity).
      unfold zlen in P. rewrite L22 in P. split; [apply P; [lia|constructor]|]. cbn [map list_sum fold_right]. rewrite push_cost_small, L22 by lia. cbn [length app]. rewrite Lh. reflexivity.
    + constructor; auto; cbn [set_signed i_script i_txid i_vout i_seq txid txindex script_sig script_sig_len sequence]; auto.

    + split; cbn [i_wit]; [repeat constructor; auto|]. right. cbn [set_signed witness]. apply enc_stack2; lia.
  - split; [intros ->; discriminate|]. split; [discriminate|]. split; [intros _ ->; reflexivity|].
    exists (Tin (i_txid xi) (i_vout xi) (zlen sig :: sig ++ zlen (k_public_key k) :: k_public_key k) (i_seq xi) []).
    split; [|split; [|split; [|reflexivity]]].
    + exists msg, sig. rewrite Sg. split; auto. split; auto. split; auto. cbn [i_script i_wit]. split; auto.
      split; [apply parse_push; [lia|]; rewrite <- (app_nil_r (k_public_key k)) at 2; apply parse_push; [lia|constructor]|].
      cbn [map list_sum fold_right]. rewrite !push_cost_small by lia. cbn [length]. rewrite app_length. cbn [length]. lia.
    + constructor; auto; cbn [set_signed i_script i_txid i_vout i_seq txid txindex script_sig script_sig_len sequence]; auto.
      apply ok_cons; [lia|]. apply ok_app; auto. apply ok_cons; auto.
    + split; cbn [i_wit]; [constructor|]. cbn [set_signed witness]. destruct stx; [right; apply EncStack_nil|left; auto].
Qed.

Definition single_result (k : PrivateKey) (us : list Unspent) (x : tx) (j : nat) (xi xi' : tin) : Prop :=
  (Unmatched (OwnedBy (k_public_key k)) us xi -> xi' = xi) /\
  (forall u, Match (OwnedBy (k_public_key k)) us xi u -> spends_single k x j u xi').

Lemma push_pub k : KeyOk k -> script_push (zlen (k_public_key k)) = Ok [zlen (k_public_key k)].
Proof. intros [K _]. apply script_push_small. unfold zlen. lia. Qed.

(** Without any condition on witnesses: the abstract result, and which inputs have witness bytes. *)
Definition wit_rule (Own : Unspent -> Prop) (us : list Unspent) (stx : bool) (xi : tin) (i i' : TxIn) : Prop :=
  (Unmatched Own us xi -> i' = i) /\
  (forall u, Match Own us xi u ->
     (stx = true -> witness i' <> []) /\ (u_is_segwit u = true -> witness i' <> []) /\ (u_is_segwit u = false -> stx = false -> witness i' = [])).
Definition points (P : tin -> TxIn -> TxIn -> Prop) (x : tx) (t t' : TxObj) : Prop :=
  forall j xi i i', nth_error (t_ins x) j = Some xi -> nth_error (TxIns t) j = Some i -> nth_error (TxIns t') j = Some i' ->
    RepIn xi i -> RepWit xi i -> P xi i i'.

Lemma points_Forall x t t' (P : TxIn -> Prop) : RepObj x t -> length (TxIns t) = length (TxIns t') ->
  points (fun _ _ i' => P i') x t t' -> Forall P (TxIns t').
Proof.
  intros [[H1 H2 H3 H4 H5 H6 H7]] LL HP. apply Forall_forall. intros i' Hi'. apply In_nth_error in Hi' as (j & Hj).
  destruct (nth_error (TxIns t) j) as [i|] eqn:Hi; [|apply nth_error_None in Hi; assert (j < length (TxIns t'))%nat by (apply nth_error_Some; congruence); lia].
  destruct (F2_nth_r _ _ _ _ _ H2 Hi) as (xi & Hx & Ri). destruct (F2_nth_r _ _ _ _ _ H3 Hi) as (xi2 & Hx2 & Wi).
  rewrite Hx in Hx2. injection Hx2 as <-. eapply HP; eauto.
Qed.

Lemma sign_single_points k us x t t' : KeyOk k -> RepObj x t -> sign_tx_obj (Single k) t us = Ok t' ->
  exists d stx x', build_dict (Single k) us [] = Ok d /\ tx_is_segwit t = Ok stx /\ RepObj x' t' /\ same_skeleton x x' /\
    length (TxIns t) = length (TxIns t') /\
    F2i (single_result k us x) 0 (t_ins x) (t_ins x') /\ points (wit_rule (OwnedBy (k_public_key k)) us stx) x t t'.
Proof.
  intros K R E. pose proof (fun u b => can_sign_single HO k u b (ko_hash _ K)) as OWN.
  destruct (sign_tx_sound _ _ _ _ x R E) as (d & push & stx & Ed & Es & Ep & E1 & E2 & E3 & F).
  pose proof (eq_trans (eq_sym Ep) (push_pub k K)) as Ep2. injection Ep2 as ->.
  assert (PT : forall j xi i i', nth_error (t_ins x) j = Some xi -> nth_error (TxIns t) j = Some i -> nth_error (TxIns t') j = Some i' ->
     RepIn xi i -> RepWit xi i ->
     (exists xi', single_result k us x j xi xi' /\ RepIn xi' i' /\ RepWit xi' i' /\ in_skel xi' = in_skel xi) /\
     wit_rule (OwnedBy (k_public_key k)) us stx xi i i').
  { intros j xi i i' Hx Hi Hi' Ri Wi. destruct (F2i_nth _ _ _ _ _ _ F Hi) as (b & Hb & Q). cbn [Nat.add] in Q. rewrite Hi' in Hb. injection Hb as <-.
    destruct (match_dict (Single k) _ OWN us d xi i Ed Ri) as (D1 & D2 & D3 & D4).
    destruct (dict_get (outpoint i) d) as [w|] eqn:G.
    - destruct (D3 w eq_refl) as (u & M & ->). destruct Q as (code & Ec & Q). unfold signs_in in Q. rewrite G in Q.
      destruct Q as (msg & ss & wit & l & QM & Q1 & Q2 & Q3). rewrite d_is_segwit_to_dict, d_amount_to_dict in *.
      cbn [sg_scriptcode] in Ec. apply (key_scriptcode_eq HO k code (ko_hash _ K)) in Ec. subst code.
      cbn [sign_one] in Q1. destruct (single_input k x j xi i i' u msg ss wit l stx K Ri Wi QM Q1 Q2 Q3) as (W1 & W2 & W3 & xi' & S & R' & RW' & Sk).
      split; [|split].
      + exists xi'. split; [|auto]. split; [intros N; exfalso; eapply Match_not_Unmatched; eauto|].
        intros v Mv. rewrite (Match_fun _ _ _ _ _ Mv M). auto.
      + intros N. exfalso. eapply Match_not_Unmatched; eauto.
      + intros v Mv. rewrite (Match_fun _ _ _ _ _ Mv M). subst i'. cbn [set_signed witness]. auto.
    - subst i'. pose proof (D4 eq_refl) as N. split; [|split; auto].
      + exists xi. split; [|auto]. split; auto. intros u M. exfalso. eapply Match_not_Unmatched; eauto.
      + intros u M. exfalso. eapply Match_not_Unmatched; eauto. }
  pose proof (F2i_length _ _ _ _ F) as LL.
  destruct (sign_rep (single_result k us x) x t t' R E1 E2 E3 (eq_sym LL)) as (x' & R' & Sk & F').
  { intros. apply (PT j xi i i'); auto. }
  exists d, stx, x'. do 6 (split; auto). intros j xi i i' A B C D G. apply (PT j xi i i'); auto.
Qed.

Lemma uniform_result pk Own us x t t' d stx : (forall u b, sg_can_sign pk u = Ok b -> (b = true <-> Own u)) ->
  RepObj x t -> t_ins x <> [] -> build_dict pk us [] = Ok d -> tx_is_segwit t = Ok stx -> length (TxIns t) = length (TxIns t') ->
  points (wit_rule Own us stx) x t t' ->
  (all_wit t -> all_wit t') /\ (Uniform Own us x t -> all_wit t' \/ no_wits t') /\
  (no_wits t -> (forall xi u, In xi (t_ins x) -> Match Own us xi u -> u_is_segwit u = false) -> no_wits t').
Proof.
  intros OWN R NE Ed Es LL PT. pose proof R as [[H1 H2 H3 H4 H5 H6 H7]].
  assert (NT : TxIns t <> []) by (destruct H2; [contradiction|discriminate]).
  destruct (obj_segwit x t R NT) as [SW1 SW2].
  assert (AW : all_wit t -> all_wit t').
  { intros W. specialize (SW1 W). rewrite Es in SW1. injection SW1 as ->. eapply points_Forall; eauto. intros j xi i i' Hx Hi Hi' Ri Wi.
    destruct (PT j xi i i' Hx Hi Hi' Ri Wi) as (P1 & P2).
    destruct (Match_dec pk _ OWN us d xi i Ed Ri) as [(u & M)|N].
    - apply (proj1 (P2 u M)). auto.
    - rewrite (P1 N). unfold all_wit in W. rewrite Forall_forall in W. apply W. eapply nth_error_In; eauto. }
  assert (NW : no_wits t -> (forall xi u, In xi (t_ins x) -> Match Own us xi u -> u_is_segwit u = false) -> no_wits t').
  { intros W N. specialize (SW2 W). rewrite Es in SW2. injection SW2 as ->. eapply points_Forall; eauto. intros j xi i i' Hx Hi Hi' Ri Wi.
    destruct (PT j xi i i' Hx Hi Hi' Ri Wi) as (P1 & P2).
    destruct (Match_dec pk _ OWN us d xi i Ed Ri) as [(u & M)|Nm].
    + apply (proj2 (proj2 (P2 u M))); auto. eapply N; eauto. eapply nth_error_In; eauto.
    + rewrite (P1 Nm). unfold no_wits in W. rewrite Forall_forall in W. apply W. eapply nth_error_In; eauto. }
  split; auto. split; auto. intros U. destruct U as [W|[[W N]|[W N]]].
  - left. auto.
  - right. auto.
  - left. eapply points_Forall; eauto. intros j xi i i' Hx Hi Hi' Ri Wi. destruct (PT j xi i i' Hx Hi Hi' Ri Wi) as (P1 & P2).
    destruct (N xi (nth_error_In _ _ Hx)) as (u & M & Sg). apply (proj1 (proj2 (P2 u M))). auto.
Qed.

Lemma sign_single_tx k us x t t' : KeyOk k -> RepObj x t -> t_ins x <> [] -> Uniform (OwnedBy (k_public_key k)) us x t ->
  sign_tx_obj (Single k) t us = Ok t' ->
  exists x', RepObj x' t' /\ same_skeleton x x' /\ (all_wit t' \/ no_wits t') /\ (all_wit t -> all_wit t') /\
    (no_wits t -> (forall xi u, In xi (t_ins x) -> Match (OwnedBy (k_public_key k)) us xi u -> u_is_segwit u = false) -> no_wits t') /\
    F2i (single_result k us x) 0 (t_ins x) (t_ins x').
Proof.
  intros K R NE U E. destruct (sign_single_points k us x t t' K R E) as (d & stx & x' & Ed & Es & R' & Sk & LL & F & PT).
  destruct (uniform_result (Single k) _ us x t t' d stx (fun u b => can_sign_single HO k u b (ko_hash _ K)) R NE Ed Es LL PT) as (A & B & C).
  exists x'. auto 9.
Qed.

(** ** Witnesses for some inputs only: no transaction at all *)
Lemma EncStack_prefix : PrefixInj EncStack (map (fun s : bytes => s)).
Proof. apply EncVec_prefix. apply VarBytes_prefix. Qed.
Lemma some_witness_stacks xs is : Forall2 RepWit xs is -> exists ws, EncSeq EncStack ws (concat (map witness is)) /\
  (length ws <= length is)%nat /\ ((exists i, In i is /\ witness i = []) -> (length ws < length is)%nat).
Proof.
  induction 1 as [|x i xs is [_ W] F (ws & S & L & N)].
  - exists []. split; [constructor|]. split; [auto|]. intros (i & [] & _).
  - cbn [map concat length]. destruct W as [[W _]|W].
    + rewrite W. exists ws. split; auto. split; [lia|]. intros _. lia.
    + exists (i_wit x :: ws). split; [constructor; auto|]. cbn [length]. split; [lia|]. intros (k & [<-|Hk] & Ek).
      * exfalso. exact (EncStack_ne _ _ W Ek).
      * assert (length ws < length is)%nat by (apply N; eauto). lia.
Qed.

Lemma mixed_not_encodable x t b : RepObj x t -> (exists i, In i (TxIns t) /\ witness i <> []) -> (exists i, In i (TxIns t) /\ witness i = []) ->
  tx_bytes t = Ok b -> forall y, t_ins y <> [] -> ~ EncSegwit y b /\ ~ EncLegacy y b.
Proof.
  intros [[H1 H2 H3 H4 H5 H6 H7]] (i1 & I1 & N1) M2 E y NY. unfold tx_bytes in E.
  destruct (cs_exists (TxIns t) H4) as (ni & Ei & Ci). destruct (cs_exists (TxOuts t) H6) as (no & Eo & Co).
  rewrite Ei, Eo in E. cbn [bind] in E.
  destruct (concat (map witness (TxIns t))) as [|w0 wr] eqn:Ew.
  { exfalso. apply in_split in I1 as (l1 & l2 & Q). rewrite Q, map_app, concat_app in Ew. cbn [map concat] in Ew.
    apply app_eq_nil in Ew as [_ Ew]. apply app_eq_nil in Ew as [Ew _]. auto. }
  cbv iota in E. rewrite <- Ew in E. injection E as <-. cbn [MARKER FLAG app]. clear w0 wr Ew.
  destruct (some_witness_stacks _ _ H3) as (ws & SW & _ & LW). specialize (LW M2). split.
  - intros (v & i & o & w & l & Hv & Hi & Ho & Hw & Hl & Q).
    destruct (LEnum_prefix _ _ _ _ _ _ _ H1 Hv Q) as (_ & _ & Q1). cbn [app] in Q1. injection Q1 as Q1.
    assert (EI : EncVec EncIn (t_ins x) (ni ++ concat (map in_bytes (TxIns t)))).
    { exists ni. eexists. rewrite (F2_len _ _ _ H2). split; [exact Ci|]. split; [|reflexivity]. apply (EncSeq_map EncIn RepIn); auto. apply RepIn_enc. }
    assert (EO : EncVec EncOut (t_outs x) (no ++ concat (map out_bytes (TxOuts t)))).
    { exists no. eexists. rewrite (F2_len _ _ _ H5). split; [exact Co|]. split; [|reflexivity]. apply (EncSeq_map EncOut RepOut); auto. apply RepOut_enc. }
    destruct (EncVec_prefix _ _ EncIn_prefix _ _ _ _ _ _ EI Hi Q1) as (Mi & _ & Q2).
    destruct (EncVec_prefix _ _ EncOut_prefix _ _ _ _ _ _ EO Ho Q2) as (_ & _ & Q3).
    assert (LL : length (concat (map witness (TxIns t))) = length w).
    { apply (f_equal (@length Z)) in Q3. rewrite !app_length, (LEnum_length _ _ _ H7), (LEnum_length _ _ _ Hl) in Q3. lia. }
    destruct (app_len_inj _ _ _ _ LL Q3) as [Q4 _]. rewrite Q4 in SW.
    pose proof (EncSeq_whole EncStack _ EncStack_prefix EncStack_ne _ _ _ SW Hw) as Q5.
    apply (f_equal (@length _)) in Q5. rewrite !map_length in Q5. apply (f_equal (@length _)) in Mi. rewrite !map_length in Mi.
    rewrite (F2_len _ _ _ H2) in Mi. lia.
  - intros (v & i & o & l & Hv & (n & c & Hn & Sq & ->) & Ho & Hl & Q).
    destruct (LEnum_prefix _ _ _ _ _ _ _ H1 Hv Q) as (_ & _ & Q1). rewrite <- (app_assoc n) in Q1.
    assert (C0 : CompactSize 0 [0]) by (constructor; lia).
    destruct (CompactSize_prefix _ _ [0] _ (1 :: _) _ C0 Hn Q1) as (Z & _ & _). destruct (t_ins y); [contradiction|discriminate].
Qed.

(** Signing succeeds. *)
Lemma sign_single_total k us x t : KeyOk k -> RepObj x t -> t_ins x <> [] -> Uniform (OwnedBy (k_public_key k)) us x t ->
  (exists code, key_scriptcode k = Ok code) -> Forall (fun u => exists b, sg_can_sign (Single k) u = Ok b) us ->
  Forall (fun u => exists op, UnspentOutpoint u op) us ->
  Forall (fun u => u_is_segwit u = true -> 0 <= u_amount u < 2 ^ 64) us ->
  exists t', sign_tx_obj (Single k) t us = Ok t'.
Proof.
  intros K R NE U (code & Ec) C O A. pose proof (fun u b => can_sign_single HO k u b (ko_hash _ K)) as OWN.
  destruct (build_dict_total _ _ C O []) as (d & Ed). pose proof R as [[H1 H2 H3 H4 H5 H6 H7]].
  assert (NT : TxIns t <> []) by (destruct H2; [contradiction|discriminate]).
  destruct (obj_segwit x t R NT) as [SW1 SW2].
  assert (exists stx, tx_is_segwit t = Ok stx) as (stx & Es) by (destruct U as [W|[[W _]|[W _]]]; eauto).
  pose proof (key_scriptcode_eq HO k code (ko_hash _ K) Ec) as Q.
  assert (Lc : zlen code < 2 ^ 64).
  { rewrite Q. unfold p2pkh_script, zlen. rewrite !app_length, h160_len by auto. cbn. lia. }
  destruct (F2i_exists (signs_in (Single k) [zlen (k_public_key k)] stx d x code) 0 (TxIns t)) as (ins' & F).
  { intros j i Hi. cbn [Nat.add]. unfold signs_in. destruct (F2_nth_r _ _ _ _ _ H2 Hi) as (xi & Hx & Ri).
    destruct (dict_get (outpoint i) d) as [w|] eqn:G; [|eexists; reflexivity].
    destruct (match_dict (Single k) _ OWN us d xi i Ed Ri) as (_ & _ & D3 & _). destruct (D3 w G) as (u & (l1 & l2 & Eu & _) & ->).
    rewrite d_is_segwit_to_dict, d_amount_to_dict.
    destruct (SigMsg_exists (u_is_segwit u) x t j code (u_amount u) R) as (msg & M); auto.
    { apply nth_error_Some. congruence. }
    { rewrite Eu in A. apply Forall_app in A as [_ A]. apply Forall_cons_iff in A as [A _]. auto. }
    cbn [sign_one]. pose proof (sign_single_ok k (sha256 msg) (u_is_segwit u) stx K) as S. cbv zeta in S.
    match type of S with _ = Ok (?a, ?b) => set (ss := a) in *; set (wit := b) in * end.
    assert (L : zlen ss < 2 ^ 64).
    { unfold ss. pose proof (ko_sig_len _ K (sha256 msg)) as L1. pose proof (ko_len _ K) as L2. destruct (u_is_segwit u); unfold zlen;
      cbn [length app]; repeat rewrite app_length; cbn [length]; try rewrite h160_len by auto; lia. }
    destruct (cs_exists ss L) as (l & El & _). exists (set_signed i ss l wit (u_is_segwit u)), msg, ss, wit, l. auto. }
  eexists. eapply sign_tx_complete; eauto. apply push_pub. auto.
Qed.

End WithCrypto.
