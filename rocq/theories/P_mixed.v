(** C66 for multisig wallets: the first co-signer signs a transaction that has
    no witnesses, as segwit in some inputs and not in others. *)
From Coq Require Import String.
From Verif Require Import F_cosigntx X_toy.

Section WithCrypto.
Context {CR : Crypto} (HO : HashOk CR).

Lemma fresh_in e us x j xi u h : Fresh e us x -> nth_error (t_ins x) j = Some xi -> Match (OwnE e) us xi u -> InState e (u_is_segwit u) h [] xi.
Proof. intros F H M. destruct (F xi u (nth_error_In _ _ H) M) as [A B]. cbn. destruct (u_is_segwit u); auto. Qed.

(** The co-signer is not told: a string comes back, and it is not the encoding
    of any transaction. *)
Theorem C66_mixed_multi e us x t k : EnvOk e -> Spendable e us -> CoSigner e k -> RepObj x t -> Fresh e us x -> no_wits t ->
  (exists xi u, In xi (t_ins x) /\ Match (OwnE e) us xi u /\ u_is_segwit u = true) ->
  (exists xi, In xi (t_ins x) /\ forall u, Match (OwnE e) us xi u -> u_is_segwit u = false) ->
  exists b, sign_tx (Multi (wallet e k)) t us = Ok (bytes_to_hex b) /\ forall y, t_ins y <> [] -> ~ EncSegwit y b /\ ~ EncLegacy y b.
Proof.
  intros O SP C R FR W (x1 & u1 & I1 & M1 & S1) (x2 & I2 & N2). pose proof (fun u b => OwnE_eq HO e k u b O) as OWN.
  destruct (build_dict_total _ _ (sp_can _ _ SP k) (sp_out _ _ SP) []) as (d & Ed). pose proof R as [[H1 H2 H3 H4 H5 H6 H7]].
  assert (NT : TxIns t <> []) by (intros Q; rewrite Q in H2; inversion H2 as [Q2|]; rewrite <- Q2 in I1; destruct I1).
  destruct (obj_segwit x t R NT) as [_ SW]. specialize (SW W).
  set (P := fun (j : nat) (xi xi' : tin) => True).
  set (Q := fun (j : nat) (i i' : TxIn) => signs_in (Multi (wallet e k)) [zlen (k_public_key k)] false d x (e_redeem e) j i i' /\
     forall xi, nth_error (t_ins x) j = Some xi ->
       (exists xi', P j xi xi' /\ RepIn xi' i' /\ RepWit xi' i' /\ in_skel xi' = in_skel xi) /\ wit_rule (OwnE e) us false xi i i').
  destruct (F2i_exists Q 0 (TxIns t)) as (ins' & FQ).
  { intros j i Hi. cbn [Nat.add]. unfold Q, signs_in. destruct (F2_nth_r _ _ _ _ _ H2 Hi) as (xi & Hx & Ri).
    destruct (F2_nth_r _ _ _ _ _ H3 Hi) as (xi2 & Hx2 & Wi). rewrite Hx in Hx2. injection Hx2 as <-.
    destruct (match_dict (Multi (wallet e k)) _ OWN us d xi i Ed Ri) as (_ & _ & D3 & D4).
    destruct (dict_get (outpoint i) d) as [w|] eqn:G.
    - destruct (D3 w eq_refl) as (u & M & ->). rewrite d_is_segwit_to_dict, d_amount_to_dict.
      destruct (SigMsg_exists (u_is_segwit u) x t j (e_redeem e) (u_amount u) R) as (msg & SM).
      { apply nth_error_Some. congruence. }
      { apply redeem_zlen; auto. }
      { destruct M as (l1 & l2 & Eu & _). pose proof (sp_amount _ _ SP) as A. rewrite Eu in A. apply Forall_app in A as [_ A].
        apply Forall_cons_iff in A as [A _]. auto. }
      assert (ND : NoDup (map k_public_key [k])) by (cbn; repeat constructor; intros []).
      pose proof (eo_m _ O) as Hm.
      destruct (state_step HO e (u_is_segwit u) false (sha256 msg) k [] xi i O C (Forall_nil _) ND ltac:(cbn; lia) Ri Wi
                  (fresh_in e us x j xi u (sha256 msg) FR Hx M)) as (ss & wit & l & E1 & E2 & W1 & W2 & W3 & xi' & _ & R' & RW' & Sk').
      exists (set_signed i ss l wit (u_is_segwit u)). split; [exists msg, ss, wit, l; auto|].
      intros xi3 Hx3. rewrite Hx in Hx3. injection Hx3 as <-. split; [|split].
      + exists xi'. split; [exact I|auto].
      + intros N. exfalso. exact (Match_not_Unmatched _ _ _ _ M N).
      + intros v Mv. rewrite (Match_fun _ _ _ _ _ Mv M). cbn [set_signed witness]. auto.
    - pose proof (D4 eq_refl) as N. exists i. split; [reflexivity|]. intros xi3 Hx3. rewrite Hx in Hx3. injection Hx3 as <-. split; [|split; auto].
      + exists xi. split; [exact I|auto].
      + intros u M. exfalso. exact (Match_not_Unmatched _ _ _ _ M N). }
  assert (ES : sign_tx_obj (Multi (wallet e k)) t us = Ok (mkTx (version t) ins' (TxOuts t) (locktime t))).
  { eapply sign_tx_complete; eauto.
    - apply (push_key e k O C).
    - reflexivity.
    - apply redeem_zlen; auto.
    - eapply F2i_imp; [|exact FQ]. intros j a b _ [H _]. exact H. }
  set (t' := mkTx (version t) ins' (TxOuts t) (locktime t)) in *.
  pose proof (F2i_length _ _ _ _ FQ) as LL.
  destruct (sign_rep P x t t' R eq_refl eq_refl eq_refl (eq_sym LL)) as (x' & R' & Sk' & F').
  { intros j xi i i' Hx Hi Hi' _ _. destruct (F2i_nth _ _ _ _ _ _ FQ Hi) as (b & Hb & [_ H]). cbn [TxIns t'] in Hi'. cbn [Nat.add] in *.
    rewrite Hi' in Hb. injection Hb as <-. apply (H xi Hx). }
  assert (G : forall xi, In xi (t_ins x) -> exists i i', In i' (TxIns t') /\ witness i = [] /\ RepIn xi i /\ wit_rule (OwnE e) us false xi i i').
  { intros xi Hx. apply In_nth_error in Hx as (j & Hx). destruct (F2_nth_l _ _ _ _ _ H2 Hx) as (i & Hi & Ri).
    destruct (F2i_nth _ _ _ _ _ _ FQ Hi) as (i' & Hi' & [_ H]). cbn [Nat.add] in *. destruct (H xi Hx) as [_ WR].
    exists i, i'. split; [cbn [TxIns t']; eapply nth_error_In; eauto|]. split; [|auto].
    unfold no_wits in W. rewrite Forall_forall in W. apply W. eapply nth_error_In; eauto. }
  pose proof R' as [[_ _ _ H4' _ H6' _]].
  assert (exists b, tx_bytes t' = Ok b) as (b & Eb).
  { unfold tx_bytes. destruct (cs_exists _ H4') as (ni & Ei & _). destruct (cs_exists _ H6') as (no & Eo & _). rewrite Ei, Eo. cbn [bind]. eauto. }
  exists b. split; [unfold sign_tx; rewrite ES; cbn [bind]; unfold to_hex; rewrite Eb; reflexivity|].
  eapply mixed_not_encodable; eauto.
  - destruct (G x1 I1) as (i & i' & Hi' & _ & _ & _ & QQ). exists i'. split; auto. apply (proj1 (proj2 (QQ u1 M1))). auto.
  - destruct (G x2 I2) as (i & i' & Hi' & Wi & Ri & Q1 & Q2). exists i'. split; auto.
    destruct (Match_dec (Multi (wallet e k)) _ OWN us d x2 i Ed Ri) as [(u & M)|N].
    + apply (proj2 (proj2 (Q2 u M))); auto.
    + rewrite (Q1 N). auto.
Qed.
End WithCrypto.
Print Assumptions C66_mixed_multi.

(** The hypotheses are met: the 2-of-3 wallet of P_multi and its transaction
    without placeholders. *)
From Verif Require Import P_sign P_multi.
Example C66_multi_case : exists b, @sign_tx toy (Multi (@wallet toy_env (toy_k 5))) (toy_t []) toy_mus = Ok (bytes_to_hex b) /\
  forall y, t_ins y <> [] -> ~ EncSegwit y b /\ ~ EncLegacy y b.
Proof.
  apply (@C66_mixed_multi toy toy_ok toy_env toy_mus toy_x (toy_t []) (toy_k 5)).
  - exact toy_env_ok.
  - exact toy_spendable.
  - apply toy_cosigner. auto.
  - apply toy_rep. auto.
  - exact (proj2 (proj2 (proj2 toy_mready))).
  - repeat constructor.
  - do 2 eexists. split; [|split; [exact toy_mmatch2|reflexivity]]. right. left. reflexivity.
  - eexists. split; [|intros u M; rewrite (Match_fun _ _ _ _ _ M toy_mmatch1); reflexivity]. left. reflexivity.
Qed.
