(** C92 for multisig wallets: legacy coins that hold more than was said. *)
From Coq Require Import String Permutation.
From Verif Require Import F_signtx F_wallet F_spend F_cosigntx F_build F_redeem P_select P_sign P_multi P_wallet P_create X_world.
From Verif Require Import S_Consensus P_consensus P_txid P_lies.

Section WithCrypto.
Context {CR : Crypto} (HO : HashOk CR).
Context {W Amt : Type} {WD : World W Amt}.
(** C92: the transaction of a wallet and its co-signers is valid all the same, and what
    the legacy coins hold beyond goes to the miner. *)
Theorem C92_excess_multi (RO : RandomOk WD) e k ks outputs fee leftover unspents o s h s' us s1 L :
  EnvOk e -> Signers e (k :: ks) -> zlen (k :: ks) = e_m e -> MsgOk o ->
  create_transaction (Multi (wallet e k)) outputs fee leftover unspents o s = (Ok h, s') ->
  Available (Multi (wallet e k)) unspents s us s1 -> Forall TxidOk us -> Distinct us -> Forall (MultiCoin e) us ->
  Sensible us -> Forall (Understated L) us -> outputs <> [] -> (forall f w, FeeRate fee (wl_world s1) f w -> 0 <= f) ->
  exists h' x sel f w coins, FeeRate fee (wl_world s1) f w /\ pass_all e sel h ks = Ok h' /\ Asked (Multi (wallet e k)) outputs f leftover o us sel w h' x /\
    Forall2 (fun u c => Holds L u (fst c)) sel coins /\ Valid L x coins.
Proof.
  intros EO SG Lm M E A T D SC SE DE NO Hf.
  destruct (C50_create_multi HO RO e k ks outputs fee leftover unspents o s h s' us s1 EO SG ltac:(lia) M E A T D SC) as (h' & x & sel & f & w & F & Ep & Ak & Sp).
  assert (FS : Forall (fun u => MultiCoin e u /\ Understated L u) sel).
  { destruct Ak as (_ & _ & _ & _ & _ & _ & _ & _ & _ & _ & _ & _ & _ & (taken & unused & Pm & _ & _ & Hs) & _). rewrite Hs. apply Forall_rbf.
    - intros v [H1 H2]. split; [|apply understated_rbf; auto]. unfold MultiCoin in *. destruct (rbf_keep v) as (_ & _ & -> & -> & _). auto.
    - assert (P : Forall (fun u => MultiCoin e u /\ Understated L u) us) by (rewrite Forall_forall in *; auto).
      eapply Permutation_Forall in P; [|apply Permutation_sym; exact Pm]. apply Forall_app in P as [P _]. exact P. }
  destruct (valid_told _ _ _ _ _ _ _ _ _ _ L Ak NO (Hf f w F) D SE) as (coins & MF & V); [| |exists h', x, sel, f, w, coins; auto 7].
  - eapply Forall_impl; [|exact DE]. intros u (v & H1 & H2). exists v. split; auto. destruct (u_is_segwit u); lia.
  - intros j u xi v Hu Hx Hv. rewrite Forall_forall in FS. destruct (FS u (nth_error_In _ _ Hu)) as [C (v' & H1 & H2)].
    destruct (Sp j u xi Hu Hx) as (z & PS & Z0). rewrite (Z0 Lm) in PS.
    destruct (accepts_multi HO e (k :: ks) x j u xi EO C PS Lm) as (spk & E1 & E2 & E3); [intros k' m Hk; destruct SG as [SG _]; rewrite Forall_forall in SG; apply (cs_len _ _ (SG k' Hk))|]. exists spk. split; auto. split; auto.
    rewrite (holds_fun _ _ _ _ Hv H1) in *. destruct (u_is_segwit u) eqn:SW; [subst v'; auto|].
    destruct PS as (msg & sigs & _ & _ & _ & _ & _ & S). rewrite SW in S. destruct S as [_ S]. eapply accepts_any; eauto.
Qed.
End WithCrypto.
Print Assumptions C92_excess_multi.

Local Opaque create_transaction get_unspents.
(** ** The hypotheses are met: a coin of each kind; the legacy coin holds a million more *)
Definition legacy_richer (us : list Unspent) : ledger := fun t n =>
  option_map (fun c => (fst c + (if existsb (fun u => negb (u_is_segwit u) && (u_txindex u =? n)) us then 1000000 else 0), snd c)) (ledger_of us t n).
Lemma legacy_richer_holds us u : describesb (ledger_of us) u = true ->
  Holds (legacy_richer us) u (u_amount u + (if existsb (fun v => negb (u_is_segwit v) && (u_txindex v =? u_txindex u)) us then 1000000 else 0)).
Proof.
  intros H. apply describesb_ok in H as (t & spk & H1 & H2 & H3 & H4). exists t, spk. repeat (split; auto). unfold legacy_richer. rewrite H4. reflexivity.
Qed.
Example C92_excess_multi_case : exists h s' sel h' x coins, create_toy_multi = (Ok h, s') /\ @pass_all toy toy_env sel h [toy_k 7] = Ok h' /\
  @Valid toy (legacy_richer toy_mus) x coins /\ total (map fst coins) = amounts toy_mus + 1000000.
Proof.
  destruct C50_multi_hypotheses as (EO & SG & _ & M & (h & s' & E) & T & D & SC).
  assert (SE : Sensible toy_mus) by (apply sensibleb_ok; vm_compute; reflexivity).
  assert (G : forallb (describesb (ledger_of toy_mus)) toy_mus = true) by (vm_compute; reflexivity). rewrite forallb_forall in G.
  assert (H1 : Holds (legacy_richer toy_mus) (nth 0 toy_mus (toy_u [] "" 0 0 0)) 1005000) by (apply (legacy_richer_holds toy_mus (nth 0 toy_mus (toy_u [] "" 0 0 0))); apply G; left; reflexivity).
  assert (H2 : Holds (legacy_richer toy_mus) (nth 1 toy_mus (toy_u [] "" 0 0 0)) 6000) by (apply (legacy_richer_holds toy_mus (nth 1 toy_mus (toy_u [] "" 0 0 0))); apply G; right; left; reflexivity).
  assert (DE : Forall (Understated (legacy_richer toy_mus)) toy_mus).
  { constructor; [|constructor; [|constructor]].
    - exists 1005000. split; [exact H1|]. cbn. lia.
    - exists 6000. split; [exact H2|]. reflexivity. }
  destruct (@C92_excess_multi toy toy_ok _ _ toy_world toy_random_ok toy_env (toy_k 5) [toy_k 7] mouts (Some 3) None (Some toy_mus) (wopts true true) wallet0 h s' toy_mus
    (set_caller toy_mus wallet0) (legacy_richer toy_mus) EO SG eq_refl M E (conj eq_refl eq_refl) T D SC SE DE ltac:(discriminate)) as (h' & x & sel & f & w & coins & _ & Ep & Ak & MF & V).
  { intros f w F. inversion F; subst; [lia|]. match goal with H : _ \/ _ |- _ => destruct H; discriminate end. }
  exists h, s', sel, h', x, coins. split; auto. split; auto. split; auto.
  destruct Ak as (_ & _ & _ & _ & _ & _ & _ & _ & _ & _ & _ & _ & _ & (taken & unused & _ & _ & All & Hs) & _). specialize (All eq_refl). subst taken.
  cbn [o_replace_by_fee wopts] in Hs. subst sel. clear - MF H1 H2.
  apply holds_rbf in H1. apply holds_rbf in H2.
  inversion MF as [|u1 c1 l1 l1' Q1 F1]; subst. inversion F1 as [|u2 c2 l2 l2' Q2 F2]; subst. inversion F2; subst.
  cbn [map total]. rewrite (holds_fun _ _ _ _ Q1 H1), (holds_fun _ _ _ _ Q2 H2). reflexivity.
Qed.
