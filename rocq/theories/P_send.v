(** C73: send broadcasts the transaction that create_transaction makes, on the
    network of the key, and returns its id. *)
From Coq Require Import String Permutation.
From Verif Require Import F_wallet F_utf8 F_spend F_cosigntx F_wire X_world F_build P_outputs P_select P_sign P_multi P_wallet P_create.

Section WithCrypto.
Context {CR : Crypto} (HO : HashOk CR).
Context {W Amt : Type} {WD : World W Amt}.

(** The id of a transaction: its bytes without witnesses hashed twice, in
    reverse, as hexadecimal digits. *)
Definition IdOf (x : tx) (i : pystr) : Prop := exists base, EncLegacy x base /\ i = bytes_to_hex (rev (sha256 (sha256 base))).

Lemma asked_id sg outputs f leftover o us sel w h x : Asked sg outputs f leftover o us sel w h x -> exists i, IdOf x i /\ calc_txid h = Ok i.
Proof.
  intros (outs & sats & w1' & change & msgs & back & ((b & [Hh OK] & Eb) & _ & _ & FI & _) & _ & _ & _ & _ & _ & _ & (taken & unused & _ & N & _ & Hs) & _).
  assert (NE : t_ins x <> []).
  { intros Q. rewrite Q in FI. inversion FI as [Q2|]. rewrite <- Q2 in Hs. destruct (o_replace_by_fee o); destruct taken; try discriminate; contradiction. }
  destruct (txid_encoding x b NE OK) as (base & EL & Q). { destruct (existsb u_is_segwit sel); auto. }
  exists (bytes_to_hex (rev (sha256 (sha256 base)))). split; [exists base; auto|]. rewrite Hh. exact Q.
Qed.

(** The hex string made by create_transaction is handed, unchanged and once, to
    the broadcast of the key's network after everything else; the id returned is
    that of the transaction, which is what the caller asked for and spends its
    coins. *)
Theorem C73_send (RO : RandomOk WD) k outputs fee leftover unspents o s i s' us s1 :
  KeyOk k -> MsgOk o -> send (Single k) outputs fee leftover unspents o s = (Ok i, s') ->
  Available (Single k) unspents s us s1 -> Forall TxidOk us -> Distinct us -> Forall (SingleCoin k) us ->
  exists h s2 x sel f w,
    create_transaction (Single k) outputs fee leftover unspents o s = (Ok h, s2) /\
    w_broadcast (k_version k) h (wl_world s2) = (Ok tt, wl_world s') /\ s' = set_world (wl_world s') s2 /\
    FeeRate fee (wl_world s1) f w /\ Asked (Single k) outputs f leftover o us sel w h x /\
    (forall j u xi, nth_error sel j = Some u -> nth_error (t_ins x) j = Some xi -> spends_single k x j u xi) /\
    IdOf x i.
Proof.
  intros K M E A T D SC. unfold send in E. apply ibind_ok in E as (h & s2 & E1 & E). apply ibind_ok in E as ([] & s3 & E2 & E).
  destruct (C50_create_single HO RO k outputs fee leftover unspents o s h s2 us s1 K M E1 A T D SC) as (x & sel & f & w & F & As & Sp).
  exists h, s2, x, sel, f, w. split; auto. unfold world, zoom in E2. destruct (w_broadcast (sg_version (Single k)) h (wl_world s2)) as (r & w3) eqn:B.
  injection E2 as -> <-. unfold ilift in E. injection E as Ei <-. change (sg_version (Single k)) with (k_version k) in B. split; [exact B|]. split; [reflexivity|].
  split; auto. split; auto. split; auto. destruct (asked_id _ _ _ _ _ _ _ _ _ _ As) as (i' & I & Q). congruence.
Qed.

(** If send raises, either making the transaction raised that and nothing was
    broadcast, or the broadcast did; the broadcast is tried at most once and a
    transaction that was accepted is never reported as failed. *)
Theorem C73_failed (RO : RandomOk WD) k outputs fee leftover unspents o s e s' :
  KeyOk k -> MsgOk o -> send (Single k) outputs fee leftover unspents o s = (Raise e, s') ->
  (forall us s1, Available (Single k) unspents s us s1 -> Forall TxidOk us /\ Distinct us /\ Forall (SingleCoin k) us) ->
  create_transaction (Single k) outputs fee leftover unspents o s = (Raise e, s') \/
  exists h s2, create_transaction (Single k) outputs fee leftover unspents o s = (Ok h, s2) /\
    w_broadcast (k_version k) h (wl_world s2) = (Raise e, wl_world s') /\ s' = set_world (wl_world s') s2.
Proof.
  intros K M E C. unfold send, ibind in E. destruct (create_transaction _ _ _ _ _ _ s) as ([h|e1] & s2) eqn:E1; [right|left; congruence].
  exists h, s2. split; auto. unfold world, zoom in E. destruct (w_broadcast (sg_version (Single k)) h (wl_world s2)) as ([[]|e2] & w3) eqn:B.
  - exfalso. unfold ilift in E. injection E as E _. destruct (create_steps _ _ _ _ _ _ _ _ _ E1) as (us & s1 & _ & _ & _ & _ & _ & _ & A & _).
    destruct (C _ _ A) as (T & D & SC).
    destruct (C50_create_single HO RO k outputs fee leftover unspents o s h s2 us s1 K M E1 A T D SC) as (x & sel & f & w & F & As & Sp).
    destruct (asked_id _ _ _ _ _ _ _ _ _ _ As) as (i' & I & Q). congruence.
  - injection E as -> <-. split; auto.
Qed.
End WithCrypto.
Print Assumptions C73_send.
Print Assumptions C73_failed.

(** ** The hypotheses are met: two payments, change and a message, coins fetched;
    one transaction reaches the network. *)
Definition send_toy := @send toy _ _ toy_world (Single wkey) (wouts other_key) None None None (wopts true true) wallet0.
Example C73_hypotheses : (exists i s', send_toy = (Ok i, s') /\ length i = 64%nat /\ length (wl_world s') = 1%nat).
Proof.
  assert (G : (match send_toy with (Ok i, s') => (length i =? 64)%nat && (length (wl_world s') =? 1)%nat | _ => false end) = true) by (vm_compute; reflexivity).
  revert G. generalize send_toy. intros ([i|] & s') G; [|discriminate]. apply andb_true_iff in G as [G1 G2]. exists i, s'.
  split; auto. split; apply Nat.eqb_eq; auto.
Qed.
