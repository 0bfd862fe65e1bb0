(** Every encoding is the encoding of a model object. *)
From Verif Require Import F_base F_tx F_sign F_signtx F_cosigntx.

Lemma CompactSize_range v n : CompactSize v n -> 0 <= v < 2 ^ 64.
Proof. intros H. inversion H; subst; match goal with L : LEnum _ _ _ |- _ => apply LEnum_range in L | _ => idtac end; cbn in *; lia. Qed.
Lemma VarBytes_inv s b : VarBytes s b -> bytes_ok b = true -> zlen s < 2 ^ 64 /\ bytes_ok s = true.
Proof. intros (n & C & ->) H. rewrite bytes_ok_app in H. apply andb_true_iff in H as [_ H]. apply CompactSize_range in C. unfold zlen. split; [lia|auto]. Qed.
Lemma EncSeq_inv {A} (E : A -> bytes -> Prop) (P : A -> Prop) l b : (forall a b, E a b -> bytes_ok b = true -> P a) -> EncSeq E l b -> bytes_ok b = true -> Forall P l.
Proof.
  intros H. induction 1 as [|a l b c Ha S IH]; intros OK; constructor; rewrite bytes_ok_app in OK; apply andb_true_iff in OK as [O1 O2]; eauto.
Qed.
Lemma EncVec_inv {A} (E : A -> bytes -> Prop) (P : A -> Prop) l b : (forall a b, E a b -> bytes_ok b = true -> P a) -> EncVec E l b -> bytes_ok b = true ->
  Forall P l /\ zlen l < 2 ^ 64.
Proof.
  intros H (n & c & C & S & ->) OK. rewrite bytes_ok_app in OK. apply andb_true_iff in OK as [_ OK]. split; [eapply EncSeq_inv; eauto|].
  apply CompactSize_range in C. unfold zlen. lia.
Qed.
Definition in_plain (i : tin) : Prop := length (i_txid i) = 32%nat /\ 0 <= i_vout i < 2 ^ 32 /\ 0 <= i_seq i < 2 ^ 32 /\
  zlen (i_script i) < 2 ^ 64 /\ bytes_ok (i_txid i) = true /\ bytes_ok (i_script i) = true.
Ltac oks := repeat match goal with H : bytes_ok (_ ++ _) = true |- _ => rewrite bytes_ok_app in H; apply andb_true_iff in H as [? ?] end.
Lemma EncIn_inv i b : EncIn i b -> bytes_ok b = true -> in_plain i.
Proof.
  intros (vo & sc & sq & L & V & S & Q & ->) OK. oks. destruct (VarBytes_inv _ _ S) as [? ?]; auto. apply LEnum_range in V, Q. unfold in_plain. cbn in *. auto 8.
Qed.
Lemma EncOut_inv o b : EncOut o b -> bytes_ok b = true -> out_wf o.
Proof. intros (v & sc & V & S & ->) OK. oks. destruct (VarBytes_inv _ _ S) as [? ?]; auto. apply LEnum_range in V. unfold out_wf. cbn in *. auto. Qed.
Lemma EncStack_inv w b : EncStack w b -> bytes_ok b = true -> zlen w < 2 ^ 64 /\ Forall (fun s => zlen s < 2 ^ 64) w /\ Forall (fun s => bytes_ok s = true) w.
Proof.
  intros E OK. destruct (EncVec_inv VarBytes (fun s => zlen s < 2 ^ 64 /\ bytes_ok s = true) w b VarBytes_inv E OK) as [F L]. split; auto.
  split; eapply Forall_impl; try exact F; cbn; tauto.
Qed.
Lemma segwit_wf x b : EncSegwit x b -> bytes_ok b = true -> tx_wf x.
Proof.
  intros (v & i & o & w & l & Hv & Hi & Ho & Hw & Hl & ->) OK. oks.
  destruct (EncVec_inv EncIn in_plain _ _ EncIn_inv Hi) as [FI LI]; auto. destruct (EncVec_inv EncOut out_wf _ _ EncOut_inv Ho) as [FO LO]; auto.
  pose proof (EncSeq_inv EncStack (fun w => zlen w < 2 ^ 64 /\ Forall (fun s => zlen s < 2 ^ 64) w /\ Forall (fun s => bytes_ok s = true) w) _ _ EncStack_inv Hw ltac:(auto)) as FW.
  apply LEnum_range in Hv, Hl. cbn in Hv, Hl. split; [auto|]. split; [auto|]. split; [|auto]. rewrite Forall_map in FW. rewrite Forall_forall in *.
  intros a Ha. destruct (FI a Ha) as (P1 & P2 & P3 & P4 & P5 & P6). destruct (FW a Ha) as (Q1 & Q2 & Q3). unfold in_wf, in_content_ok. auto 12.
Qed.
Lemma legacy_wf x b : EncLegacy x b -> bytes_ok b = true -> tx_wf (strip_witness x).
Proof.
  intros (v & i & o & l & Hv & Hi & Ho & Hl & ->) OK. oks.
  destruct (EncVec_inv EncIn in_plain _ _ EncIn_inv Hi) as [FI LI]; auto. destruct (EncVec_inv EncOut out_wf _ _ EncOut_inv Ho) as [FO LO]; auto.
  apply LEnum_range in Hv, Hl. cbn in Hv, Hl. split; [auto|]. split; [auto|]. cbn [strip_witness t_ins t_outs]. unfold zlen in *. rewrite map_length. split; [|auto].
  apply Forall_map. eapply Forall_impl; [|exact FI]. intros a (P1 & P2 & P3 & P4 & P5 & P6). unfold in_wf, in_content_ok. cbn. unfold zlen. cbn. repeat split; auto; try lia; constructor.
Qed.
Lemma rep_full x : tx_wf x -> exists t, RepObj x t /\ all_wit t.
Proof.
  intros W. destruct (Rep_exists x W) as (v & ins & outs & l & R). pose proof (Rep_fill _ _ _ _ _ R) as R'. exists (mkTx v (map fill ins) outs l). split; [constructor; exact R'|].
  unfold all_wit. cbn [TxIns]. apply Forall_map. apply Forall_forall. intros i _. unfold fill. destruct (witness i) eqn:Q; cbn; congruence.
Qed.
Lemma rep_none x : tx_wf (strip_witness x) -> exists t, RepObj (strip_witness x) t /\ no_wits t.
Proof.
  intros W. destruct (Rep_exists _ W) as (v & ins & outs & l & [H1 H2 H3 H4 H5 H6 H7]). exists (mkTx v (map clear_in ins) outs l). split.
  - constructor. constructor; auto; cbn [TxIns TxOuts version locktime]; unfold zlen in *; rewrite ?map_length; auto.
    + clear - H2. induction H2 as [|a i xs is [] F IH]; cbn; constructor; auto. constructor; auto.
    + assert (N : Forall (fun i => i_wit i = []) (t_ins (strip_witness x))) by (cbn; apply Forall_map, Forall_forall; reflexivity).
      clear - H2 N. induction H2 as [|a i xs is [] F IH]; cbn; constructor.
      * apply Forall_cons_iff in N as [N _]. split; [rewrite N; constructor|]. left. auto.
      * apply IH. apply Forall_cons_iff in N as [_ N]. auto.
  - unfold no_wits. cbn [TxIns]. apply Forall_map, Forall_forall. reflexivity.
Qed.

Lemma known_full t : all_wit t -> all_wit (mkTx (version t) (map known_in (TxIns t)) (TxOuts t) (locktime t)).
Proof. unfold all_wit. cbn. intros F. apply Forall_map. eapply Forall_impl; [|exact F]. intros i. destruct i. cbn. auto. Qed.
Lemma known_none t : no_wits t -> no_wits (mkTx (version t) (map known_in (TxIns t)) (TxOuts t) (locktime t)).
Proof. unfold no_wits. cbn. intros F. apply Forall_map. eapply Forall_impl; [|exact F]. intros i. destruct i. cbn. auto. Qed.
Lemma rep_ins x t : RepObj x t -> t_ins x <> [] -> TxIns t <> [].
Proof. intros [[_ H _ _ _ _ _]] NE Q. rewrite Q in H. inversion H. congruence. Qed.

(** Reading any encoding. *)
Lemma read_segwit_tx x b : t_ins x <> [] -> bytes_ok b = true -> EncSegwit x b ->
  exists t, deserialize_hex (bytes_to_hex b) = Ok t /\ RepObj x t /\ to_hex t = Ok (bytes_to_hex b).
Proof.
  intros NE OK E. destruct (rep_full x (segwit_wf x b E OK)) as (t & R & W). pose proof (rep_ins _ _ R NE) as NT.
  destruct (obj_bytes x t R NT (or_introl W)) as (b' & Eb & H & _). destruct (H W) as [E' _]. rewrite (EncSegwit_fun _ _ _ E E').
  destruct (obj_roundtrip x t R NT (or_introl W)) as (h & Eh & D). unfold to_hex in Eh. rewrite Eb in Eh. injection Eh as <-.
  eexists. split; [exact D|]. pose proof (known_rep _ _ R) as R'. split; [exact R'|].
  destruct (obj_bytes _ _ R' (rep_ins _ _ R' NE) (or_introl (known_full t W))) as (b2 & Eb2 & H1 & H2). unfold to_hex. rewrite Eb2. cbn [rmap]. do 2 f_equal.
  apply (EncSegwit_fun x); [apply H1, known_full; auto|auto].
Qed.
Lemma read_legacy_tx x b : t_ins x <> [] -> bytes_ok b = true -> EncLegacy x b ->
  exists t, deserialize_hex (bytes_to_hex b) = Ok t /\ RepObj (strip_witness x) t /\ to_hex t = Ok (bytes_to_hex b).
Proof.
  intros NE OK E. destruct (rep_none x (legacy_wf x b E OK)) as (t & R & W).
  assert (NE' : t_ins (strip_witness x) <> []) by (cbn; intros Q; apply map_eq_nil in Q; auto). pose proof (rep_ins _ _ R NE') as NT.
  destruct (obj_bytes _ t R NT (or_intror W)) as (b' & Eb & _ & H). destruct (H W) as [E' _]. apply (EncLegacy_strip x b) in E. rewrite (EncLegacy_fun _ _ _ E E').
  destruct (obj_roundtrip _ t R NT (or_intror W)) as (h & Eh & D). unfold to_hex in Eh. rewrite Eb in Eh. injection Eh as <-.
  eexists. split; [exact D|]. pose proof (known_rep _ _ R) as R'. split; [exact R'|].
  destruct (obj_bytes _ _ R' (rep_ins _ _ R' NE') (or_intror (known_none t W))) as (b2 & Eb2 & H1 & H2). unfold to_hex. rewrite Eb2. cbn [rmap]. do 2 f_equal.
  apply (EncLegacy_fun (strip_witness x)); [apply H2, known_none; auto|auto].
Qed.
(** The transaction id. *)
Lemma txid_encoding {CR : Crypto} x b : t_ins x <> [] -> bytes_ok b = true -> EncSegwit x b \/ EncLegacy x b ->
  exists base, EncLegacy x base /\ calc_txid (bytes_to_hex b) = Ok (bytes_to_hex (rev (sha256 (sha256 base)))).
Proof.
  intros NE OK [E|E].
  - destruct (read_segwit_tx x b NE OK E) as ([v ins outs l] & D & [R] & _). destruct (legacy_repr_spec _ _ _ _ _ R) as (base & EL & HB). exists base. split; auto.
    unfold calc_txid. rewrite D. cbn [bind]. cbn [version TxIns TxOuts locktime] in EL. rewrite EL. reflexivity.
  - destruct (read_legacy_tx x b NE OK E) as ([v ins outs l] & D & [R] & _). destruct (legacy_repr_spec _ _ _ _ _ R) as (base & EL & HB). exists base.
    split; [apply EncLegacy_strip; auto|]. unfold calc_txid. rewrite D. cbn [bind]. cbn [version TxIns TxOuts locktime] in EL. rewrite EL. reflexivity.
Qed.
