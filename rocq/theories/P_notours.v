(** C30: what signing does to inputs that are not the wallet's, for wallets of
    co-signers, and to transactions with no input of the wallet. *)
From Coq Require Import String.
From Verif Require Import F_spend F_cosigntx P_sign P_multi P_wire P_why P_whyprep P_whysign M_wallet P_tx P_create X_world X_toy.

Section WithCrypto.
Context {CR : Crypto} (HO : HashOk CR).

Theorem C30_not_ours_multi ms t us t' x xi j i :
  MsOk ms -> RepObj x t -> sign_tx_obj (Multi ms) t us = Ok t' ->
  nth_error (t_ins x) j = Some xi -> nth_error (TxIns t) j = Some i ->
  (forall u, In u us -> SpendsOutpoint xi u -> ~ OwnedByMulti ms u) ->
  nth_error (TxIns t') j = Some i.
Proof.
  intros N R E Hx Hi U. destruct (C30_frame _ _ _ _ E) as (_ & _ & _ & _ & F). destruct (F j i Hi) as (i' & Hi' & _ & _ & _ & Q).
  rewrite Q in Hi'; auto. apply Forall_forall. intros u Hu [C O]. pose proof R as [[_ H2 _ _ _ _ _]].
  destruct (F2_nth_l _ _ _ _ _ H2 Hx) as (i2 & Hi2 & Ri). rewrite Hi in Hi2. injection Hi2 as <-.
  apply (U u Hu); [apply (spends_outpoint xi i); auto|]. apply (can_sign_multi HO ms u true N C). reflexivity.
Qed.

Lemma same_inputs {A} (l l' : list A) : length l' = length l -> (forall j i, nth_error l j = Some i -> nth_error l' j = Some i) -> l' = l.
Proof.
  revert l'. induction l as [|a l IH]; intros [|b l'] L F; try discriminate; [reflexivity|].
  pose proof (F 0%nat a eq_refl) as H0. cbn in H0. injection H0 as ->. f_equal. apply IH; [cbn in L; lia|]. intros j i H. exact (F (S j) i H).
Qed.

(** Whose coins are the wallet's *)
Definition Owner (sg : signer) (u : Unspent) : Prop := match sg with Single k => OwnedBy (k_public_key k) u | Multi ms => OwnedByMulti ms u end.
Definition Usable (sg : signer) : Prop := match sg with Single k => nonzero_hash (k_public_key k) | Multi ms => MsOk ms end.

(** A wallet that owns none of the coins spent by a transaction returns that
    transaction: the text is the hexadecimal form of what was given, no error
    says that nothing was signed. *)
Theorem C30_outsider sg x t us h : Usable sg -> RepObj x t ->
  (forall xi u, In xi (t_ins x) -> In u us -> SpendsOutpoint xi u -> ~ Owner sg u) ->
  sign_tx sg t us = Ok h -> to_hex t = Ok h.
Proof.
  intros US R NO E. unfold sign_tx in E. destruct (sign_tx_obj sg t us) as [t'|e] eqn:ET; cbn [bind] in E; [|discriminate].
  destruct (C30_frame _ _ _ _ ET) as (V & L & O & N & _).
  assert (I : TxIns t' = TxIns t).
  { apply same_inputs; [exact N|]. intros j i Hi. pose proof R as [[_ H2 _ _ _ _ _]]. destruct (F2_nth_r _ _ _ _ _ H2 Hi) as (xi & Hx & _).
    assert (NX : forall u, In u us -> SpendsOutpoint xi u -> ~ Owner sg u) by (intros u; apply NO; eapply nth_error_In; exact Hx).
    destruct sg as [k|ms]; cbn [Owner Usable] in *; [eapply (C30_not_ours HO k); eauto|eapply (C30_not_ours_multi ms); eauto]. }
  destruct t as [v1 i1 o1 l1], t' as [v2 i2 o2 l2]. cbn in V, L, O, I. subst. exact E.
Qed.

Lemma varint_total v : 0 <= v < 2 ^ 64 -> exists e, int_to_varint v = Ok e.
Proof. intros H. rewrite (varint_ok v H). eauto. Qed.
Lemma no_inputs d ins : (forall i, In i ins -> dict_get (outpoint i) d = None) -> forall j, sign_inputs d ins j = [].
Proof.
  induction ins as [|i ins IH]; intros F j; [reflexivity|]. cbn [sign_inputs]. rewrite (F i (or_introl eq_refl)). apply IH. intros k I. apply F. right. exact I.
Qed.
(** And there is no error at all, for a transaction that can be written and coins that can be looked at. *)
Theorem C30_outsider_ok sg x t us h : Usable sg -> RepObj x t -> length (sg_public_key sg) = 33%nat \/ length (sg_public_key sg) = 65%nat ->
  Forall (fun u => exists b, sg_can_sign sg u = Ok b) us -> Forall (fun u => exists op, UnspentOutpoint u op) us ->
  (forall xi u, In xi (t_ins x) -> In u us -> SpendsOutpoint xi u -> ~ Owner sg u) ->
  to_hex t = Ok h -> sign_tx sg t us = Ok h.
Proof.
  intros US R LP CS UO NO H. destruct (build_dict_total sg us CS UO []) as (d & Ed).
  pose proof R as [[_ H2 _ N1 _ N2 _]].
  assert (D : forall i, In i (TxIns t) -> dict_get (outpoint i) d = None).
  { intros i I. apply In_nth_error in I as (j & Hj). destruct (F2_nth_r _ _ _ _ _ H2 Hj) as (xi & Hx & Ri).
    apply (dict_match _ _ _ (outpoint i) Ed). apply Forall_forall. intros u Hu [C O].
    apply (NO xi u (nth_error_In _ _ Hx) Hu); [apply (spends_outpoint xi i); auto|].
    destruct sg as [k|ms]; cbn [Owner Usable] in *; [apply (can_sign_single HO k u true US C)|apply (can_sign_multi HO ms u true US C)]; reflexivity. }
  assert (PU : exists p, script_push (zlen (sg_public_key sg)) = Ok p).
  { unfold zlen. destruct LP as [-> | ->]; eexists; vm_compute; reflexivity. }
  destruct PU as (push & PU).
  assert (TS : exists b, tx_is_segwit t = Ok b).
  { unfold to_hex in H. unfold tx_is_segwit. destruct (tx_bytes t) as [b|]; [|discriminate]. eexists. reflexivity. }
  destruct TS as (b & TS).
  unfold sign_tx, sign_tx_obj. rewrite Ed. cbn [bind]. rewrite (no_inputs d (TxIns t) D 0%nat). rewrite TS, PU. cbn [bind prepare_loop].
  unfold calculate_preimages. cbn [TxIns TxOuts].
  assert (V1 : exists v, int_to_varint (zlen (TxIns t)) = Ok v) by (apply varint_total; unfold zlen in *; lia). destruct V1 as (v1 & ->). assert (V2 : exists v, int_to_varint (zlen (TxOuts t)) = Ok v) by (apply varint_total; unfold zlen in *; lia). destruct V2 as (v2 & ->).
  cbn [bind mapM combine sign_loop]. destruct t as [v i o l]. exact H.
Qed.

(** The same for texts: whoever signs the hexadecimal form of a transaction with
    coins that are not theirs gets the same text back. *)
Theorem C30_outsider_text {W Amt : Type} {WD : World W Amt} sg x b u l (s : @Wallet W) : Usable sg -> length (sg_public_key sg) = 33%nat \/ length (sg_public_key sg) = 65%nat ->
  Forall (fun u => exists b, sg_can_sign sg u = Ok b) (u :: l) -> Forall (fun u => exists op, UnspentOutpoint u op) (u :: l) -> t_ins x <> [] -> bytes_ok b = true ->
  EncSegwit x b \/ EncLegacy x b ->
  (forall xi v, In xi (t_ins x) -> In v (u :: l) -> SpendsOutpoint xi v -> ~ Owner sg v) ->
  sign_transaction sg (Text (bytes_to_hex b)) (Some (u :: l)) s = (Ok (bytes_to_hex b), s).
Proof.
  intros US LP CS UO NI OK EN NO. destruct (C24_reads_any x b NI OK) as (RS & RL).
  assert (T : exists y t, deserialize_hex (bytes_to_hex b) = Ok t /\ RepObj y t /\ to_hex t = Ok (bytes_to_hex b) /\
    forall yi, In yi (t_ins y) -> exists xi, In xi (t_ins x) /\ forall v, SpendsOutpoint yi v -> SpendsOutpoint xi v).
  { destruct EN as [EN|EN].
    - destruct (RS EN) as (t & D & R & H). exists x, t. split; [exact D|]. split; [exact R|]. split; [exact H|]. intros yi I. exists yi. auto.
    - destruct (RL EN) as (t & D & R & H). exists (strip_witness x), t. split; [exact D|]. split; [exact R|]. split; [exact H|].
      intros yi I. unfold strip_witness in I. cbn [t_ins] in I. apply in_map_iff in I as (xi & <- & I). exists xi. split; [exact I|]. intros v V. exact V. }
  destruct T as (y & t & D & R & H & SP). destruct (C111_sign_text sg (bytes_to_hex b) u l s) as (r & E' & M). rewrite D in M. rewrite E', M. f_equal.
  apply (C30_outsider_ok sg y t (u :: l) (bytes_to_hex b) US R LP CS UO); [|exact H]. intros yi v Iy Iv V. destruct (SP yi Iy) as (xi & Ix & G). apply (NO xi v Ix Iv (G v V)).
Qed.
End WithCrypto.

(** A co-signer is given a transaction that spends the coins of somebody else. *)
Definition outsider : MultiSig := wallet toy_env (toy_k 5).
Definition outsider_signs : bool := match @sign_tx toy (Multi outsider) (toy_t [0]) toy_us, to_hex (toy_t [0]) with Ok h, Ok h' => list_eqb h h' | _, _ => false end.
Example C30_outsider_case : @Usable toy (Multi outsider) /\ RepObj toy_x (toy_t [0]) /\
  (forall xi u, In xi (t_ins toy_x) -> In u toy_us -> SpendsOutpoint xi u -> ~ @Owner toy (Multi outsider) u) /\ outsider_signs = true.
Proof.
  split; [vm_compute; reflexivity|]. split; [apply toy_rep; auto|]. split; [|vm_compute; reflexivity].
  intros xi u _ [<-|[<-|[]]] _ [H|[_ H]]; vm_compute in H; discriminate H.
Qed.

Definition outsider_bytes : bytes := match tx_bytes (toy_t []) with Ok b => b | Raise _ => [] end.
Lemma outsider_encodes : EncLegacy toy_x outsider_bytes.
Proof.
  pose proof (toy_rep [] (or_introl eq_refl)) as [R]. destruct (C25_wire_format _ _ _ _ _ R) as (b & E & _ & L).
  assert (Q : tx_bytes (new_tx (version (toy_t [])) (TxIns (toy_t [])) (TxOuts (toy_t [])) (locktime (toy_t []))) = tx_bytes (toy_t [])) by (vm_compute; reflexivity).
  unfold outsider_bytes. rewrite <- Q, E. apply L. intros i [<-|[<-|[<-|[]]]]; split; reflexivity.
Qed.
Example C30_outsider_text_case :
  @sign_transaction toy _ _ toy_world (Multi outsider) (Text (bytes_to_hex outsider_bytes)) (Some toy_us) wallet0 = (Ok (bytes_to_hex outsider_bytes), wallet0).
Proof.
  destruct C30_outsider_case as (US & _ & NO & _). unfold toy_us in NO |- *.
  apply (@C30_outsider_text toy toy_ok _ _ toy_world (Multi outsider) toy_x outsider_bytes _ _ wallet0 US); [vm_compute; auto| | |discriminate|vm_compute; reflexivity|right; exact outsider_encodes|exact NO].
  - repeat (apply Forall_cons; [exists false; vm_compute; reflexivity|]). apply Forall_nil.
  - repeat (apply Forall_cons; [eexists; eexists; eexists; split; [vm_compute; reflexivity|]; split; [vm_compute; reflexivity|reflexivity]|]). apply Forall_nil.
Qed.

Print Assumptions C30_not_ours_multi.
Print Assumptions C30_outsider.
Print Assumptions C30_outsider_ok.
Print Assumptions C30_outsider_text.
