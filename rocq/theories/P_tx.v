(** C24-C27: serialisation, transaction ids, (non-)strictness. *)
From Coq Require Import String.
From Verif Require Import F_tx X_crypto S_Hex.

(** ** C24: transactions survive serialisation.
    [Rep x v ins outs l] (F_tx.v) says that the arguments given to TxObj(...)
    are wire sized: they denote the abstract transaction x. *)
Theorem C24_roundtrip x v ins outs l :
  Rep x v ins outs l -> ins <> [] ->
  let t := new_tx v ins outs l in
  exists h t', to_hex t = Ok h /\ deserialize_hex h = Ok t' /\
    version t' = v /\ locktime t' = l /\ TxOuts t' = outs /\
    Forall2 (fun i i' => txid i' = txid i /\ txindex i' = txindex i /\ script_sig i' = script_sig i /\
               script_sig_len i' = script_sig_len i /\ sequence i' = sequence i /\ witness i' = witness i)
      (TxIns t) (TxIns t') /\
    (exists b, tx_bytes t = Ok b /\ h = bytes_to_hex b /\ deserialize b = Ok t') /\
    to_hex t' = Ok h.
Proof.
  intros R NE t. destruct (roundtrip_bytes x v ins outs l [] R (or_introl NE)) as (b & E & D).
  rewrite app_nil_r in D. pose proof (tx_bytes_ok _ _ _ _ _ _ R E) as OK. subst t. set (t := new_tx v ins outs l) in *.
  exists (bytes_to_hex b). eexists. split; [unfold to_hex; rewrite E; reflexivity|].
  split; [rewrite deserialize_hex_bytes by auto; exact D|]. cbn [version locktime TxOuts TxIns].
  split; auto. split; auto. split; auto. split; [|split].
  - clear. generalize (TxIns t) as is. induction is as [|i r IH]; cbn [map]; constructor; auto. cbn. auto 10.
  - exists b. auto.
  - unfold to_hex. assert (Q : tx_bytes (mkTx v (map known_in (TxIns t)) outs l) = tx_bytes t).
    { unfold tx_bytes. cbn [TxIns TxOuts version locktime]. unfold zlen. rewrite map_length, !map_map. reflexivity. }
    rewrite Q, E. reflexivity.
Qed.
Print Assumptions C24_roundtrip.

(** Also for no inputs, unless there is exactly one output. *)
Theorem C24_roundtrip_no_input x v outs l :
  Rep x v [] outs l -> length outs <> 1%nat ->
  exists h, to_hex (new_tx v [] outs l) = Ok h /\ deserialize_hex h = Ok (new_tx v [] outs l).
Proof.
  intros R NE. destruct (roundtrip_bytes x v [] outs l [] R (or_intror NE)) as (b & E & D).
  rewrite app_nil_r in D. exists (bytes_to_hex b). split; [unfold to_hex; rewrite E; reflexivity|].
  rewrite deserialize_hex_bytes by (eapply tx_bytes_ok; eauto). exact D.
Qed.
Print Assumptions C24_roundtrip_no_input.

(** The hypotheses are met by every abstract transaction within the wire limits. *)
Theorem C24_wellformed_exist x : tx_wf x -> exists v ins outs l, Rep x v ins outs l.
Proof. apply Rep_exists. Qed.
Print Assumptions C24_wellformed_exist.

Definition ex_tx : tx :=
  Tx 1 [Tin (repeat 7 32) 3 [0x51] 0xffffffff []; Tin (repeat 9 32) 0 [] 5 [[1; 2]; []; repeat 4 300]]
     [Tout 5000000000 [0x6a; 1; 9]] 0.
Example ex_tx_wf : tx_wf ex_tx.
Proof.
  split; [cbn; lia|]. split; [cbn; lia|]. split; [|split; [cbn; lia|split; [|cbn; lia]]].
  - constructor; [|constructor; [|constructor]]; repeat split; try reflexivity; try (cbn; lia); repeat constructor.
  - constructor; [|constructor]. split; [cbn; lia|split; reflexivity].
Qed.

(** ** C25: the serialisation is the wire format *)
Theorem C25_wire_format x v ins outs l :
  Rep x v ins outs l ->
  exists b, tx_bytes (new_tx v ins outs l) = Ok b /\
    ((exists i, In i ins /\ (segwit_input i = true \/ witness i <> [])) -> EncSegwit x b) /\
    ((forall i, In i ins -> segwit_input i = false /\ witness i = []) -> EncLegacy x b).
Proof.
  intros R. destruct (tx_bytes_spec x v ins outs l R) as (b & E & S). exists b. split; auto. split.
  - intros (i & Hi & Hs). replace (seg_ins ins) with true in S; auto.
    symmetry. apply existsb_exists. exists i. split; auto. unfold in_is_segwit.
    destruct Hs as [->|Hs]; auto. destruct (witness i); [contradiction|]. apply orb_true_r.
  - intros F. destruct (seg_ins ins) eqn:Q; auto. exfalso. apply existsb_exists in Q as (i & Hi & Hs).
    destruct (F i Hi) as [F1 F2]. unfold in_is_segwit in Hs. rewrite F1, F2 in Hs. discriminate.
Qed.
Print Assumptions C25_wire_format.

(** ** C26: transaction ids *)
Theorem C26_txid_standard {CR : Crypto} x v ins outs l :
  Rep x v ins outs l -> ins <> [] ->
  exists h b, to_hex (new_tx v ins outs l) = Ok h /\ EncLegacy x b /\
    calc_txid h = Ok (bytes_to_hex (rev (sha256 (sha256 b)))).
Proof.
  intros R NE. destruct (roundtrip_bytes x v ins outs l [] R (or_introl NE)) as (b & E & D).
  rewrite app_nil_r in D. pose proof (tx_bytes_ok _ _ _ _ _ _ R E) as OK.
  destruct (legacy_repr_spec x v ins outs l R) as (bl & L & EL).
  exists (bytes_to_hex b), bl. split; [unfold to_hex; rewrite E; reflexivity|]. split; auto.
  unfold calc_txid. rewrite deserialize_hex_bytes, D by auto. cbn [bind].
  rewrite legacy_known. replace (legacy_repr _) with (Ok bl); [reflexivity|].
  rewrite <- L, <- (legacy_new v ins outs l). reflexivity.
Qed.
Print Assumptions C26_txid_standard.

Theorem C26_witness_independent {CR : Crypto} x x' v ins ins' outs l :
  Rep x v ins outs l -> Rep x' v ins' outs l -> ins <> [] ->
  strip_witness x = strip_witness x' ->
  exists h h' i, to_hex (new_tx v ins outs l) = Ok h /\ to_hex (new_tx v ins' outs l) = Ok h' /\
    calc_txid h = Ok i /\ calc_txid h' = Ok i.
Proof.
  intros R R' NE ES.
  assert (NE' : ins' <> []).
  { intros ->. pose proof (F2_len _ _ _ (rp_ins _ _ _ _ _ R')) as L'. pose proof (F2_len _ _ _ (rp_ins _ _ _ _ _ R)) as L.
    apply (f_equal (fun t => length (t_ins t))) in ES. cbn in ES. rewrite !map_length in ES. rewrite L, L' in ES.
    destruct ins; [contradiction|discriminate]. }
  destruct (C26_txid_standard x v ins outs l R NE) as (h & b & H1 & H2 & H3).
  destruct (C26_txid_standard x' v ins' outs l R' NE') as (h' & b' & H1' & H2' & H3').
  exists h, h'. eexists. repeat split; eauto. rewrite H3'. do 4 f_equal.
  apply EncLegacy_strip in H2, H2'. rewrite ES in H2. rewrite (EncLegacy_fun _ _ _ H2 H2'). reflexivity.
Qed.
Print Assumptions C26_witness_independent.

(** ** C27: deserialisation is not strict *)
Theorem C27_trailing_bytes_ignored x v ins outs l tail :
  Rep x v ins outs l -> ins <> [] ->
  exists b t, tx_bytes (new_tx v ins outs l) = Ok b /\ deserialize b = Ok t /\ deserialize (b ++ tail) = Ok t.
Proof.
  intros R NE. destruct (roundtrip_bytes x v ins outs l [] R (or_introl NE)) as (b & E & D).
  destruct (roundtrip_bytes x v ins outs l tail R (or_introl NE)) as (b' & E' & D').
  rewrite E in E'. inv E'. rewrite app_nil_r in D. eauto 6.
Qed.
Print Assumptions C27_trailing_bytes_ignored.

(** Cutting k bytes off the end, 0 < k <= 4, goes unnoticed. *)
Theorem C27_truncated_locktime x v ins outs l k :
  Rep x v ins outs l -> ins <> [] -> (k <= 4)%nat ->
  exists b t, tx_bytes (new_tx v ins outs l) = Ok b /\
    deserialize (firstn (length b - k) b) = Ok t /\
    locktime t = firstn (4 - k) l /\ version t = v /\ TxOuts t = outs /\
    map in_bytes (TxIns t) = map in_bytes ins.
Proof.
  intros R NE Hk. pose proof R as [H1 H2 H3 H4 H5 H6 H7]. pose proof (LEnum_length _ _ _ H7) as L4.
  destruct (cs_exists ins H4) as (ni & Ei & Ci). destruct (cs_exists outs H6) as (no & Eo & Co).
  assert (CUT : forall p, firstn (length (p ++ l) - k) (p ++ l) = p ++ firstn (4 - k) l).
  { intros p. rewrite app_length, L4. replace (length p + 4 - k)%nat with (length p + (4 - k))%nat by lia.
    rewrite firstn_app. rewrite firstn_all2 by lia. do 2 f_equal. lia. }
  assert (TK : ztake 4 (firstn (4 - k) l) = firstn (4 - k) l).
  { unfold ztake, zlen. rewrite firstn_firstn, firstn_length, L4. f_equal. lia. }
  destruct (seg_ins ins) eqn:S.
  - rewrite new_tx_seg by auto. unfold tx_bytes. cbn [TxIns TxOuts version locktime].
    pose proof (fill_witness_ne ins (seg_ins_ne _ S)) as NW.
    assert (Zf : zlen (map fill ins) = zlen ins) by (unfold zlen; rewrite map_length; auto).
    rewrite Zf, Ei. cbn [bind]. rewrite Eo. cbn [bind].
    assert (NEf : map fill ins <> []) by (destruct ins; [contradiction|discriminate]).
    rewrite <- Zf in Ei.
    pose proof (deserialize_segwit x v (map fill ins) outs l (firstn (4 - k) l) ni no (Rep_fill _ _ _ _ _ R) Ei Eo NEf (wits_fill _ _ _ _ _ R)) as D.
    rewrite TK in D. eexists. eexists. split; [reflexivity|]. split.
    + rewrite <- D. destruct (concat (map witness (map fill ins))) as [|w0 w] eqn:W; [contradiction|].
      match goal with |- deserialize (firstn _ ?b) = _ =>
        replace b with ((v ++ [0; 1] ++ body_seg ni no (map fill ins) outs ++ w0 :: w) ++ l)
          by (unfold body_seg, MARKER, FLAG; cbn [app]; rewrite <- !app_assoc; cbn [app]; rewrite <- !app_assoc; reflexivity) end.
      rewrite CUT, <- !app_assoc. reflexivity.
    + cbn [locktime version TxOuts TxIns]. repeat split. rewrite !map_map. reflexivity.
  - rewrite new_tx_legacy by auto. unfold tx_bytes. cbn [TxIns TxOuts version locktime].
    rewrite Ei. cbn [bind]. rewrite Eo. cbn [bind]. rewrite no_segwit_witness by auto.
    assert (IS : is_segwit_bytes (v ++ body_seg ni no ins outs ++ firstn (4 - k) l) = false).
    { unfold body_seg. rewrite <- !app_assoc. eapply is_segwit_cs; [eapply LEnum_length; eauto|exact Ci|].
      destruct ins; [contradiction|]. unfold zlen. simpl. lia. }
    pose proof (deserialize_legacy x v ins outs l (firstn (4 - k) l) ni no R Ei Eo IS) as D. rewrite TK in D.
    eexists. eexists. split; [reflexivity|]. split.
    + rewrite <- D. cbn [app].
      match goal with |- deserialize (firstn _ ?b) = _ =>
        replace b with ((v ++ body_seg ni no ins outs) ++ l) by (unfold body_seg; rewrite <- !app_assoc; reflexivity) end.
      rewrite CUT, <- !app_assoc. reflexivity.
    + cbn [locktime version TxOuts TxIns]. repeat split. rewrite !map_map. reflexivity.
Qed.
Print Assumptions C27_truncated_locktime.

(** A witness item cut short is accepted with the length it declares. *)
Theorem C27_truncated_item s n k : CompactSize (zlen s) n ->
  read_segwit_string (n ++ firstn k s) = Ok (n ++ firstn k s, []).
Proof.
  intros C. unfold read_segwit_string. rewrite (read_var_cs _ _ (firstn k s) C). cbn [bind].
  assert (E : read_bytes (firstn k s) (zlen s) = (firstn k s, [])).
  { unfold read_bytes, ztake, zdrop, zlen.
    rewrite firstn_all2, skipn_all2; rewrite ?firstn_length; auto; lia. }
  rewrite E. destruct (cs_exists s) as (m & Em & Cm).
  { inversion C; try lia; match goal with H : LEnum _ _ _ |- _ => apply LEnum_range in H; cbn in H; lia end. }
  rewrite Em. cbn [bind]. rewrite (CompactSize_fun _ _ _ Cm C). reflexivity.
Qed.
Print Assumptions C27_truncated_item.
Example C27_item_cut : CompactSize (zlen [7; 8; 9]) [3] /\ read_segwit_string [3; 7] = Ok ([3; 7], []).
Proof. split; [constructor; cbn; lia|reflexivity]. Qed.

(** A transaction without inputs and with one output is taken for segwit. *)
Theorem C27_no_input_one_output x v o l :
  Rep x v [] [o] l ->
  exists b, tx_bytes (new_tx v [] [o] l) = Ok b /\ EncLegacy x b /\ is_segwit_bytes b = true.
Proof.
  intros R. destruct (C25_wire_format x v [] [o] l R) as (b & E & _ & L). exists b. split; auto.
  split; [apply L; intros i []|]. unfold tx_bytes, new_tx in E. cbn in E. inv E.
  apply (is_segwit_marker v). eapply LEnum_length. apply R.
Qed.
Print Assumptions C27_no_input_one_output.

(** and is read back as something else, or not at all. *)
Theorem C27_no_input_refuted :
  exists x v o l b, Rep x v [] [o] l /\ tx_bytes (new_tx v [] [o] l) = Ok b /\
    deserialize b <> Ok (new_tx v [] [o] l) /\ deserialize_hex (bytes_to_hex b) = Raise ValueError.
Proof.
  exists (Tx 1 [] [Tout 5 []] 0), [1; 0; 0; 0], (mkOut [5; 0; 0; 0; 0; 0; 0; 0] [0] []), [0; 0; 0; 0]. eexists.
  split; [constructor; try (cbn; lia); repeat constructor; try (cbn; lia)|].
  - exact (LE4 1 ltac:(lia)).
  - exact (LE8 5 ltac:(lia)).
  - exact (LE4 0 ltac:(lia)).
  - split; [vm_compute; reflexivity|]. split; [vm_compute; discriminate|vm_compute; reflexivity].
Qed.
Print Assumptions C27_no_input_refuted.

(** ** Conformance with the transactions of the test suite *)
Definition final_tx_1 : string := "01000000018878399d83ec25c627cfbf753ff9ca3602373eac437ab2676154a3c2da23adf3010000008a473044022068b8dce776ef1c071f4c516836cdfb358e44ef58e0bf29d6776ebdc4a6b719df02204ea4a9b0f4e6afa4c229a3f11108ff66b17895015afa0c26c4bbc2b3ba1a1cc60141043d5c2875c9bd116875a71a5db64cffcb13396b163d039b1d932782489180433476a4352a2add00ebb0d5c94c515b72eb10f1fd8f3f03b42f4a2b255bfc9aa9e3ffffffff0250c30000000000001976a914e7c1345fc8f87c68170b3aa798a956c2fe6a9eff88ac0888fc04000000001976a91492461bde6283b461ece7ddf4dbf1e0a48bd113d888ac00000000".
Definition segwit_tx_1 : string := "010000000001021f9c125fc1c14ef7f4b03b4b7dad7be4c3b054d7c266689a456adaffd6ec7a31010000006a47304402201cfc264e99287d17fd19a9d8d82746b97e80a2e94e5bbe3ef73a44a3df2399e702207152926699eb4555a88a3243c66406276e9aba808c24049e7dedba27b057b1b00121021816325d19fd34fd87a039e83e35fc9de3c9de64a501a6684b9bf9946364fbb7ffffffff6e6d2db49c4bf5bb97e88830058a58eb1c4d092e980b2bb663c81632f5dd8b0b0100000017160014175e9f8b21d4f2f76a7360458f90717e08fbcdb6ffffffff0280f0fa02000000001600140ee268c86d05f290add1bfc9bdfc3992d785bce2e84ef5050000000017a9146a45a03574460e17a1d75d9535d90bad20d8d79b870002473044022033a25adc3230a0b93028520b2bd089e26ce366bcf22064d41f6c5a3c200d956302201f45ef76dde3fc27f741f9fc93e6280dac991c364ee578eafb3348db662339000121037d696886864509ed63044d8f1bcd53b8def1247bd2bbe056ff81b23e8c09280f00000000".
Definition final_tx_segwit : string := "0100000000010288d3b28dbb7d24dd4ff292534dec44bdb9eca73c3c9577e4d7fc707771229cf0000000006b4830450221008dd5c2feb30d40dd621afef413d3abc285d39aa0716233d7ccbc56a50678ebc4022005be97c4e432d373885b20ae822c432f96f78ad290a191f060730997ade095b00121021816325d19fd34fd87a039e83e35fc9de3c9de64a501a6684b9bf9946364fbb7ffffffffcbd4b41660d8d348c15fc430deb5fd55d62cb756b36d1c5b9f3c5af9e14e2cf40000000017160014905aa72f3d1747094a24d3adbc38905bb451ffc8ffffffff0280f0fa020000000017a914ea654a94b18eb41ce290c135cccf9f348e7856a28770aaf0080000000017a9146015d175e191e6e5b99211e3ffc6ea7658cb051a870002473044022073604374fdbd121d8cf4facb19a553630d145e1a1405d8144d2c0cca77da30ba022004a47a760b6bc68e99b88c1febfd8620d6bfd4f609b83ee1c39f77f4689f69a20121021816325d19fd34fd87a039e83e35fc9de3c9de64a501a6684b9bf9946364fbb700000000".
Definition unsigned_tx_batch : string := "010000000001024623e78d68e72b428eb4f53f73086ad824a2c2b6be906e3113ab2afc494406640000000000ffffffffe2ded7092c8087f18343b716586ea047c060a36952a308fabf7565133907af370100000000ffffffff0200286bee000000001600140ee268c86d05f290add1bfc9bdfc3992d785bce2505c9a3b0000000017a914d35515db546bb040e61651150343a218c87b471e87000000000000".

(* repo: tests/test_transaction.py TestCalcTxId *)
Example txid_legacy : @calc_txid hash_only (str final_tx_1)
  = Ok (str "e6922a6e3f1ff422113f15543fbe1340a727441202f55519640a70ac4636c16f").
Proof. vm_compute. reflexivity. Qed.
Example txid_segwit : @calc_txid hash_only (str segwit_tx_1)
  = Ok (str "a103ed36e9afee8b4001b1c3970ba8cd9839ff95e8b8af3fbe6016f6287bf9c6").
Proof. vm_compute. reflexivity. Qed.
Example reserialise :
  map (fun s => t <- deserialize_hex (str s) ;; to_hex t) [final_tx_1; segwit_tx_1; final_tx_segwit; unsigned_tx_batch]
  = map (fun s => Ok (str s)) [final_tx_1; segwit_tx_1; final_tx_segwit; unsigned_tx_batch].
Proof. vm_compute. reflexivity. Qed.
