(** Serialisation and deserialisation of transactions. *)
From Verif Require Export F_hex M_tx S_Tx S_Wire.

Lemma LEnum_length n v b : LEnum n v b -> length b = n.
Proof. induction 1; simpl; auto. Qed.
Lemma LEnum_ok n v b : LEnum n v b -> bytes_ok b = true.
Proof.
  induction 1 as [|n v b r H L IH]; auto. rewrite bytes_ok_cons, IH, andb_true_r. apply is_byte_iff; auto.
Qed.
Lemma LEnum_range n v b : LEnum n v b -> 0 <= v < 256 ^ Z.of_nat n.
Proof.
  induction 1 as [|n v b r H L IH]; [simpl; lia|]. rewrite Nat2Z.inj_succ, Z.pow_succ_r by lia. lia.
Qed.
Lemma LEnum_le_bytes n v : 0 <= v < 256 ^ Z.of_nat n -> LEnum n v (le_bytes n v).
Proof.
  revert v. induction n as [|n IH]; intros v H; cbn [le_bytes].
  - simpl in H. replace v with 0 by lia. constructor.
  - rewrite Nat2Z.inj_succ, Z.pow_succ_r in H by lia.
    assert (E : v = v mod 256 + 256 * (v / 256)) by (rewrite Z.add_comm; apply Z.div_mod; lia).
    rewrite E at 1. constructor; [apply Z.mod_pos_bound; lia|]. apply IH.
    split; [apply Z.div_pos; lia|apply Z.div_lt_upper_bound; lia].
Qed.
Lemma LEnum_cons_inv n w c r : LEnum (S n) w (c :: r) -> exists v, 0 <= c < 256 /\ w = c + 256 * v /\ LEnum n v r.
Proof. intros H. remember (c :: r) as l eqn:El. remember (S n) as m eqn:Em. destruct H; [discriminate|].
  injection El as -> ->. injection Em as ->. eauto. Qed.
Lemma LEnum_fun n v b b' : LEnum n v b -> LEnum n v b' -> b = b'.
Proof.
  intros H. revert b'. induction H as [|n v b r Hb L IH]; intros b' H'.
  - apply LEnum_length in H'. destruct b'; [auto|discriminate].
  - destruct b' as [|c r']; [apply LEnum_length in H'; discriminate|].
    apply LEnum_cons_inv in H' as (v' & Hc & E & L'). assert (v = v') by lia. subst v'.
    assert (b = c) by lia. subst c. f_equal. auto.
Qed.
Lemma LEnum_inj n v v' b : LEnum n v b -> LEnum n v' b -> v = v'.
Proof.
  intros H. revert v'. induction H as [|n v b r Hb L IH]; intros v' H'.
  - remember 0%nat as m. remember (@nil Z) as l. destruct H'; [auto|discriminate].
  - apply LEnum_cons_inv in H' as (w & Hc & -> & L'). rewrite (IH _ L'). reflexivity.
Qed.

Lemma CompactSize_ok v n : CompactSize v n -> bytes_ok n = true.
Proof. intros H. apply varint_spec in H. eapply varint_bytes_ok; eauto. Qed.
Lemma CompactSize_fun v n n' : CompactSize v n -> CompactSize v n' -> n = n'.
Proof. intros H H'. apply varint_spec in H, H'. congruence. Qed.
Lemma CompactSize_ne v n : CompactSize v n -> n <> [].
Proof. intros H C. subst. inversion H. Qed.

Lemma ztake_app {A} (a b : list A) : ztake (zlen a) (a ++ b) = a.
Proof. unfold ztake. rewrite zlen_app. replace (Z.min _ _) with (zlen a) by (pose proof (zlen_nonneg b); lia).
  unfold zlen. rewrite Nat2Z.id, firstn_app, Nat.sub_diag, firstn_O, firstn_all, app_nil_r. reflexivity. Qed.
Lemma zdrop_app {A} (a b : list A) : zdrop (zlen a) (a ++ b) = b.
Proof. unfold zdrop. rewrite zlen_app. replace (Z.min _ _) with (zlen a) by (pose proof (zlen_nonneg b); lia).
  unfold zlen. rewrite Nat2Z.id, skipn_app, Nat.sub_diag, skipn_all. reflexivity. Qed.

Lemma read_bytes_app a b n : n = zlen a -> read_bytes (a ++ b) n = (a, b).
Proof. intros ->. unfold read_bytes. rewrite ztake_app, zdrop_app. reflexivity. Qed.

Lemma read_bytes_len a b n : Z.of_nat (length a) = n -> read_bytes (a ++ b) n = (a, b).
Proof. intros H. apply read_bytes_app. unfold zlen. auto. Qed.

Lemma read_var_cs v n r : CompactSize v n -> read_var_int (n ++ r) = Ok (v, r).
Proof. intros H. apply read_var_int_varint. apply varint_spec. auto. Qed.

Lemma read_var_string_ok n s r : CompactSize (zlen s) n -> read_var_string (n ++ s ++ r) = Ok (s, r).
Proof. intros H. unfold read_var_string. rewrite (read_var_cs _ _ _ H). cbn [bind]. rewrite read_bytes_app; auto. Qed.

Lemma read_segwit_ok s b r : VarBytes s b -> read_segwit_string (b ++ r) = Ok (b, r).
Proof.
  intros (n & H & ->). unfold read_segwit_string. rewrite <- app_assoc, (read_var_cs _ _ _ H). cbn [bind].
  rewrite read_bytes_app by reflexivity. apply varint_spec in H. unfold zlen in *. rewrite H. reflexivity.
Qed.

Lemma read_stack_ok w b r : EncStack w b -> read_witness (b ++ r) = Ok (b, r).
Proof.
  intros (n & c & Hn & HS & ->). unfold read_witness. rewrite <- app_assoc, (read_var_cs _ _ _ Hn). cbn [bind].
  pose proof Hn as Hn'. apply varint_spec in Hn'. rewrite Hn'. cbn [bind]. rewrite Nat2Z.id.
  assert (G : exists ws, read_n read_segwit_string (length w) (c ++ r) = Ok (ws, r) /\ concat ws = c).
  { clear Hn Hn'. induction HS as [|a l b c Ha HS IH]; cbn [length read_n]; [exists []; auto|].
    rewrite <- app_assoc, (read_segwit_ok _ _ _ Ha). cbn [bind]. destruct IH as (ws & -> & <-). cbn [bind].
    exists (b :: ws). auto. }
  destruct G as (ws & -> & <-). reflexivity.
Qed.

(** ** Model objects that represent a specification transaction *)
Record RepIn (x : tin) (i : TxIn) : Prop := {
  ri_txid : txid i = i_txid x;
  ri_txid_len : length (i_txid x) = 32%nat;
  ri_txid_ok : bytes_ok (i_txid x) = true;
  ri_vout : LEnum 4 (i_vout x) (txindex i);
  ri_script : script_sig i = i_script x;
  ri_script_ok : bytes_ok (i_script x) = true;
  ri_script_len : CompactSize (Z.of_nat (length (i_script x))) (script_sig_len i);
  ri_seq : LEnum 4 (i_seq x) (sequence i)
}.
(** The witness field: empty for no witness, or the encoded stack. *)
Definition RepWit (x : tin) (i : TxIn) : Prop :=
  Forall (fun s => bytes_ok s = true) (i_wit x) /\
  ((witness i = [] /\ i_wit x = []) \/ EncStack (i_wit x) (witness i)).
Record RepOut (x : tout) (o : TxOut) : Prop := {
  ro_amount : LEnum 8 (o_value x) (out_amount o);
  ro_script : script_pubkey o = o_script x;
  ro_script_ok : bytes_ok (o_script x) = true;
  ro_script_len : CompactSize (Z.of_nat (length (o_script x))) (script_pubkey_len o)
}.

Lemma RepIn_enc x i : RepIn x i -> EncIn x (in_bytes i).
Proof.
  intros [H1 H2 H2' H3 H4 H4' H5 H6]. exists (txindex i), (script_sig_len i ++ script_sig i), (sequence i).
  repeat split; auto.
  - exists (script_sig_len i). split; auto. congruence.
  - unfold in_bytes. rewrite H1, <- !app_assoc. reflexivity.
Qed.
Lemma RepOut_enc x o : RepOut x o -> EncOut x (out_bytes o).
Proof.
  intros [H1 H2 H2' H3]. exists (out_amount o), (script_pubkey_len o ++ script_pubkey o). repeat split; auto.
  exists (script_pubkey_len o). split; auto. congruence.
Qed.

Lemma EncSeq_map {A B} (E : A -> bytes -> Prop) (R : A -> B -> Prop) (f : B -> bytes) l m :
  (forall a b, R a b -> E a (f b)) -> Forall2 R l m -> EncSeq E l (concat (map f m)).
Proof. intros H. induction 1; cbn [map concat]; constructor; auto. Qed.

Definition clear_in (i : TxIn) : TxIn :=
  mkIn (script_sig i) (script_sig_len i) (txid i) (txindex i) [] None (sequence i) false.
(** What deserialisation can restore: everything but the amount and the flag. *)
Definition known_in (i : TxIn) : TxIn :=
  mkIn (script_sig i) (script_sig_len i) (txid i) (txindex i) (witness i) None (sequence i) false.

Lemma read_in_ok x i r : RepIn x i -> read_in (in_bytes i ++ r) = Ok (clear_in i, r).
Proof.
  intros [H1 H2 H2' H3 H4 H4' H5 H6]. unfold read_in, in_bytes. rewrite <- !app_assoc.
  rewrite read_bytes_len by (rewrite H1, H2; reflexivity).
  rewrite read_bytes_len by (rewrite (LEnum_length _ _ _ H3); reflexivity).
  rewrite read_var_string_ok by (unfold zlen; rewrite H4; auto). cbn [bind].
  rewrite read_bytes_len by (rewrite (LEnum_length _ _ _ H6); reflexivity).
  unfold new_in. rewrite <- H4 in H5. fold (zlen (script_sig i)) in H5. apply varint_spec in H5. rewrite H5. reflexivity.
Qed.
Lemma read_out_ok x o r : RepOut x o -> read_out (out_bytes o ++ r) = Ok (o, r).
Proof.
  intros [H1 H2 H2' H3]. unfold read_out, out_bytes. rewrite <- !app_assoc.
  rewrite read_bytes_len by (rewrite (LEnum_length _ _ _ H1); reflexivity).
  rewrite read_var_string_ok by (unfold zlen; rewrite H2; auto). cbn [bind].
  unfold new_out. rewrite <- H2 in H3. fold (zlen (script_pubkey o)) in H3. apply varint_spec in H3. rewrite H3.
  destruct o; reflexivity.
Qed.

Lemma read_n_ok {A B} (R : A -> B -> Prop) (f : B -> bytes) (g : B -> B) rd l m r :
  (forall a b r, R a b -> rd (f b ++ r) = Ok (g b, r)) -> Forall2 R l m ->
  read_n rd (length m) (concat (map f m) ++ r) = Ok (map g m, r).
Proof.
  intros H F. induction F as [|a b l m Hab F IH]; cbn [length read_n map concat]; auto.
  rewrite <- app_assoc, (H a b _ Hab). cbn [bind]. rewrite IH. reflexivity.
Qed.

(** Witness fields after the constructor. *)
Definition wit_full (x : tin) (i : TxIn) : Prop := EncStack (i_wit x) (witness i).

Lemma EncStack_nil : EncStack [] [0].
Proof. exists [0], []. split; [constructor; simpl; lia|]. split; [constructor|reflexivity]. Qed.

Lemma EncStack_ne w b : EncStack w b -> b <> [].
Proof. intros (n & c & H & _ & ->) C. apply app_eq_nil in C as [-> _]. inversion H. Qed.

Lemma read_wits xs is r : Forall2 wit_full xs is ->
  read_n read_witness (length is) (concat (map witness is) ++ r) = Ok (map witness is, r).
Proof.
  intros F. induction F as [|x i xs is H F IH]; cbn [length read_n map concat]; auto.
  rewrite <- app_assoc, (read_stack_ok _ _ _ H). cbn [bind]. rewrite IH. reflexivity.
Qed.

(** ** The constructed transaction *)
Definition seg_ins (ins : list TxIn) : bool := existsb in_is_segwit ins.
Definition fill (i : TxIn) : TxIn := set_witness i (match witness i with [] => [0] | w => w end).

Lemma RepIn_fill x i : RepIn x i -> RepIn x (fill i).
Proof. intros [? ? ? ? ? ? ? ?]. constructor; auto. Qed.
Lemma RepWit_fill x i : RepWit x i -> wit_full x (fill i).
Proof.
  intros [_ [[H1 H2]|H]]; unfold wit_full, fill; cbn.
  - rewrite H1, H2. apply EncStack_nil.
  - destruct (witness i) eqn:E; [|auto]. exfalso. exact (EncStack_ne _ _ H eq_refl).
Qed.

Record Rep (x : tx) (v : bytes) (ins : list TxIn) (outs : list TxOut) (l : bytes) : Prop := {
  rp_ver : LEnum 4 (t_ver x) v;
  rp_ins : Forall2 RepIn (t_ins x) ins;
  rp_wits : Forall2 RepWit (t_ins x) ins;
  rp_nin : zlen ins < 2 ^ 64;
  rp_outs : Forall2 RepOut (t_outs x) outs;
  rp_nout : zlen outs < 2 ^ 64;
  rp_lock : LEnum 4 (t_lock x) l
}.

Lemma cs_exists {A} (l : list A) : zlen l < 2 ^ 64 -> exists n, int_to_varint (zlen l) = Ok n /\ CompactSize (zlen l) n.
Proof.
  intros H. rewrite varint_ok by (pose proof (zlen_nonneg l); lia). eexists. split; [reflexivity|].
  apply varint_spec. rewrite varint_ok by (pose proof (zlen_nonneg l); lia). reflexivity.
Qed.

Lemma F2_len {A B} (R : A -> B -> Prop) a b : Forall2 R a b -> length a = length b.
Proof. induction 1; simpl; auto. Qed.

Lemma no_segwit_witness ins : seg_ins ins = false -> concat (map witness ins) = [].
Proof.
  unfold seg_ins. induction ins as [|i ins IH]; auto. cbn [existsb map concat]. intros H.
  apply orb_false_elim in H as [H1 H2]. rewrite (IH H2). unfold in_is_segwit in H1.
  apply orb_false_elim in H1 as [_ H1]. destruct (witness i); [reflexivity|discriminate].
Qed.
Lemma no_segwit_flag ins : seg_ins ins = false -> Forall (fun i => witness i = [] /\ segwit_input i = false) ins.
Proof.
  unfold seg_ins. induction ins as [|i ins IH]; cbn [existsb]; intros H; constructor.
  - apply orb_false_elim in H as [H1 H2]. unfold in_is_segwit in H1. apply orb_false_elim in H1 as [H0 H1].
    destruct (witness i); [auto|discriminate].
  - apply orb_false_elim in H as [H1 H2]. auto.
Qed.

Lemma fill_witness_ne ins : ins <> [] -> concat (map witness (map fill ins)) <> [].
Proof.
  destruct ins as [|i ins]; [contradiction|]. intros _ C. cbn [map concat] in C. apply app_eq_nil in C as [C _].
  unfold fill in C. cbn in C. destruct (witness i); discriminate.
Qed.
Lemma seg_ins_ne ins : seg_ins ins = true -> ins <> [].
Proof. intros H ->. discriminate. Qed.

Lemma new_tx_seg v ins outs l : seg_ins ins = true -> new_tx v ins outs l = mkTx v (map fill ins) outs l.
Proof. intros H. unfold new_tx. fold (seg_ins ins). rewrite H. reflexivity. Qed.
Lemma new_tx_legacy v ins outs l : seg_ins ins = false -> new_tx v ins outs l = mkTx v ins outs l.
Proof. intros H. unfold new_tx. fold (seg_ins ins). rewrite H. reflexivity. Qed.

Lemma map_in_bytes_fill ins : map in_bytes (map fill ins) = map in_bytes ins.
Proof. rewrite map_map. apply map_ext. reflexivity. Qed.

Lemma tx_bytes_spec x v ins outs l : Rep x v ins outs l ->
  exists b, tx_bytes (new_tx v ins outs l) = Ok b /\
    (if seg_ins ins then EncSegwit x b else EncLegacy x b).
Proof.
  intros [H1 H2 H3 H4 H5 H6 H7]. destruct (cs_exists ins H4) as (ni & Ei & Ci). destruct (cs_exists outs H6) as (no & Eo & Co).
  assert (VI : EncVec EncIn (t_ins x) (ni ++ concat (map in_bytes ins))).
  { exists ni, (concat (map in_bytes ins)). split; [rewrite (F2_len _ _ _ H2); exact Ci|]. split; auto.
    apply (EncSeq_map EncIn RepIn); auto. apply RepIn_enc. }
  assert (VO : EncVec EncOut (t_outs x) (no ++ concat (map out_bytes outs))).
  { exists no, (concat (map out_bytes outs)). split; [rewrite (F2_len _ _ _ H5); exact Co|]. split; auto.
    apply (EncSeq_map EncOut RepOut); auto. apply RepOut_enc. }
  destruct (seg_ins ins) eqn:S.
  - rewrite new_tx_seg by auto. unfold tx_bytes. cbn [TxIns TxOuts version locktime].
    rewrite map_in_bytes_fill. replace (zlen (map fill ins)) with (zlen ins) by (unfold zlen; rewrite map_length; auto).
    rewrite Ei. cbn [bind]. rewrite Eo. cbn [bind]. eexists. split; [reflexivity|].
    pose proof (fill_witness_ne ins (seg_ins_ne _ S)) as NE.
    set (wit := concat (map witness (map fill ins))) in *.
    exists v, (ni ++ concat (map in_bytes ins)), (no ++ concat (map out_bytes outs)), wit, l.
    repeat (split; auto).
    + unfold wit. clear -H3. induction H3 as [|a i xs is H F IH]; cbn [map concat]; constructor; auto.
      apply RepWit_fill; auto.
    + destruct wit; [contradiction|]. reflexivity.
  - rewrite new_tx_legacy by auto. unfold tx_bytes. cbn [TxIns TxOuts version locktime].
    rewrite Ei. cbn [bind]. rewrite Eo. cbn [bind]. rewrite no_segwit_witness by auto. cbn [app].
    eexists. split; [reflexivity|]. exists v, (ni ++ concat (map in_bytes ins)), (no ++ concat (map out_bytes outs)), l.
    repeat (split; auto).
Qed.

Lemma legacy_repr_spec x v ins outs l : Rep x v ins outs l ->
  exists b, legacy_repr (mkTx v ins outs l) = Ok b /\ EncLegacy x b.
Proof.
  intros [H1 H2 H3 H4 H5 H6 H7]. destruct (cs_exists ins H4) as (ni & Ei & Ci). destruct (cs_exists outs H6) as (no & Eo & Co).
  unfold legacy_repr. cbn [TxIns TxOuts version locktime]. rewrite Ei, Eo. cbn [bind]. eexists. split; [reflexivity|].
  exists v, (ni ++ concat (map in_bytes ins)), (no ++ concat (map out_bytes outs)), l.
  split; auto. split; [|split; [|split; auto]].
  - exists ni, (concat (map in_bytes ins)). split; [rewrite (F2_len _ _ _ H2); exact Ci|]. split; auto.
    apply (EncSeq_map EncIn RepIn); auto. apply RepIn_enc.
  - exists no, (concat (map out_bytes outs)). split; [rewrite (F2_len _ _ _ H5); exact Co|]. split; auto.
    apply (EncSeq_map EncOut RepOut); auto. apply RepOut_enc.
Qed.

(** ** Reading back *)
Lemma skipn_4_app (v r : bytes) : length v = 4%nat -> skipn 4 (v ++ r) = r.
Proof. intros H. rewrite skipn_app, H, skipn_all2 by lia. reflexivity. Qed.

Lemma is_segwit_marker v r : length v = 4%nat -> is_segwit_bytes (v ++ 0 :: 1 :: r) = true.
Proof. intros H. unfold is_segwit_bytes. rewrite skipn_4_app by auto. reflexivity. Qed.

Lemma is_segwit_cs v n c r : length v = 4%nat -> CompactSize c n -> c <> 0 -> is_segwit_bytes (v ++ n ++ r) = false.
Proof.
  intros H C Hc. unfold is_segwit_bytes. rewrite skipn_4_app by auto.
  inversion C; subst; cbn [app firstn MARKER FLAG list_eqb]; try reflexivity.
  replace (c =? 0) with false by lia. destruct r; reflexivity.
Qed.

Lemma combine_wit ins : map (fun p => set_witness (fst p) (snd p)) (combine (map clear_in ins) (map witness ins)) = map known_in ins.
Proof. induction ins as [|i ins IH]; auto. cbn [map combine fst snd]. rewrite IH. reflexivity. Qed.

Lemma known_fill_seg ins : ins <> [] -> Forall (fun i => witness i <> []) ins ->
  forall v outs l, new_tx v (map known_in ins) outs l = mkTx v (map known_in ins) outs l.
Proof.
  intros NE F v outs l. destruct (seg_ins (map known_in ins)) eqn:S; [|apply new_tx_legacy; auto].
  rewrite new_tx_seg by auto. f_equal. rewrite map_map. apply map_ext_in. intros i Hi.
  rewrite Forall_forall in F. specialize (F i Hi). unfold fill, known_in. cbn. destruct (witness i); [contradiction|reflexivity].
Qed.

(** The body after the version field, with anything behind. *)
Definition body_seg (ni no : bytes) (ins : list TxIn) (outs : list TxOut) : bytes :=
  ni ++ concat (map in_bytes ins) ++ no ++ concat (map out_bytes outs).

Lemma deserialize_legacy x v ins outs l tail ni no : Rep x v ins outs l ->
  int_to_varint (zlen ins) = Ok ni -> int_to_varint (zlen outs) = Ok no ->
  is_segwit_bytes (v ++ body_seg ni no ins outs ++ tail) = false ->
  deserialize (v ++ body_seg ni no ins outs ++ tail) =
  Ok (mkTx v (map clear_in ins) outs (ztake 4 tail)).
Proof.
  intros [H1 H2 H3 H4 H5 H6 H7] Ei Eo S. unfold deserialize. rewrite S.
  rewrite read_bytes_len by (rewrite (LEnum_length _ _ _ H1); reflexivity).
  unfold body_seg. rewrite <- !app_assoc.
  rewrite (read_var_int_varint _ _ _ Ei). cbn [bind]. unfold zlen at 1. rewrite Nat2Z.id.
  rewrite (read_n_ok RepIn in_bytes clear_in read_in (t_ins x) ins _ (fun a b r => read_in_ok a b r) H2). cbn [bind].
  rewrite (read_var_int_varint _ _ _ Eo). cbn [bind]. unfold zlen at 1. rewrite Nat2Z.id.
  rewrite (read_n_ok RepOut out_bytes (fun o => o) read_out (t_outs x) outs _ (fun a b r => read_out_ok a b r) H5). cbn [bind].
  rewrite map_id. unfold read_bytes. f_equal. apply new_tx_legacy.
  unfold seg_ins. clear. induction ins; auto.
Qed.

Lemma deserialize_segwit x v ins outs l tail ni no : Rep x v ins outs l ->
  int_to_varint (zlen ins) = Ok ni -> int_to_varint (zlen outs) = Ok no ->
  ins <> [] -> Forall2 wit_full (t_ins x) ins ->
  deserialize (v ++ [0; 1] ++ body_seg ni no ins outs ++ concat (map witness ins) ++ tail) =
  Ok (mkTx v (map known_in ins) outs (ztake 4 tail)).
Proof.
  intros [H1 H2 H3 H4 H5 H6 H7] Ei Eo NE W. unfold deserialize.
  cbn [app]. rewrite is_segwit_marker by (eapply LEnum_length; eauto).
  rewrite read_bytes_len by (rewrite (LEnum_length _ _ _ H1); reflexivity).
  rewrite (read_bytes_app [0]) with (b := 1 :: body_seg ni no ins outs ++ concat (map witness ins) ++ tail) by reflexivity.
  cbn [snd]. rewrite (read_bytes_app [1]) with (b := body_seg ni no ins outs ++ concat (map witness ins) ++ tail) by reflexivity.
  cbn [snd]. unfold body_seg. rewrite <- !app_assoc.
  rewrite (read_var_int_varint _ _ _ Ei). cbn [bind]. unfold zlen at 1. rewrite Nat2Z.id.
  rewrite (read_n_ok RepIn in_bytes clear_in read_in (t_ins x) ins _ (fun a b r => read_in_ok a b r) H2). cbn [bind].
  rewrite (read_var_int_varint _ _ _ Eo). cbn [bind]. unfold zlen at 1. rewrite Nat2Z.id.
  rewrite (read_n_ok RepOut out_bytes (fun o => o) read_out (t_outs x) outs _ (fun a b r => read_out_ok a b r) H5). cbn [bind].
  rewrite map_id. unfold zlen at 1. rewrite Nat2Z.id. rewrite (read_wits _ _ _ W). cbn [bind].
  rewrite combine_wit. unfold read_bytes. f_equal. apply known_fill_seg; auto.
  clear -W. induction W as [|a i xs is H F IH]; constructor; auto. eapply EncStack_ne; exact H.
Qed.

Lemma ztake_all {A} (l : list A) n : zlen l = n -> ztake n l = l.
Proof. intros <-. rewrite <- (app_nil_r l) at 2. rewrite ztake_app. reflexivity. Qed.

Lemma clear_known ins : Forall (fun i => witness i = [] /\ segwit_input i = false) ins -> map clear_in ins = map known_in ins.
Proof.
  intros F. apply map_ext_in. intros i Hi. rewrite Forall_forall in F. destruct (F i Hi) as [E _].
  unfold clear_in, known_in. rewrite E. reflexivity.
Qed.

Lemma RepWit_of_full x i : Forall (fun s => bytes_ok s = true) (i_wit x) -> wit_full x i -> RepWit x i.
Proof. intros A W. split; auto. Qed.

Lemma Rep_fill x v ins outs l : Rep x v ins outs l -> Rep x v (map fill ins) outs l.
Proof.
  intros [H1 H2 H3 H4 H5 H6 H7]. constructor; auto.
  - clear -H2. induction H2; cbn [map]; constructor; auto. apply RepIn_fill; auto.
  - clear -H3. induction H3 as [|a i xs is H F IH]; cbn [map]; constructor; auto.
    apply RepWit_of_full; [apply H|]. apply RepWit_fill; auto.
  - unfold zlen in *. rewrite map_length. auto.
Qed.
Lemma wits_fill x v ins outs l : Rep x v ins outs l -> Forall2 wit_full (t_ins x) (map fill ins).
Proof.
  intros [H1 H2 H3 H4 H5 H6 H7]. clear -H3. induction H3 as [|a i xs is H F IH]; cbn [map]; constructor; auto.
  apply RepWit_fill; auto.
Qed.

(** Serialise, append anything, read: the transaction with everything known. *)
Lemma roundtrip_bytes x v ins outs l tail : Rep x v ins outs l -> (ins <> [] \/ length outs <> 1%nat) ->
  exists b, tx_bytes (new_tx v ins outs l) = Ok b /\
    deserialize (b ++ tail) = Ok (mkTx v (map known_in (TxIns (new_tx v ins outs l))) outs l).
Proof.
  intros R NE. pose proof R as [H1 H2 H3 H4 H5 H6 H7].
  destruct (cs_exists ins H4) as (ni & Ei & Ci). destruct (cs_exists outs H6) as (no & Eo & Co).
  destruct (seg_ins ins) eqn:S.
  - rewrite new_tx_seg by auto. unfold tx_bytes. cbn [TxIns TxOuts version locktime].
    pose proof (fill_witness_ne ins (seg_ins_ne _ S)) as NW.
    assert (Zf : zlen (map fill ins) = zlen ins) by (unfold zlen; rewrite map_length; auto).
    rewrite Zf, Ei. cbn [bind]. rewrite Eo. cbn [bind].
    eexists. split; [reflexivity|].
    assert (NEf : map fill ins <> []) by (destruct ins; [exfalso; exact (seg_ins_ne _ S eq_refl)|discriminate]).
    rewrite <- Zf in Ei.
    pose proof (deserialize_segwit x v (map fill ins) outs l (l ++ tail) ni no (Rep_fill _ _ _ _ _ R) Ei Eo NEf (wits_fill _ _ _ _ _ R)) as D.
    replace (ztake 4 (l ++ tail)) with l in D.
    2:{ symmetry. replace 4 with (zlen l) by (unfold zlen; rewrite (LEnum_length _ _ _ H7); reflexivity). apply ztake_app. }
    rewrite <- D. f_equal. unfold body_seg.
    destruct (concat (map witness (map fill ins))) eqn:W; [contradiction|].
    unfold MARKER, FLAG. rewrite <- !app_assoc. reflexivity.
  - rewrite new_tx_legacy by auto. unfold tx_bytes. cbn [TxIns TxOuts version locktime].
    rewrite Ei. cbn [bind]. rewrite Eo. cbn [bind]. rewrite no_segwit_witness by auto.
    eexists. split; [reflexivity|]. cbn [app].
    replace ((v ++ (ni ++ concat (map in_bytes ins)) ++ (no ++ concat (map out_bytes outs)) ++ l) ++ tail)
      with (v ++ body_seg ni no ins outs ++ (l ++ tail)) by (unfold body_seg; rewrite <- !app_assoc; reflexivity).
    rewrite (deserialize_legacy x v ins outs l (l ++ tail) ni no R Ei Eo).
    + rewrite <- clear_known by (apply no_segwit_flag; auto). do 2 f_equal.
      replace 4 with (zlen l) by (unfold zlen; rewrite (LEnum_length _ _ _ H7); reflexivity). apply ztake_app.
    + unfold body_seg. rewrite <- !app_assoc.
      destruct ins as [|i ins].
      * destruct NE as [NE|NE]; [contradiction|]. unfold zlen in Ei. simpl in Ei. inversion Ei; subst ni.
        unfold is_segwit_bytes. rewrite skipn_4_app by (eapply LEnum_length; eauto).
        cbn [map concat app firstn]. 
        assert (Hno : firstn 1 (no ++ concat (map out_bytes outs) ++ l ++ tail) <> [1]).
        { intros C. pose proof (varint_spec (zlen outs) no) as VS. apply VS in Eo.
          inversion Eo as [v0 Hv|? ? ? Hv|? ? ? ? ? Hv|? ? ? ? ? ? ? ? ? Hv]; subst no; cbn [app firstn] in C; try discriminate C.
          injection C as C. unfold zlen in *. lia. }
        destruct (no ++ concat (map out_bytes outs) ++ l ++ tail) as [|a r]; [reflexivity|].
        cbn [firstn] in *. cbn [MARKER FLAG app list_eqb Z.eqb andb].
        destruct (a =? 1) eqn:Ea; [exfalso; apply Hno; f_equal; lia|reflexivity].
      * eapply is_segwit_cs; [eapply LEnum_length; eauto|exact Ci|]. unfold zlen. simpl. lia.
Qed.

(** ** The serialisation consists of bytes *)
Lemma VarBytes_ok s b : VarBytes s b -> bytes_ok s = true -> bytes_ok b = true.
Proof. intros (n & H & ->) Hs. rewrite bytes_ok_app, (CompactSize_ok _ _ H), Hs. reflexivity. Qed.
Lemma EncSeq_ok {A} (E : A -> bytes -> Prop) (P : A -> Prop) l b :
  (forall a b, P a -> E a b -> bytes_ok b = true) -> Forall P l -> EncSeq E l b -> bytes_ok b = true.
Proof.
  intros H F S. induction S as [|a l b c Ha S IH]; auto. apply Forall_cons_iff in F as [F1 F2].
  rewrite bytes_ok_app, (H _ _ F1 Ha), (IH F2). reflexivity.
Qed.
Lemma EncVec_ok {A} (E : A -> bytes -> Prop) (P : A -> Prop) l b :
  (forall a b, P a -> E a b -> bytes_ok b = true) -> Forall P l -> EncVec E l b -> bytes_ok b = true.
Proof.
  intros H F (n & c & Hn & S & ->). rewrite bytes_ok_app, (CompactSize_ok _ _ Hn). apply (EncSeq_ok E P l c H F S).
Qed.
Definition in_content_ok (i : tin) : Prop :=
  bytes_ok (i_txid i) = true /\ bytes_ok (i_script i) = true /\ Forall (fun s => bytes_ok s = true) (i_wit i).
Lemma EncIn_ok i b : in_content_ok i -> EncIn i b -> bytes_ok b = true.
Proof.
  intros (H1 & H2 & _) (vo & sc & sq & L & V & S & Q & ->). rewrite !bytes_ok_app, H1, (LEnum_ok _ _ _ V), (LEnum_ok _ _ _ Q), (VarBytes_ok _ _ S H2). reflexivity.
Qed.
Lemma EncOut_ok o b : bytes_ok (o_script o) = true -> EncOut o b -> bytes_ok b = true.
Proof. intros H (v & sc & V & S & ->). rewrite bytes_ok_app, (LEnum_ok _ _ _ V), (VarBytes_ok _ _ S H). reflexivity. Qed.
Lemma EncStack_ok w b : Forall (fun s => bytes_ok s = true) w -> EncStack w b -> bytes_ok b = true.
Proof. intros F. apply (EncVec_ok _ (fun s => bytes_ok s = true)); auto. intros a c. intros. eapply VarBytes_ok; eauto. Qed.

Definition tx_content_ok (x : tx) : Prop :=
  Forall in_content_ok (t_ins x) /\ Forall (fun o => bytes_ok (o_script o) = true) (t_outs x).
Lemma Rep_content x v ins outs l : Rep x v ins outs l -> tx_content_ok x.
Proof.
  intros [H1 H2 H3 H4 H5 H6 H7]. split.
  - clear -H2 H3. revert H3. induction H2 as [|a i xs is H F IH]; intros W; constructor.
    + inversion W as [|? ? ? ? HW]; subst. destruct H as [? ? ? ? ? ? ? ?]. destruct HW. repeat split; auto.
    + inversion W; subst. auto.
  - clear -H5. induction H5 as [|a o xs os H F IH]; constructor; auto. destruct H; auto.
Qed.
Lemma EncLegacy_ok x b : tx_content_ok x -> EncLegacy x b -> bytes_ok b = true.
Proof.
  intros [C1 C2] (v & i & o & l & Hv & Hi & Ho & Hl & ->).
  rewrite !bytes_ok_app, (LEnum_ok _ _ _ Hv), (LEnum_ok _ _ _ Hl).
  rewrite (EncVec_ok _ _ _ _ EncIn_ok C1 Hi), (EncVec_ok _ _ _ _ EncOut_ok C2 Ho). reflexivity.
Qed.
Lemma EncSegwit_ok x b : tx_content_ok x -> EncSegwit x b -> bytes_ok b = true.
Proof.
  intros [C1 C2] (v & i & o & w & l & Hv & Hi & Ho & Hw & Hl & ->).
  rewrite !bytes_ok_app, (LEnum_ok _ _ _ Hv), (LEnum_ok _ _ _ Hl).
  rewrite (EncVec_ok _ _ _ _ EncIn_ok C1 Hi), (EncVec_ok _ _ _ _ EncOut_ok C2 Ho).
  rewrite (EncSeq_ok EncStack (Forall (fun s => bytes_ok s = true)) (map i_wit (t_ins x)) w EncStack_ok); auto.
  clear -C1. induction C1 as [|a l H F IH]; cbn [map]; constructor; auto. apply H.
Qed.
Lemma tx_bytes_ok x v ins outs l b : Rep x v ins outs l -> tx_bytes (new_tx v ins outs l) = Ok b -> bytes_ok b = true.
Proof.
  intros R E. destruct (tx_bytes_spec x v ins outs l R) as (b' & E' & S). rewrite E in E'. inv E'.
  pose proof (Rep_content _ _ _ _ _ R) as C. destruct (seg_ins ins); [eapply EncSegwit_ok|eapply EncLegacy_ok]; eauto.
Qed.

Lemma deserialize_hex_bytes b : bytes_ok b = true -> deserialize_hex (bytes_to_hex b) = deserialize b.
Proof.
  intros H. unfold deserialize_hex.
  replace (forallb _ (bytes_to_hex b)) with true.
  - rewrite hex_to_bytes_to_hex by auto. reflexivity.
  - symmetry. exact (bytes_to_hex_is_hex b H).
Qed.

(** ** The encoding is a function of the abstract transaction *)
Lemma VarBytes_fun s b b' : VarBytes s b -> VarBytes s b' -> b = b'.
Proof. intros (n & H & ->) (n' & H' & ->). rewrite (CompactSize_fun _ _ _ H H'). reflexivity. Qed.
Lemma EncSeq_fun {A} (E : A -> bytes -> Prop) l b b' :
  (forall a b b', E a b -> E a b' -> b = b') -> EncSeq E l b -> EncSeq E l b' -> b = b'.
Proof.
  intros H S. revert b'. induction S as [|a l b c Ha S IH]; intros b' S'; inversion S'; subst; auto.
  f_equal; eauto.
Qed.
Lemma EncVec_fun {A} (E : A -> bytes -> Prop) l b b' :
  (forall a b b', E a b -> E a b' -> b = b') -> EncVec E l b -> EncVec E l b' -> b = b'.
Proof.
  intros H (n & c & Hn & S & ->) (n' & c' & Hn' & S' & ->). rewrite (CompactSize_fun _ _ _ Hn Hn').
  rewrite (EncSeq_fun E l c c' H S S'). reflexivity.
Qed.
Lemma EncIn_fun i b b' : EncIn i b -> EncIn i b' -> b = b'.
Proof.
  intros (vo & sc & sq & L & V & S & Q & ->) (vo' & sc' & sq' & L' & V' & S' & Q' & ->).
  rewrite (LEnum_fun _ _ _ _ V V'), (LEnum_fun _ _ _ _ Q Q'), (VarBytes_fun _ _ _ S S'). reflexivity.
Qed.
Lemma EncOut_fun o b b' : EncOut o b -> EncOut o b' -> b = b'.
Proof. intros (v & sc & V & S & ->) (v' & sc' & V' & S' & ->). rewrite (LEnum_fun _ _ _ _ V V'), (VarBytes_fun _ _ _ S S'). reflexivity. Qed.
Lemma EncLegacy_fun x b b' : EncLegacy x b -> EncLegacy x b' -> b = b'.
Proof.
  intros (v & i & o & l & Hv & Hi & Ho & Hl & ->) (v' & i' & o' & l' & Hv' & Hi' & Ho' & Hl' & ->).
  rewrite (LEnum_fun _ _ _ _ Hv Hv'), (LEnum_fun _ _ _ _ Hl Hl'), (EncVec_fun _ _ _ _ EncIn_fun Hi Hi'), (EncVec_fun _ _ _ _ EncOut_fun Ho Ho').
  reflexivity.
Qed.
Lemma EncSeq_ext {A B} (E : A -> bytes -> Prop) (E' : B -> bytes -> Prop) (g : A -> B) l b :
  (forall a b, E a b <-> E' (g a) b) -> EncSeq E l b <-> EncSeq E' (map g l) b.
Proof.
  intros H. revert b. induction l as [|a l IH]; intros b; cbn [map]; split; intros S; inversion S; subst; constructor.
  - apply H; auto.
  - apply IH; auto.
  - apply H; auto.
  - apply IH; auto.
Qed.
Lemma EncLegacy_strip x b : EncLegacy x b <-> EncLegacy (strip_witness x) b.
Proof.
  assert (G : forall i, EncVec EncIn (t_ins x) i <-> EncVec EncIn (t_ins (strip_witness x)) i).
  { intros i. unfold EncVec. cbn [strip_witness t_ins]. rewrite map_length.
    split; intros (n & c & Hn & S & ->); exists n, c; repeat split; auto; revert S;
      apply (EncSeq_ext EncIn EncIn no_wit); intros; reflexivity. }
  unfold EncLegacy. split; intros (v & i & o & l & Hv & Hi & Ho & Hl & ->); exists v, i, o, l; repeat split; auto; apply G; auto.
Qed.

Lemma legacy_known v ins outs l : legacy_repr (mkTx v (map known_in ins) outs l) = legacy_repr (mkTx v ins outs l).
Proof.
  unfold legacy_repr. cbn [TxIns TxOuts version locktime]. unfold zlen. rewrite map_length, map_map.
  reflexivity.
Qed.
Lemma legacy_new v ins outs l : legacy_repr (new_tx v ins outs l) = legacy_repr (mkTx v ins outs l).
Proof.
  destruct (seg_ins ins) eqn:S; [rewrite new_tx_seg by auto|rewrite new_tx_legacy by auto; reflexivity].
  unfold legacy_repr. cbn [TxIns TxOuts version locktime]. unfold zlen. rewrite map_length, map_in_bytes_fill.
  reflexivity.
Qed.
Lemma version_new v ins outs l : version (new_tx v ins outs l) = v. Proof. reflexivity. Qed.
Lemma locktime_new v ins outs l : locktime (new_tx v ins outs l) = l. Proof. reflexivity. Qed.
Lemma outs_new v ins outs l : TxOuts (new_tx v ins outs l) = outs. Proof. reflexivity. Qed.

(** Every abstract transaction within the limits has a representation. *)
Definition in_wf (i : tin) : Prop :=
  length (i_txid i) = 32%nat /\ 0 <= i_vout i < 2 ^ 32 /\ 0 <= i_seq i < 2 ^ 32 /\
  zlen (i_script i) < 2 ^ 64 /\ zlen (i_wit i) < 2 ^ 64 /\ Forall (fun s => zlen s < 2 ^ 64) (i_wit i) /\ in_content_ok i.
Definition out_wf (o : tout) : Prop := 0 <= o_value o < 2 ^ 64 /\ zlen (o_script o) < 2 ^ 64 /\ bytes_ok (o_script o) = true.
Definition tx_wf (x : tx) : Prop :=
  0 <= t_ver x < 2 ^ 32 /\ 0 <= t_lock x < 2 ^ 32 /\ Forall in_wf (t_ins x) /\ zlen (t_ins x) < 2 ^ 64 /\
  Forall out_wf (t_outs x) /\ zlen (t_outs x) < 2 ^ 64.

Lemma VarBytes_exists s : zlen s < 2 ^ 64 -> exists b, VarBytes s b.
Proof. intros H. destruct (cs_exists s H) as (n & _ & C). exists (n ++ s), n. auto. Qed.
Lemma EncStack_exists w : zlen w < 2 ^ 64 -> Forall (fun s => zlen s < 2 ^ 64) w -> exists b, EncStack w b.
Proof.
  intros H F. destruct (cs_exists w H) as (n & _ & C).
  assert (exists c, EncSeq VarBytes w c) as (c & S).
  { clear -F. induction F as [|a l Ha F (c & S)]; [eexists; constructor|].
    destruct (VarBytes_exists a Ha) as (b & V). exists (b ++ c). constructor; auto. }
  exists (n ++ c), n, c. auto.
Qed.
Lemma LE4 v : 0 <= v < 2 ^ 32 -> LEnum 4 v (le_bytes 4 v).
Proof. intros H. apply LEnum_le_bytes. simpl. lia. Qed.
Lemma LE8 v : 0 <= v < 2 ^ 64 -> LEnum 8 v (le_bytes 8 v).
Proof. intros H. apply LEnum_le_bytes. simpl. lia. Qed.

Lemma RepIn_exists x a f : in_wf x -> exists i, RepIn x i /\ RepWit x i /\ amount i = a /\ segwit_input i = f.
Proof.
  intros (H1 & H2 & H3 & H4 & H5 & H6 & C1 & C2 & C3). destruct (cs_exists _ H4) as (n & _ & C).
  destruct (EncStack_exists _ H5 H6) as (w & W).
  exists (mkIn (i_script x) n (i_txid x) (le_bytes 4 (i_vout x)) w a (le_bytes 4 (i_seq x)) f).
  split; [|split; [|auto]].
  - constructor; auto; try apply LE4; auto.
  - split; auto.
Qed.
Lemma RepOut_exists x : out_wf x -> exists o, RepOut x o.
Proof.
  intros (H1 & H2 & H3). destruct (cs_exists _ H2) as (n & _ & C).
  exists (mkOut (le_bytes 8 (o_value x)) n (o_script x)). constructor; auto. apply LE8; auto.
Qed.
Lemma Rep_exists x : tx_wf x -> exists v ins outs l, Rep x v ins outs l.
Proof.
  intros (H1 & H2 & H3 & H4 & H5 & H6).
  assert (exists ins, Forall2 RepIn (t_ins x) ins /\ Forall2 RepWit (t_ins x) ins) as (ins & I & W).
  { clear -H3. induction H3 as [|a l Ha F (ins & I & W)]; [exists []; auto|].
    destruct (RepIn_exists a None false Ha) as (i & R & RW & _). exists (i :: ins). auto. }
  assert (exists outs, Forall2 RepOut (t_outs x) outs) as (outs & O).
  { clear -H5. induction H5 as [|a l Ha F (outs & O)]; [exists []; auto|].
    destruct (RepOut_exists a Ha) as (o & R). exists (o :: outs). auto. }
  exists (le_bytes 4 (t_ver x)), ins, outs, (le_bytes 4 (t_lock x)). constructor; auto; try apply LE4; auto.
  - unfold zlen in *. rewrite <- (F2_len _ _ _ I). auto.
  - unfold zlen in *. rewrite <- (F2_len _ _ _ O). auto.
Qed.
