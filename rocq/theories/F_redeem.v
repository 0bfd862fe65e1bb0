(** Multisig redeem scripts and standard scripts: parsing by Bitcoin's rules. *)
From Verif Require Export F_utils M_format S_Script S_Addr.

Lemma parse_op c r ops : 0x4e < c -> ParsesTo r ops -> ParsesTo (c :: r) (Op c :: ops).
Proof.
  intros H P. econstructor; [|exact P]. unfold next_op.
  replace (c <=? 0x4b) with false by lia. replace (c =? 0x4c) with false by lia.
  replace (c =? 0x4d) with false by lia. replace (c =? 0x4e) with false by lia. reflexivity.
Qed.

Lemma parse_push d r ops : (length d <= 75)%nat -> ParsesTo r ops ->
  ParsesTo (zlen d :: d ++ r) (Push d :: ops).
Proof.
  intros H P. econstructor; [|exact P]. unfold next_op.
  replace (zlen d <=? 0x4b) with true by (unfold zlen; lia). apply take_push_app.
Qed.

Lemma ParsesTo_fun s o1 : ParsesTo s o1 -> forall o2, ParsesTo s o2 -> o1 = o2.
Proof.
  induction 1 as [|s o r ops N P IH]; intros o2 P2; inversion P2 as [|s' o' r' ops' N' P']; subst; auto.
  - simpl in N'. discriminate.
  - simpl in N. discriminate.
  - rewrite N in N'. inversion N'; subst. f_equal. auto.
Qed.

Definition key_len_ok (k : bytes) : Prop := length k = 33%nat \/ length k = 65%nat.

Definition pushes (keys : list bytes) : bytes := flat_map (fun k => zlen k :: k) keys.

Lemma redeem_keys_ok keys acc : Forall key_len_ok keys -> redeem_keys keys acc = Ok (acc ++ pushes keys).
Proof.
  intros H. revert acc. induction H as [|k keys Hk H IH]; intros acc; cbn [redeem_keys pushes flat_map].
  - rewrite app_nil_r. reflexivity.
  - unfold key_len_ok in Hk. replace ((zlen k =? 33) || (zlen k =? 65)) with true by (unfold zlen; lia).
    cbn [negb]. rewrite script_push_small by (unfold zlen; lia). cbn [bind]. rewrite IH.
    rewrite <- !app_assoc. reflexivity.
Qed.

Lemma redeem_keys_bad keys acc : ~ Forall key_len_ok keys -> redeem_keys keys acc = Raise ValueError.
Proof.
  revert acc. induction keys as [|k keys IH]; intros acc H; [exfalso; apply H; constructor|].
  cbn [redeem_keys]. destruct ((zlen k =? 33) || (zlen k =? 65)) eqn:E; cbn [negb]; auto.
  rewrite script_push_small by (unfold zlen in *; lia). cbn [bind]. apply IH.
  intros F. apply H. constructor; auto. unfold key_len_ok, zlen in *. lia.
Qed.

Lemma parse_pushes keys r ops : Forall key_len_ok keys -> ParsesTo r ops ->
  ParsesTo (pushes keys ++ r) (map Push keys ++ ops).
Proof.
  intros H P. induction H as [|k keys Hk H IH]; cbn [pushes flat_map map app]; auto.
  change (ParsesTo (zlen k :: (k ++ pushes keys) ++ r) (Push k :: map Push keys ++ ops)). rewrite <- app_assoc.
  apply parse_push; auto. unfold key_len_ok in Hk; lia.
Qed.

Lemma pushes_length keys : Forall key_len_ok keys -> (34 * length keys <= length (pushes keys))%nat.
Proof.
  induction 1 as [|k keys Hk H IH]; cbn [pushes flat_map length]; [lia|].
  rewrite app_length. cbn [length] in *. unfold pushes in IH. unfold key_len_ok in Hk. lia.
Qed.

Definition total_len (keys : list bytes) : nat := list_sum (map (fun k => S (length k)) keys).
Lemma pushes_total keys : length (pushes keys) = total_len keys.
Proof.
  unfold pushes, total_len. induction keys as [|k keys IH]; auto. cbn [flat_map map list_sum fold_right].
  cbn [app length]. rewrite app_length, IH. unfold list_sum. lia.
Qed.

Lemma one_byte v : 0 <= v < 256 -> int_to_unknown_bytes v = Ok [v].
Proof.
  intros H. rewrite int_to_unknown_bytes_ok by lia.
  assert (E : unknown_len v = 1%nat).
  { unfold unknown_len, bit_length. destruct (v =? 0) eqn:E0; [reflexivity|].
    pose proof (Z.log2_nonneg v). assert (Z.log2 v <= 7).
    { change 7 with (Z.log2 255). apply Z.log2_le_mono. lia. }
    dif E1; [reflexivity|]. zdm; lia. }
  rewrite E. cbn [le_bytes rev app]. rewrite Z.mod_small by lia. reflexivity.
Qed.

Lemma one_byte_rev v : 0 <= v < 256 -> rev (le_bytes (unknown_len v) v) = [v].
Proof.
  intros H. pose proof (one_byte v H) as O. rewrite int_to_unknown_bytes_ok in O by lia. injection O as O. exact O.
Qed.

(** Success, for any m not below -80. *)
Lemma redeem_exact keys m : -80 <= m ->
  (forall s, multisig_to_redeemscript keys m = Ok s <->
    m <= zlen keys /\ Forall key_len_ok keys /\ (3 + total_len keys <= 520)%nat /\
    s = (m + 80) :: pushes keys ++ [zlen keys + 80; 0xae]) /\
  ((exists s, multisig_to_redeemscript keys m = Ok s) \/ multisig_to_redeemscript keys m = Raise ValueError).
Proof.
  intros Hm. unfold multisig_to_redeemscript.
  destruct (zlen keys <? m) eqn:E1.
  { split; [|auto]. intros s. split; [discriminate|]. lia. }
  pose proof (zlen_nonneg keys) as Zn.
  rewrite (int_to_unknown_bytes_ok (m + 80)) by lia. cbn [bind].
  set (b := rev _). assert (Lb : (1 <= length b)%nat).
  { unfold b. rewrite rev_length, le_bytes_length. apply unknown_len_pos. }
  destruct (Forall_dec key_len_ok) with (l := keys) as [F|F].
  { intros x. unfold key_len_ok. destruct (Nat.eq_dec (length x) 33); [left; auto|].
    destruct (Nat.eq_dec (length x) 65); [left; auto|right; intuition]. }
  2:{ rewrite redeem_keys_bad by auto. cbn [bind]. split; [|auto]. intros s. split; [discriminate|]. tauto. }
  rewrite redeem_keys_ok by auto. cbn [bind].
  rewrite (int_to_unknown_bytes_ok (zlen keys + 80)) by lia. cbn [bind].
  set (nb := rev (le_bytes (unknown_len (zlen keys + 80)) _)).
  assert (Lnb : (1 <= length nb)%nat).
  { unfold nb. rewrite rev_length, le_bytes_length. apply unknown_len_pos. }
  assert (Ln : zlen ((b ++ pushes keys) ++ nb ++ [174]) = Z.of_nat (length b + total_len keys + length nb + 1)).
  { unfold zlen. rewrite !app_length, pushes_total. simpl length. lia. }
  pose proof (pushes_length keys F) as PL. rewrite pushes_total in PL.
  destruct (520 <? _) eqn:E2.
  - split; [|auto]. intros s. split; [discriminate|]. intros (_ & _ & HT & _). rewrite Ln in E2.
    assert (Hk : zlen keys <= 15) by (unfold zlen; lia).
    assert (length b = 1%nat) by (unfold b; rewrite one_byte_rev by lia; reflexivity).
    assert (length nb = 1%nat) by (unfold nb; rewrite one_byte_rev by lia; reflexivity).
    lia.
  - assert (Hk : zlen keys <= 15) by (rewrite Ln in E2; unfold zlen; lia).
    assert (Eb : b = [m + 80]) by (unfold b; apply one_byte_rev; lia).
    assert (Enb : nb = [zlen keys + 80]) by (unfold nb; apply one_byte_rev; lia).
    rewrite Ln, Eb, Enb in E2. rewrite Eb, Enb. cbn [length] in E2.
    split; [|eauto]. intros s. split.
    + intros H. inv H. split; [lia|]. split; auto. split; [lia|].
      cbn [app]. rewrite <- ?app_assoc. reflexivity.
    + intros (_ & _ & _ & ->). cbn [app]. rewrite <- ?app_assoc. reflexivity.
Qed.

Lemma redeem_overflow keys m : m < -80 -> multisig_to_redeemscript keys m = Raise OverflowError.
Proof.
  intros H. unfold multisig_to_redeemscript. pose proof (zlen_nonneg keys).
  replace (zlen keys <? m) with false by lia. unfold int_to_unknown_bytes.
  replace (m + 80 <? 0) with true by lia. reflexivity.
Qed.

Lemma redeem_multisig keys m s : 1 <= m -> multisig_to_redeemscript keys m = Ok s ->
  IsMultisig m keys s /\ (length keys <= 15)%nat /\ (length s <= 520)%nat /\ Forall key_len_ok keys.
Proof.
  intros Hm H. apply redeem_exact in H as (H1 & H2 & H3 & ->); [|lia].
  pose proof (pushes_length keys H2) as PL. rewrite pushes_total in PL. unfold zlen in *.
  split; [|split; [lia|split; [|auto]]].
  - split; [lia|]. split; [lia|]. unfold OP_1. cbn [app].
    replace (0x51 + m - 1) with (m + 80) by lia. apply parse_op; [lia|].
    apply parse_pushes; auto. replace (0x51 + Z.of_nat (length keys) - 1) with (Z.of_nat (length keys) + 80) by lia.
    apply parse_op; [lia|]. apply parse_op; [reflexivity|]. constructor.
  - cbn [length]. rewrite app_length, pushes_total. cbn [length]. lia.
Qed.

(** Standard output scripts. *)
Lemma p2pkh_parse h : length h = 20%nat ->
  IsP2PKH h (OP_DUP ++ OP_HASH160 ++ OP_PUSH_20 ++ h ++ OP_EQUALVERIFY ++ OP_CHECKSIG).
Proof.
  intros H. split; auto. cbn [app OP_DUP OP_HASH160 OP_PUSH_20]. apply parse_op; [reflexivity|]. apply parse_op; [reflexivity|].
  replace 20 with (zlen h) by (unfold zlen; lia). apply parse_push; [lia|].
  apply parse_op; [reflexivity|]. apply parse_op; [reflexivity|]. constructor.
Qed.

Lemma p2sh_parse h : length h = 20%nat -> IsP2SH h (OP_HASH160 ++ OP_PUSH_20 ++ h ++ OP_EQUAL).
Proof.
  intros H. split; auto. cbn [app OP_HASH160 OP_PUSH_20]. apply parse_op; [reflexivity|].
  replace 20 with (zlen h) by (unfold zlen; lia). apply parse_push; [lia|].
  apply parse_op; [reflexivity|]. constructor.
Qed.

Lemma witness_parse ver prog : 0 <= ver <= 16 -> (2 <= length prog <= 40)%nat -> bytes_ok prog = true ->
  exists s, segwit_scriptpubkey (Some (ver, prog)) = Ok s /\ IsWitness ver prog s.
Proof.
  intros Hv Hl Hb. unfold segwit_scriptpubkey.
  set (c := if ver =? 0 then 0 else ver + 80).
  assert (Hc : 0 <= c < 256) by (unfold c; dif E; lia).
  replace (bytes_ok _) with true.
  2:{ cbn [app]. rewrite !bytes_ok_cons, Hb. symmetry. rewrite andb_true_r. apply andb_true_intro; split; apply is_byte_iff; auto.
      unfold zlen. lia. }
  eexists. split; [reflexivity|]. split; auto. split; auto. cbn [app]. unfold c, OP_1.
  assert (P : ParsesTo (zlen prog :: prog) [Push prog]).
  { pose proof (parse_push prog [] [] ltac:(lia) parse_nil) as P. rewrite app_nil_r in P. exact P. }
  destruct (ver =? 0) eqn:E.
  - apply (parse_push [] (zlen prog :: prog) [Push prog]); [simpl; lia|exact P].
  - replace (0x51 + ver - 1) with (ver + 80) by lia. apply parse_op; [lia|exact P].
Qed.
