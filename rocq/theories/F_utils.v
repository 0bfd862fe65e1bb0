(** Lemmas about bit/utils.py. *)
From Verif Require Export F_base M_utils.
From Verif Require Import S_Wire S_Script.

(** ** Minimal byte representation *)
Lemma unknown_len_pos x : (1 <= unknown_len x)%nat.
Proof.
  unfold unknown_len. dif E; [lia|].
  assert (0 <= bit_length x).
  { unfold bit_length. destruct (x =? 0); [lia|]. pose proof (Z.log2_nonneg x). lia. }
  zdm; lia.
Qed.

Lemma unknown_len_upper x : 0 <= x -> x < 256 ^ Z.of_nat (unknown_len x).
Proof.
  intros Hx. unfold unknown_len, bit_length.
  destruct (x =? 0) eqn:E0.
  - simpl. lia.
  - pose proof (Z.log2_spec x ltac:(lia)) as [_ Hu]. pose proof (Z.log2_nonneg x) as Hl.
    dif E1.
    + exfalso. zdm; lia.
    + change 256 with (2 ^ 8). rewrite <- Z.pow_mul_r by lia.
      eapply Z.lt_le_trans; [exact Hu|]. apply Z.pow_le_mono_r; [lia|]. zdm; lia.
Qed.

Lemma unknown_len_lower x :
  0 < x -> 256 ^ (Z.of_nat (unknown_len x) - 1) <= x.
Proof.
  intros Hx. unfold unknown_len, bit_length.
  destruct (x =? 0) eqn:E0; [lia|].
  pose proof (Z.log2_spec x ltac:(lia)) as [Hl _]. pose proof (Z.log2_nonneg x) as Hn.
  dif E1; [exfalso; zdm; lia|].
  change 256 with (2 ^ 8). rewrite <- Z.pow_mul_r by (zdm; lia).
  eapply Z.le_trans; [|exact Hl]. apply Z.pow_le_mono_r; [lia|]. zdm; lia.
Qed.

Lemma int_to_unknown_bytes_ok num :
  0 <= num -> int_to_unknown_bytes num = Ok (rev (le_bytes (unknown_len num) num)).
Proof.
  intros H. unfold int_to_unknown_bytes. replace (num <? 0) with false by lia.
  apply to_bytes_be_ok'. pose proof (unknown_len_upper num H). lia.
Qed.

Lemma int_to_unknown_bytes_le_ok num :
  0 <= num -> int_to_unknown_bytes_le num = Ok (le_bytes (unknown_len num) num).
Proof.
  intros H. unfold int_to_unknown_bytes_le. replace (num <? 0) with false by lia.
  apply to_bytes_le_ok'. pose proof (unknown_len_upper num H). lia.
Qed.

Lemma unknown_bytes_minimal num b c :
  int_to_unknown_bytes num = Ok b ->
  bytes_ok c = true -> c <> [] -> from_be c = num -> (length b <= length c)%nat.
Proof.
  intros Hb Hc Hne Hv.
  pose proof (from_be_bound c Hc) as Hbd. rewrite Hv in Hbd.
  rewrite int_to_unknown_bytes_ok in Hb by lia. inv Hb.
  rewrite rev_length, le_bytes_length.
  destruct (Z.eq_dec (from_be c) 0) as [E|E].
  - rewrite E. change (unknown_len 0) with 1%nat. destruct c; [contradiction|simpl length; lia].
  - pose proof (unknown_len_lower (from_be c) ltac:(lia)) as Hlow.
    destruct (Nat.le_gt_cases (unknown_len (from_be c)) (length c)) as [|Hgt]; auto.
    exfalso. unfold zlen in Hbd.
    assert (256 ^ Z.of_nat (length c) <= 256 ^ (Z.of_nat (unknown_len (from_be c)) - 1)).
    { apply Z.pow_le_mono_r; lia. }
    lia.
Qed.

(** The minimal representation of a number whose first byte is not zero. *)
Lemma unknown_len_be b :
  bytes_ok b = true -> hd 0 b <> 0 -> unknown_len (from_be b) = length b.
Proof.
  intros Hb Hh. destruct b as [|x r]; [simpl in Hh; lia|]. simpl in Hh.
  rewrite bytes_ok_cons in Hb. apply andb_prop in Hb as [Hx Hr]. apply is_byte_iff in Hx.
  pose proof (from_be_bound r Hr) as Hrb.
  assert (Hv : from_be (x :: r) = x * 256 ^ zlen r + from_be r).
  { change (x :: r) with ([x] ++ r). rewrite from_be_app. reflexivity. }
  set (v := from_be (x :: r)) in *.
  assert (0 < 256 ^ zlen r) as Hp by apply pow256_pos.
  assert (256 ^ zlen r <= v < 256 ^ (zlen r + 1)) as Hv2.
  { rewrite Z.pow_add_r, Z.pow_1_r by (pose proof (zlen_nonneg r); lia). nia. }
  pose proof (unknown_len_upper v ltac:(lia)) as Hu.
  pose proof (unknown_len_lower v ltac:(lia)) as Hl.
  pose proof (unknown_len_pos v) as Hpos.
  simpl length. unfold zlen in *.
  assert (Z.of_nat (unknown_len v) - 1 < Z.of_nat (length r) + 1).
  { apply (Z.pow_lt_mono_r_iff 256); lia. }
  assert (Z.of_nat (length r) < Z.of_nat (unknown_len v)).
  { apply (Z.pow_lt_mono_r_iff 256); lia. }
  lia.
Qed.

Lemma int_to_unknown_bytes_be b :
  bytes_ok b = true -> hd 0 b <> 0 -> int_to_unknown_bytes (from_be b) = Ok b.
Proof.
  intros Hb Hh. pose proof (from_be_bound b Hb).
  rewrite int_to_unknown_bytes_ok by lia. f_equal.
  rewrite unknown_len_be by auto.
  apply from_be_inj; auto.
  - rewrite bytes_ok_rev. apply le_bytes_ok.
  - rewrite rev_length, le_bytes_length. reflexivity.
  - apply from_be_be_bytes. fold (zlen b). lia.
Qed.

(** ** CompactSize *)
Lemma varint_raise v : ~ (0 <= v < 2 ^ 64) -> int_to_varint v = Raise OverflowError.
Proof.
  intros H. unfold int_to_varint.
  destruct (v <? 253) eqn:E1.
  { apply to_bytes_le_raise. simpl. lia. }
  destruct (v <=? 65535) eqn:E2; [lia|].
  destruct (v <=? 4294967295) eqn:E3; [lia|].
  rewrite to_bytes_le_raise; [reflexivity|]. change (256 ^ Z.of_nat 8) with (2 ^ 64). lia.
Qed.

Lemma varint_ok v : 0 <= v < 2 ^ 64 ->
  int_to_varint v = Ok (if v <? 253 then le_bytes 1 v
                        else if v <=? 65535 then 253 :: le_bytes 2 v
                        else if v <=? 4294967295 then 254 :: le_bytes 4 v
                        else 255 :: le_bytes 8 v).
Proof.
  intros H. unfold int_to_varint.
  destruct (v <? 253) eqn:E1.
  { apply to_bytes_le_ok'. change (256 ^ Z.of_nat 1) with 256. lia. }
  destruct (v <=? 65535) eqn:E2.
  { rewrite to_bytes_le_ok'; [reflexivity|]. change (256 ^ Z.of_nat 2) with 65536. lia. }
  destruct (v <=? 4294967295) eqn:E3.
  { rewrite to_bytes_le_ok'; [reflexivity|]. change (256 ^ Z.of_nat 4) with 4294967296. lia. }
  rewrite to_bytes_le_ok'; [reflexivity|]. change (256 ^ Z.of_nat 8) with (2 ^ 64). lia.
Qed.

Lemma varint_spec v e : int_to_varint v = Ok e <-> CompactSize v e.
Proof.
  destruct (Z_lt_dec v 0) as [Hn|Hn].
  { rewrite varint_raise by lia. split; [discriminate|]. intros H; inv H; lia. }
  destruct (Z_lt_dec v (2 ^ 64)) as [Hb|Hb].
  2:{ rewrite varint_raise by lia. split; [discriminate|]. intros H; inv H; lia. }
  rewrite varint_ok by lia. split.
  - intros H. inv H.
    destruct (v <? 253) eqn:E1.
    { cbn [le_bytes]. rewrite Z.mod_small by lia. constructor. lia. }
    destruct (v <=? 65535) eqn:E2.
    { cbn [le_bytes]. constructor; zdm; lia. }
    destruct (v <=? 4294967295) eqn:E3.
    { cbn [le_bytes]. constructor; zdm; lia. }
    cbn [le_bytes]. constructor; zdm; lia.
  - intros H. f_equal. inv H.
    + replace (v <? 253) with true by lia. cbn [le_bytes]. f_equal. apply Z.mod_small. lia.
    + replace (b0 + 256 * b1 <? 253) with false by lia.
      replace (b0 + 256 * b1 <=? 65535) with true by lia.
      cbn [le_bytes]. f_equal. f_equal; [zdm; lia|f_equal; zdm; lia].
    + match goal with |- context [?v <? 253] => set (w := v) in * end.
      replace (w <? 253) with false by lia.
      replace (w <=? 65535) with false by lia.
      replace (w <=? 4294967295) with true by lia.
      f_equal. replace w with (from_le [b0; b1; b2; b3]) by (subst w; cbn [from_le]; ring).
      change 4%nat with (length [b0; b1; b2; b3]). apply le_bytes_from_le.
      unfold bytes_ok, is_byte. simpl. lia.
    + match goal with |- context [?v <? 253] => set (w := v) in * end.
      replace (w <? 253) with false by lia.
      replace (w <=? 65535) with false by lia.
      replace (w <=? 4294967295) with false by lia.
      f_equal.
      replace w with (from_le [b0; b1; b2; b3; b4; b5; b6; b7]) by (subst w; cbn [from_le]; ring).
      change 8%nat with (length [b0; b1; b2; b3; b4; b5; b6; b7]). apply le_bytes_from_le.
      unfold bytes_ok, is_byte. simpl. lia.
Qed.

Lemma read_as_int_le n v rest :
  (1 <= n)%nat -> 0 <= v < 256 ^ Z.of_nat n ->
  read_as_int (le_bytes n v ++ rest) (Z.of_nat n) = Ok (v, rest).
Proof.
  intros Hn Hv. unfold read_as_int.
  rewrite ztake_app by (unfold zlen; rewrite le_bytes_length; reflexivity).
  rewrite zdrop_app by (unfold zlen; rewrite le_bytes_length; reflexivity).
  destruct (le_bytes n v) as [|b l] eqn:E.
  - apply (f_equal (@length Z)) in E. rewrite le_bytes_length in E. simpl in E. lia.
  - rewrite <- E, from_le_le_bytes by auto. reflexivity.
Qed.

Lemma read_var_int_varint v e rest :
  int_to_varint v = Ok e -> read_var_int (e ++ rest) = Ok (v, rest).
Proof.
  intros H.
  destruct (Z_lt_dec v 0) as [Hn|Hn]; [rewrite varint_raise in H by lia; discriminate|].
  destruct (Z_lt_dec v (2 ^ 64)) as [Hb|Hb]; [|rewrite varint_raise in H by lia; discriminate].
  rewrite varint_ok in H by lia. inv H.
  destruct (v <? 253) eqn:E1.
  { cbn [le_bytes app read_var_int]. rewrite Z.mod_small by lia. rewrite E1. reflexivity. }
  destruct (v <=? 65535) eqn:E2.
  { cbn [app read_var_int]. change (253 <? 253) with false. cbv iota.
    change (2 ^ (253 - 252)) with (Z.of_nat 2). apply (read_as_int_le 2 v rest); [lia|].
    change (256 ^ Z.of_nat 2) with 65536. lia. }
  destruct (v <=? 4294967295) eqn:E3.
  { cbn [app read_var_int]. change (254 <? 253) with false. cbv iota.
    change (2 ^ (254 - 252)) with (Z.of_nat 4). apply (read_as_int_le 4 v rest); [lia|].
    change (256 ^ Z.of_nat 4) with 4294967296. lia. }
  cbn [app read_var_int]. change (255 <? 253) with false. cbv iota.
  change (2 ^ (255 - 252)) with (Z.of_nat 8). apply (read_as_int_le 8 v rest); [lia|].
  change (256 ^ Z.of_nat 8) with (2 ^ 64). lia.
Qed.

Lemma varint_length v e : int_to_varint v = Ok e ->
  length e = if v <? 253 then 1%nat else if v <=? 65535 then 3%nat
             else if v <=? 4294967295 then 5%nat else 9%nat.
Proof.
  intros H.
  destruct (Z_lt_dec v 0) as [Hn|Hn]; [rewrite varint_raise in H by lia; discriminate|].
  destruct (Z_lt_dec v (2 ^ 64)) as [Hb|Hb]; [|rewrite varint_raise in H by lia; discriminate].
  rewrite varint_ok in H by lia. inv H.
  destruct (v <? 253); [reflexivity|]. destruct (v <=? 65535); [reflexivity|].
  destruct (v <=? 4294967295); reflexivity.
Qed.

Lemma varint_bytes_ok v e : int_to_varint v = Ok e -> bytes_ok e = true.
Proof.
  intros H.
  destruct (Z_lt_dec v 0) as [Hn|Hn]; [rewrite varint_raise in H by lia; discriminate|].
  destruct (Z_lt_dec v (2 ^ 64)) as [Hb|Hb]; [|rewrite varint_raise in H by lia; discriminate].
  rewrite varint_ok in H by lia. oinv H.
  destruct (v <? 253); [apply le_bytes_ok|]. destruct (v <=? 65535); [rewrite bytes_ok_cons, le_bytes_ok; reflexivity|].
  destruct (v <=? 4294967295); rewrite bytes_ok_cons, le_bytes_ok; reflexivity.
Qed.

(** ** Script pushes *)
Lemma take_exact_app d r : take_exact (length d) (d ++ r) = Some (d, r).
Proof. induction d as [|x d IH]; simpl; [reflexivity|]. rewrite IH. reflexivity. Qed.

Lemma take_push_app d r : take_push (zlen d) (d ++ r) = Some (Push d, r).
Proof.
  unfold take_push. rewrite app_length. unfold zlen.
  replace (_ <? _) with false by lia.
  rewrite Nat2Z.id, take_exact_app. reflexivity.
Qed.

Lemma script_push_small v : 0 <= v <= 75 -> script_push v = Ok [v].
Proof.
  intros H. unfold script_push. replace (v <=? 75) with true by lia.
  rewrite int_to_unknown_bytes_ok by lia.
  assert (E : unknown_len v = 1%nat).
  { unfold unknown_len, bit_length.
    destruct (v =? 0) eqn:E0; [reflexivity|].
    pose proof (Z.log2_nonneg v). assert (Z.log2 v <= 6).
    { change 6 with (Z.log2 75). apply Z.log2_le_mono. lia. }
    dif E1; [reflexivity|].
    zdm; lia. }
  rewrite E. cbn [le_bytes rev app]. rewrite Z.mod_small by lia. reflexivity.
Qed.

Lemma script_push_next d rest p :
  script_push (zlen d) = Ok p -> next_op (p ++ d ++ rest) = Some (Push d, rest).
Proof.
  intros H. pose proof (zlen_nonneg d) as Hn.
  destruct (Z_le_dec (zlen d) 75) as [H1|H1].
  { rewrite script_push_small in H by lia. oinv H. cbn [app next_op].
    replace (zlen d <=? 75) with true by lia. apply take_push_app. }
  unfold script_push in H. replace (zlen d <=? 75) with false in H by lia.
  destruct (zlen d <? 256) eqn:E2.
  { rewrite int_to_unknown_bytes_ok in H by lia. oinv H.
    assert (E : unknown_len (zlen d) = 1%nat).
    { unfold unknown_len, bit_length.
      destruct (zlen d =? 0) eqn:E0; [reflexivity|].
      pose proof (Z.log2_nonneg (zlen d)). assert (Z.log2 (zlen d) <= 7).
      { change 7 with (Z.log2 255). apply Z.log2_le_mono. lia. }
      dif E1; [reflexivity|]. zdm; lia. }
    rewrite E. cbn [le_bytes rev app next_op]. rewrite Z.mod_small by lia.
    change (76 <=? 75) with false. change (76 =? 76) with true. cbv iota.
    apply take_push_app. }
  destruct (zlen d <? 65536) eqn:E3.
  { rewrite to_bytes_le_ok' in H by (change (256 ^ Z.of_nat 2) with 65536; lia). oinv H.
    cbn [le_bytes app next_op].
    change (77 <=? 75) with false. change (77 =? 76) with false. change (77 =? 77) with true. cbv iota.
    replace (zlen d mod 256 + 256 * (zlen d / 256 mod 256)) with (zlen d) by (zdm; lia).
    apply take_push_app. }
  apply rmap_ok in H as (l & Hl & ->). apply to_bytes_le_ok in Hl as [Hl ->].
  change (256 ^ Z.of_nat 4) with 4294967296 in Hl.
  cbn [le_bytes app next_op].
  change (78 <=? 75) with false. change (78 =? 76) with false. change (78 =? 77) with false.
  change (78 =? 78) with true. cbv iota.
  match goal with |- take_push ?v _ = _ => replace v with (zlen d) by (zdm; lia) end.
  apply take_push_app.
Qed.

Lemma script_push_defined v : (exists p, script_push v = Ok p) <-> 0 <= v < 2 ^ 32.
Proof.
  split.
  - intros [p H]. unfold script_push in H.
    destruct (v <=? 75) eqn:E1.
    { unfold int_to_unknown_bytes in H. destruct (v <? 0) eqn:E; [discriminate|lia]. }
    destruct (v <? 256) eqn:E2; [lia|].
    destruct (v <? 65536) eqn:E3; [lia|].
    apply rmap_ok in H as (l & Hl & ->). apply to_bytes_le_ok in Hl as [Hl _].
    change (256 ^ Z.of_nat 4) with (2 ^ 32) in Hl. lia.
  - intros H. unfold script_push.
    destruct (v <=? 75) eqn:E1; [rewrite int_to_unknown_bytes_ok by lia; eauto|].
    destruct (v <? 256) eqn:E2; [rewrite int_to_unknown_bytes_ok by lia; simpl; eauto|].
    destruct (v <? 65536) eqn:E3.
    + rewrite to_bytes_le_ok' by (change (256 ^ Z.of_nat 2) with 65536; lia). simpl. eauto.
    + rewrite to_bytes_le_ok' by (change (256 ^ Z.of_nat 4) with (2 ^ 32); lia). simpl. eauto.
Qed.

Lemma script_push_raise v : ~ (0 <= v < 2 ^ 32) -> script_push v = Raise OverflowError.
Proof.
  intros H. unfold script_push.
  destruct (v <=? 75) eqn:E1.
  { unfold int_to_unknown_bytes. replace (v <? 0) with true by lia. reflexivity. }
  destruct (v <? 256) eqn:E2; [lia|].
  destruct (v <? 65536) eqn:E3; [lia|].
  rewrite to_bytes_le_raise; [reflexivity|]. change (256 ^ Z.of_nat 4) with (2 ^ 32). lia.
Qed.

(** ** Hex *)
Lemma hex_val_digit n : 0 <= n < 16 -> hex_val (hex_digit n) = Some n.
Proof.
  intros H. unfold hex_digit, hex_val.
  destruct (n <? 10) eqn:E.
  - replace ((48 <=? 48 + n) && (48 + n <=? 57)) with true by lia. f_equal. lia.
  - replace ((48 <=? 87 + n) && (87 + n <=? 57)) with false by lia.
    replace ((97 <=? 87 + n) && (87 + n <=? 102)) with true by lia. f_equal. lia.
Qed.

Lemma hex_val_range c n : hex_val c = Some n -> 0 <= n < 16 /\ is_space c = false /\ hex_digit n = lower_char c.
Proof.
  unfold hex_val, is_space, hex_digit, lower_char.
  destruct ((48 <=? c) && (c <=? 57)) eqn:E1.
  { intros H; inv H. split; [lia|]. split; [lia|].
    replace (c - 48 <? 10) with true by lia. replace ((65 <=? c) && (c <=? 90)) with false by lia. lia. }
  destruct ((97 <=? c) && (c <=? 102)) eqn:E2.
  { intros H; inv H. split; [lia|]. split; [lia|].
    replace (c - 87 <? 10) with false by lia. replace ((65 <=? c) && (c <=? 90)) with false by lia. lia. }
  destruct ((65 <=? c) && (c <=? 70)) eqn:E3; [|discriminate].
  intros H; inv H. split; [lia|]. split; [lia|].
  replace (c - 55 <? 10) with false by lia. replace ((65 <=? c) && (c <=? 90)) with true by lia. lia.
Qed.

Lemma hex_digit_not_space n : 0 <= n < 16 -> is_space (hex_digit n) = false.
Proof. intros H. unfold is_space, hex_digit. destruct (n <? 10) eqn:E; lia. Qed.

Lemma bytes_to_hex_length b : length (bytes_to_hex b) = (2 * length b)%nat.
Proof. unfold bytes_to_hex. induction b as [|x b IH]; cbn [flat_map app length]; [reflexivity|]. lia. Qed.

Lemma fromhex_bytes_to_hex b : bytes_ok b = true -> fromhex (bytes_to_hex b) = Ok b.
Proof.
  induction b as [|x b IH]; intros H; [reflexivity|].
  rewrite bytes_ok_cons in H. apply andb_prop in H as [Hx Hb]. apply is_byte_iff in Hx.
  unfold bytes_to_hex in *. cbn [flat_map app fromhex].
  rewrite hex_digit_not_space by (zdm; lia).
  rewrite hex_val_digit by (zdm; lia). rewrite hex_val_digit by (zdm; lia).
  rewrite IH by auto. cbn [rmap]. f_equal. f_equal. zdm; lia.
Qed.

Lemma hex_to_bytes_to_hex b : bytes_ok b = true -> hex_to_bytes (bytes_to_hex b) = Ok b.
Proof.
  intros H. unfold hex_to_bytes. rewrite bytes_to_hex_length.
  replace (Nat.odd (2 * length b)) with false.
  - apply fromhex_bytes_to_hex; auto.
  - symmetry. rewrite <- Nat.negb_even. apply negb_false_iff. apply Nat.even_spec. exists (length b). lia.
Qed.

Definition is_hex (c : Z) : bool := match hex_val c with Some _ => true | None => false end.

(** Strong induction two characters at a time. *)
Lemma list_ind2 {A} (P : list A -> Prop) :
  P [] -> (forall a, P [a]) -> (forall a b l, P l -> P (a :: b :: l)) -> forall l, P l.
Proof.
  intros H0 H1 H2. fix IH 1. intros [|a [|b l]]; [exact H0|exact (H1 a)|exact (H2 a b l (IH l))].
Qed.

Lemma fromhex_hex h :
  Nat.even (length h) = true -> forallb is_hex h = true ->
  exists b, fromhex h = Ok b /\ bytes_ok b = true /\ bytes_to_hex b = lower h.
Proof.
  induction h as [|a|a c l IH] using list_ind2; intros He Hh.
  - exists []. auto.
  - discriminate.
  - cbn [forallb] in Hh. apply andb_prop in Hh as [Ha Hh]. apply andb_prop in Hh as [Hc Hl].
    destruct (IH He Hl) as (b & Hb & Hok & Hx).
    unfold is_hex in Ha, Hc.
    destruct (hex_val a) as [x|] eqn:Ea; [|discriminate].
    destruct (hex_val c) as [y|] eqn:Ec; [|discriminate].
    destruct (hex_val_range _ _ Ea) as (Rx & Sx & Dx).
    destruct (hex_val_range _ _ Ec) as (Ry & Sy & Dy).
    exists (16 * x + y :: b). cbn [fromhex]. rewrite Sx, Ea, Ec, Hb. split; [reflexivity|].
    split.
    + rewrite bytes_ok_cons, Hok. unfold is_byte. lia.
    + unfold bytes_to_hex in *. cbn [flat_map app lower map].
      replace ((16 * x + y) / 16) with x by (zdm; lia).
      replace ((16 * x + y) mod 16) with y by (zdm; lia).
      rewrite Dx, Dy, Hx. reflexivity.
Qed.

Lemma fromhex_bad h c :
  In c h -> hex_val c = None -> is_space c = false -> fromhex h = Raise ValueError.
Proof.
  intros Hin Hc Hs. revert Hin.
  assert (G : forall n h, (length h <= n)%nat -> In c h -> fromhex h = Raise ValueError).
  { induction n as [|n IH]; intros h0 Hlen Hin.
    - destruct h0; [contradiction|simpl in Hlen; lia].
    - destruct h0 as [|a r]; [contradiction|]. cbn [fromhex].
      simpl in Hlen. destruct (is_space a) eqn:Ea.
      + apply IH; [lia|]. destruct Hin as [->|]; [congruence|auto].
      + destruct (hex_val a) as [x|] eqn:Ev; [|reflexivity].
        destruct r as [|d r']; [reflexivity|].
        destruct (hex_val d) as [y|] eqn:Ed; [|reflexivity].
        rewrite IH; [reflexivity| |].
        * simpl in Hlen; lia.
        * destruct Hin as [->|[->|]]; [congruence|congruence|auto]. }
  intros Hin. apply (G (length h)); auto.
Qed.

Lemma fromhex_bytes_ok h b : fromhex h = Ok b -> bytes_ok b = true.
Proof.
  assert (G : forall n h b, (length h <= n)%nat -> fromhex h = Ok b -> bytes_ok b = true).
  { induction n as [|n IH]; intros h0 b0 Hlen H.
    - destruct h0; [inv H; reflexivity|simpl in Hlen; lia].
    - destruct h0 as [|a r]; [inv H; reflexivity|]. cbn [fromhex] in H. simpl in Hlen.
      destruct (is_space a); [apply (IH r); auto; lia|].
      destruct (hex_val a) as [x|] eqn:Ex; [|discriminate].
      destruct r as [|d r']; [discriminate|]. destruct (hex_val d) as [y|] eqn:Ey; [|discriminate].
      apply rmap_ok in H as (b1 & Hb & ->).
      apply hex_val_range in Ex. apply hex_val_range in Ey.
      rewrite bytes_ok_cons. rewrite (IH r' b1); auto; [|simpl in Hlen; lia].
      unfold is_byte. lia. }
  intros H. apply (G (length h) h); auto.
Qed.

Lemma hex_to_bytes_bytes_ok h b : hex_to_bytes h = Ok b -> bytes_ok b = true.
Proof. apply fromhex_bytes_ok. Qed.

Lemma hex_to_bytes_hex h :
  forallb is_hex h = true ->
  exists b, hex_to_bytes h = Ok b /\ bytes_ok b = true /\
            bytes_to_hex b = lower (if Nat.odd (length h) then 48 :: h else h).
Proof.
  intros H. unfold hex_to_bytes. destruct (Nat.odd (length h)) eqn:E; apply fromhex_hex; auto.
  - simpl length. rewrite Nat.even_succ. auto.
  - rewrite <- Nat.negb_odd, E. reflexivity.
Qed.

Lemma hex_to_bytes_bad h c :
  In c h -> hex_val c = None -> is_space c = false -> hex_to_bytes h = Raise ValueError.
Proof.
  intros. unfold hex_to_bytes. destruct (Nat.odd (length h)); eapply fromhex_bad; eauto. right; auto.
Qed.

Lemma bytes_to_hex_inj a b : bytes_ok a = true -> bytes_ok b = true -> bytes_to_hex a = bytes_to_hex b -> a = b.
Proof.
  intros Ha Hb H. apply hex_to_bytes_to_hex in Ha. apply hex_to_bytes_to_hex in Hb. congruence.
Qed.

Lemma bytes_to_hex_app a b : bytes_to_hex (a ++ b) = bytes_to_hex a ++ bytes_to_hex b.
Proof. unfold bytes_to_hex. apply flat_map_app. Qed.

Lemma bytes_to_hex_is_hex b : bytes_ok b = true -> forallb is_hex (bytes_to_hex b) = true.
Proof.
  induction b as [|x b IH]; intros H; [reflexivity|].
  rewrite bytes_ok_cons in H. apply andb_prop in H as [Hx Hb]. apply is_byte_iff in Hx.
  unfold bytes_to_hex in *. cbn [flat_map app forallb].
  unfold is_hex at 1 2. rewrite !hex_val_digit by (zdm; lia). auto.
Qed.

Lemma lower_digit n : 0 <= n < 16 -> lower_char (hex_digit n) = hex_digit n.
Proof. intros H. unfold lower_char, hex_digit. destruct (n <? 10) eqn:E; destruct (_ && _) eqn:E2; lia. Qed.

Lemma lower_bytes_to_hex b : bytes_ok b = true -> lower (bytes_to_hex b) = bytes_to_hex b.
Proof.
  induction b as [|x b IH]; intros H; [reflexivity|].
  rewrite bytes_ok_cons in H. apply andb_prop in H as [Hx Hb]. apply is_byte_iff in Hx.
  unfold bytes_to_hex, lower in *. cbn [flat_map app map].
  rewrite !lower_digit by (zdm; lia). rewrite IH by auto. reflexivity.
Qed.

Lemma flip_involutive h :
  Nat.even (length h) = true -> forallb is_hex h = true ->
  exists f, flip_hex_byte_order h = Ok f /\ flip_hex_byte_order f = Ok (lower h).
Proof.
  intros He Hh. destruct (hex_to_bytes_hex h Hh) as (b & Hb & Hok & Hx).
  rewrite <- Nat.negb_even, He in Hx. simpl in Hx.
  unfold flip_hex_byte_order. rewrite Hb. simpl. eexists. split; [reflexivity|].
  rewrite hex_to_bytes_to_hex by (rewrite bytes_ok_rev; auto). simpl.
  rewrite rev_involutive, Hx. reflexivity.
Qed.

(** ** int_to_hex / hex_to_int *)
Lemma hex_digits_fuel_app fuel n acc :
  hex_digits_fuel fuel n acc = hex_digits_fuel fuel n [] ++ acc.
Proof.
  revert n acc; induction fuel as [|k IH]; intros n acc; cbn [hex_digits_fuel]; [reflexivity|].
  destruct (n =? 0); [reflexivity|]. rewrite IH, (IH _ [_]), <- app_assoc. reflexivity.
Qed.

Lemma hex_to_int_acc_app a b acc :
  hex_to_int_acc (a ++ b) acc = bind (hex_to_int_acc a acc) (hex_to_int_acc b).
Proof.
  revert acc; induction a as [|c a IH]; intros acc; cbn [app hex_to_int_acc]; [reflexivity|].
  destruct (hex_val c); [apply IH|reflexivity].
Qed.

Lemma hex_digits_fuel_value fuel n :
  0 <= n < 2 ^ Z.of_nat fuel -> hex_to_int_acc (hex_digits_fuel fuel n []) 0 = Ok n.
Proof.
  revert n; induction fuel as [|k IH]; intros n Hn.
  - simpl in *. f_equal. lia.
  - cbn [hex_digits_fuel]. destruct (n =? 0) eqn:E; [simpl; f_equal; lia|].
    rewrite hex_digits_fuel_app, hex_to_int_acc_app.
    rewrite Nat2Z.inj_succ, Z.pow_succ_r in Hn by lia.
    rewrite IH by (zdm; nia). cbn [bind hex_to_int_acc].
    rewrite hex_val_digit by (zdm; lia). f_equal. zdm; lia.
Qed.

Lemma hex_to_int_of_int n : 0 <= n -> hex_to_int (int_to_hex n) = Ok n.
Proof.
  intros Hn. unfold int_to_hex, hex_digits. replace (n <? 0) with false by lia.
  destruct (n =? 0) eqn:E; [apply Z.eqb_eq in E; subst; reflexivity|].
  assert (V : hex_to_int_acc (hex_digits_fuel (S (Z.to_nat (Z.log2 n))) n []) 0 = Ok n).
  { apply hex_digits_fuel_value. pose proof (Z.log2_spec n ltac:(lia)). pose proof (Z.log2_nonneg n).
    rewrite Nat2Z.inj_succ, Z2Nat.id by lia. lia. }
  unfold hex_to_int. destruct (hex_digits_fuel _ n []) as [|c r] eqn:Er; [|exact V].
  simpl in V. inv V. discriminate.
Qed.

(** ** chunk_data *)
Lemma chunk_fuel_concat {A} fuel size (d : list A) :
  (1 <= size)%nat -> (length d <= fuel)%nat -> concat (chunk_fuel fuel size d) = d.
Proof.
  intros Hs. revert d; induction fuel as [|k IH]; intros d Hd.
  - destruct d; [reflexivity|simpl in Hd; lia].
  - cbn [chunk_fuel]. destruct d as [|x d]; [reflexivity|].
    cbn [concat]. rewrite IH; [apply firstn_skipn|]. rewrite skipn_length. simpl length in *. lia.
Qed.

Lemma chunk_data_concat {A} size (d : list A) : (1 <= size)%nat -> concat (chunk_data d size) = d.
Proof. intros. apply chunk_fuel_concat; auto. Qed.

Lemma chunk_fuel_sizes {A} fuel size (d : list A) :
  (1 <= size)%nat -> (length d <= fuel)%nat ->
  forall i c, nth_error (chunk_fuel fuel size d) i = Some c ->
  (1 <= length c <= size)%nat /\
  (S i < length (chunk_fuel fuel size d) -> length c = size)%nat.
Proof.
  intros Hs. revert d; induction fuel as [|k IH]; intros d Hd i c Hc.
  - destruct i; discriminate.
  - cbn [chunk_fuel] in *. destruct d as [|x d]; [destruct i; discriminate|].
    destruct i as [|i]; cbn [nth_error length] in *.
    + inv Hc. rewrite firstn_length. split; [simpl length; lia|].
      intros Hlt. apply Nat.min_l.
      destruct (Nat.le_gt_cases size (length (x :: d))); auto.
      rewrite (skipn_all2 (x :: d)) in Hlt by lia.
      assert (chunk_fuel k size (@nil A) = []) as E by (destruct k; reflexivity).
      rewrite E in Hlt. simpl in Hlt. lia.
    + destruct (IH (skipn size (x :: d))) with (i := i) (c := c) as [H1 H2]; auto.
      * rewrite skipn_length. simpl length in *. lia.
      * split; auto. intros. apply H2. lia.
Qed.

Lemma chunk_data_sizes {A} size (d : list A) :
  (1 <= size)%nat ->
  forall i c, nth_error (chunk_data d size) i = Some c ->
  (1 <= length c <= size)%nat /\ (S i < length (chunk_data d size) -> length c = size)%nat.
Proof. intros. eapply chunk_fuel_sizes; eauto. Qed.
