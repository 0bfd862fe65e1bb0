(** Square roots modulo the field size; public key encodings. *)
From Coq Require Import Znumtheory Zpow_facts.
From Verif Require Export F_prime M_format S_Curve.

Lemma field_size_eq : FIELD_SIZE = P256.
Proof. vm_compute. reflexivity. Qed.
Lemma secp_p_eq : secp_p = P256.
Proof. reflexivity. Qed.
Lemma tonelli_eq : TONELLI_SHANKS_CONSTANT = (P256 + 1) / 4.
Proof. vm_compute. reflexivity. Qed.

Lemma P256_pos : 3 < P256.
Proof. vm_compute. reflexivity. Qed.

(** -7 is not a cube, so no point has y = 0. *)
Lemma seven_check : pow256 7 (Z.to_pos ((P256 - 1) / 3)) mod P256 =? 1 = false.
Proof. vm_compute. reflexivity. Qed.
Lemma minus_pow n e : 0 < n -> Z.Even e -> 0 <= e -> (n - 7) ^ e mod n = 7 ^ e mod n.
Proof.
  intros Hn Ev He. rewrite <- (Z.pow_opp_even 7) by auto. apply pow_mod_eq; auto. apply mod_eq_div; [lia|]. exists 1. lia.
Qed.
Lemma third_even : Z.Even ((P256 - 1) / 3).
Proof. exists ((P256 - 1) / 6). vm_compute. reflexivity. Qed.
Lemma third_pos : Z.pos (Z.to_pos ((P256 - 1) / 3)) = (P256 - 1) / 3.
Proof. vm_compute. reflexivity. Qed.
Lemma minus_seven : (P256 - 7) ^ ((P256 - 1) / 3) mod P256 <> 1.
Proof.
  pose proof seven_check as H. apply Z.eqb_neq in H. rewrite pow256_ok, third_pos in H. pose proof third_even as Ev.
  assert (Hn : 0 < P256) by reflexivity. assert (He : 0 <= (P256 - 1) / 3) by (vm_compute; discriminate).
  generalize dependent ((P256 - 1) / 3). generalize dependent P256. intros n Hn e H Ev He. rewrite minus_pow; auto.
Qed.
Lemma P256_3 : (P256 - 1) / 3 * 3 = P256 - 1.
Proof. vm_compute. reflexivity. Qed.
Lemma P256_4 : (P256 + 1) / 4 * 4 = P256 + 1.
Proof. vm_compute. reflexivity. Qed.

Definition FS : Z := P256.
Lemma FS_facts : prime FS /\ 3 < FS /\ (FS - 1) / 3 * 3 = FS - 1 /\ (FS + 1) / 4 * 4 = FS + 1 /\
  (FS - 7) ^ ((FS - 1) / 3) mod FS <> 1.
Proof.
  split; [apply prime_P256|]. split; [apply P256_pos|]. split; [apply P256_3|]. split; [apply P256_4|].
  exact minus_seven.
Qed.
Global Opaque FS.

Lemma no_zero_root x : (x * x * x + 7) mod FS <> 0.
Proof.
  destruct FS_facts as (Hp & H3 & Hd3 & _ & Hc). intros H.
  assert (Hk : 0 <= (FS - 1) / 3) by (apply Z.div_pos; lia).
  assert (Hx : ~ (FS | x)).
  { intros [k ->]. rewrite Z.add_mod in H by lia.
    replace (k * FS * (k * FS) * (k * FS)) with (k * FS * k * FS * k * FS) in H by ring.
    rewrite Z.mod_mul, Z.add_0_l, Z.mod_mod in H by lia. 
    apply Z.mod_divide in H; [|lia]. apply Z.divide_pos_le in H; [|lia].
    assert (C : 7 < FS) by (clear; vm_compute; reflexivity). lia. }
  apply Hc.
  assert (E : (FS - 7) mod FS = (x ^ 3) mod FS).
  { apply mod_eq_div; [lia|]. apply Z.mod_divide in H; [|lia].
    replace (x ^ 3) with (x * x * x) by ring. replace (FS - 7 - x * x * x) with (FS - (x * x * x + 7)) by ring.
    apply Z.divide_sub_r; auto. apply Z.divide_refl. }
  rewrite (pow_mod_eq (FS - 7) (x ^ 3) FS ((FS - 1) / 3) ltac:(lia) Hk E).
  rewrite <- (Z.pow_mul_r x 3 ((FS - 1) / 3)) by lia. rewrite (Z.mul_comm 3), Hd3. apply fermat; auto.
Qed.

Lemma sqrt_ok c y : (y * y) mod FS = c mod FS ->
  let r := Zpow_mod c ((FS + 1) / 4) FS in r = y mod FS \/ r = (- y) mod FS.
Proof.
  destruct FS_facts as (Hp & H3 & _ & Hd4 & _). intros E r.
  set (e := (FS - 1) / 2).
  assert (He : e * 2 = FS - 1) by (unfold e; Z.div_mod_to_equations; lia).
  assert (He2 : (FS + 1) / 4 * 2 = e + 1) by lia.
  assert (Hr : r = (y * y ^ e) mod FS).
  { unfold r. rewrite Zpow_mod_correct by lia.
    rewrite (pow_mod_eq c (y ^ 2) FS); [|lia|lia|rewrite Z.pow_2_r; symmetry; exact E].
    rewrite <- Z.pow_mul_r by lia. rewrite Z.mul_comm, He2, Z.pow_add_r, Z.pow_1_r by lia. f_equal. ring. }
  destruct (Zdivide_dec FS y) as [D|D].
  - left. rewrite Hr. apply Z.mod_divide in D; [|lia]. rewrite Zmult_mod, D. reflexivity.
  - assert (F : y ^ (FS - 1) mod FS = 1) by (apply fermat; auto).
    rewrite <- He, Z.pow_mul_r in F by lia.
    assert (D2 : (FS | (y ^ e - 1) * (y ^ e + 1))).
    { replace ((y ^ e - 1) * (y ^ e + 1)) with ((y ^ e) ^ 2 - 1) by ring.
      apply mod_eq_div; [lia|]. rewrite F. symmetry. apply Z.mod_1_l. lia. }
    apply prime_mult in D2; auto. destruct D2 as [D2|D2].
    + left. rewrite Hr. apply mod_eq_div; [lia|]. replace (y * y ^ e - y) with (y * (y ^ e - 1)) by ring.
      apply Z.divide_mul_r; auto.
    + right. rewrite Hr. apply mod_eq_div; [lia|]. replace (y * y ^ e - - y) with (y * (y ^ e + 1)) by ring.
      apply Z.divide_mul_r; auto.
Qed.

Lemma land_1 n : Z.land n 1 = n mod 2.
Proof. change 1 with (Z.ones 1). rewrite Z.land_ones by lia. reflexivity. Qed.

Lemma FS_odd : FS mod 2 = 1.
Proof. destruct FS_facts as (_ & _ & _ & H & _). zdm; lia. Qed.

Lemma parity_flip n q b : n mod 2 = 1 -> 0 <= b < 2 -> q mod 2 <> b -> (n - q) mod 2 = b.
Proof. intros. zdm. lia. Qed.

(** The two candidates differ in parity. *)
Lemma x_to_y_spec x y b : (y * y) mod FS = (x * x * x + 7) mod FS -> 0 <= b < 2 ->
  let r := x_to_y x b in
  0 <= r < FS /\ r mod 2 = b /\ (r = y mod FS \/ r = (- y) mod FS).
Proof.
  intros E Hb r. destruct FS_facts as (Hp & H3 & _ & Hd4 & _).
  assert (HF : FIELD_SIZE = FS) by (apply field_size_eq).
  assert (HT : TONELLI_SHANKS_CONSTANT = (FS + 1) / 4) by (apply tonelli_eq).
  pose proof (sqrt_ok _ _ E) as S. cbv zeta in S.
  unfold r, x_to_y, py_pow_mod, parity. rewrite HF, HT. 
  set (q := Zpow_mod (x * x * x + 7) ((FS + 1) / 4) FS) in *.
  assert (Hq : 0 <= q < FS).
  { destruct S as [-> | ->]; apply Z.mod_pos_bound; lia. }
  assert (Hq0 : q <> 0).
  { intros C. rewrite C in S. apply (no_zero_root x). rewrite <- E.
    apply Z.mod_divide; [lia|]. assert (D : (FS | y)).
    { destruct S as [S|S]; symmetry in S; apply Z.mod_divide in S; try lia; auto. apply Z.divide_opp_r. auto. }
    apply Z.divide_mul_l. auto. }
  pose proof FS_odd as Ho. rewrite land_1.
  assert (Neg : forall z, (- z) mod FS <> 0 -> FS - (- z) mod FS = z mod FS).
  { intros z Hz. rewrite Z.mod_opp_l_nz; try lia.
    intros C. apply Hz. rewrite Z.mod_opp_l_z; lia. }
  destruct (q mod 2 =? b) eqn:P; cbn [negb].
  - split; auto. split; [lia|]. auto.
  - split; [lia|]. split; [apply parity_flip; auto; lia|].
    destruct S as [S|S].
    + right. rewrite S. replace y with (- - y) at 1 by lia. rewrite <- (Neg (- y)); rewrite Z.opp_involutive; lia.
    + left. rewrite S. apply Neg. lia.
Qed.

Lemma x_to_y_recovers x y : 0 <= y < FS -> (y * y) mod FS = (x * x * x + 7) mod FS ->
  x_to_y x (y mod 2) = y.
Proof.
  intros Hy E. assert (Hb : 0 <= y mod 2 < 2) by (apply Z.mod_pos_bound; lia).
  destruct (x_to_y_spec x y (y mod 2) E Hb) as (H1 & H2 & [H3|H3]).
  - rewrite H3. apply Z.mod_small. auto.
  - assert (Hy0 : y <> 0).
    { intros ->. apply (no_zero_root x). rewrite <- E. reflexivity. }
    assert (N : (- y) mod FS = FS - y).
    { rewrite Z.mod_opp_l_nz; try lia; rewrite Z.mod_small by lia; lia. }
    pose proof FS_odd as Ho. rewrite N in H3. rewrite H3 in H2. clear - Ho H2. exfalso. zdm; lia.
Qed.

(** ** Encodings *)
Lemma be_value_from_be b : be_value b = from_be b.
Proof.
  unfold be_value, from_be. generalize 0. induction b as [|x b IH]; intros a; cbn [fold_left]; auto.
  rewrite IH, (Z.mul_comm 256 a). reflexivity.
Qed.

Lemma P256_bound : P256 < 256 ^ Z.of_nat 32.
Proof. vm_compute. reflexivity. Qed.

Lemma FS_bound : FS < 256 ^ Z.of_nat 32.
Proof. exact P256_bound. Qed.

Lemma be32 v : 0 <= v < 256 ^ Z.of_nat 32 -> exists b, to_bytes_be v 32 = Ok b /\ length b = 32%nat /\
  bytes_ok b = true /\ from_be b = v.
Proof.
  intros H. exists (rev (le_bytes 32 v)). split; [apply to_bytes_be_ok'; auto|].
  split; [rewrite rev_length, le_bytes_length; auto|].
  split; [rewrite bytes_ok_rev; apply le_bytes_ok|]. apply from_be_be_bytes; auto.
Qed.

Lemma OnCurve_FS x y : OnCurve x y -> 0 <= x < FS /\ 0 <= y < FS /\ (y * y) mod FS = (x * x * x + 7) mod FS.
Proof. exact (fun H => H). Qed.

Lemma coords_compressed x y : 0 <= x < 256 ^ Z.of_nat 32 ->
  exists key, coords_to_public_key x y true = Ok key /\ SEC1_compressed x y key /\ length key = 33%nat.
Proof.
  intros Hx. destruct (be32 x Hx) as (xb & E & L & B & V).
  unfold coords_to_public_key. rewrite E. cbn [bind]. eexists. split; [reflexivity|].
  assert (P : (if Z.land y 1 =? 0 then PUBLIC_KEY_COMPRESSED_EVEN_Y else PUBLIC_KEY_COMPRESSED_ODD_Y) =
              [if Z.even y then 2 else 3]).
  { rewrite land_1, Zmod_even. destruct (Z.even y); reflexivity. }
  rewrite P. split; [|simpl; lia]. exists xb. repeat split; auto.
  - apply bytes_ok_Forall; auto.
  - rewrite be_value_from_be. auto.
Qed.

Lemma coords_uncompressed x y : 0 <= x < 256 ^ Z.of_nat 32 -> 0 <= y < 256 ^ Z.of_nat 32 ->
  exists key, coords_to_public_key x y false = Ok key /\ SEC1_uncompressed x y key /\ length key = 65%nat.
Proof.
  intros Hx Hy. destruct (be32 x Hx) as (xb & E & L & B & V). destruct (be32 y Hy) as (yb & E' & L' & B' & V').
  unfold coords_to_public_key. rewrite E, E'. cbn [bind]. eexists. split; [reflexivity|].
  split; [|simpl; rewrite app_length; lia]. exists xb, yb. repeat split; auto; try (apply bytes_ok_Forall; auto);
    rewrite be_value_from_be; auto.
Qed.

Lemma decode_compressed x y key : 0 <= y < FS -> (y * y) mod FS = (x * x * x + 7) mod FS ->
  SEC1_compressed x y key -> public_key_to_coords key = Ok (x, y).
Proof.
  intros Hy E (xb & L & B & V & ->). unfold public_key_to_coords.
  replace (zlen _) with 33 by (rewrite zlen_cons; unfold zlen; lia). cbn [Z.eqb firstn skipn].
  rewrite be_value_from_be in V. rewrite V.
  replace (Z.land (from_be [if Z.even y then 2 else 3]) 1) with (y mod 2).
  2:{ rewrite Zmod_even. destruct (Z.even y); reflexivity. }
  change (33 =? 33) with true. cbv iota. rewrite x_to_y_recovers by auto. reflexivity.
Qed.

Lemma decode_uncompressed x y key : SEC1_uncompressed x y key -> public_key_to_coords key = Ok (x, y).
Proof.
  intros (xb & yb & L & L' & B & B' & V & V' & ->). unfold public_key_to_coords.
  replace (zlen _) with 65 by (rewrite zlen_cons, zlen_app; unfold zlen; lia).
  change (65 =? 33) with false. change (65 =? 65) with true. cbv iota.
  change (skipn 33 (4 :: xb ++ yb)) with (skipn 32 (xb ++ yb)).
  change (skipn 1 (4 :: xb ++ yb)) with (xb ++ yb).
  replace (firstn 32 (xb ++ yb)) with xb
    by (rewrite <- L, firstn_app, Nat.sub_diag, firstn_all, firstn_O, app_nil_r; reflexivity).
  replace (skipn 32 (xb ++ yb)) with yb
    by (rewrite <- L, skipn_app, Nat.sub_diag, skipn_all; reflexivity).
  rewrite !be_value_from_be in *. congruence.
Qed.

Lemma decode_any_prefix pre xb y0 : length xb = 32%nat -> bytes_ok (pre :: xb) = true ->
  (y0 * y0) mod FS = (from_be xb * from_be xb * from_be xb + 7) mod FS ->
  exists y, public_key_to_coords (pre :: xb) = Ok (from_be xb, y) /\ 0 <= y < FS /\
    (y * y) mod FS = (from_be xb * from_be xb * from_be xb + 7) mod FS /\ y mod 2 = pre mod 2.
Proof.
  intros L B E. unfold public_key_to_coords.
  replace (zlen _) with 33 by (rewrite zlen_cons; unfold zlen; lia).
  change (33 =? 33) with true. cbv iota. cbn [firstn skipn].
  replace (Z.land (from_be [pre]) 1) with (pre mod 2) by (rewrite land_1; f_equal; unfold from_be; simpl; lia).
  assert (Hb : 0 <= pre mod 2 < 2) by (apply Z.mod_pos_bound; lia).
  destruct (x_to_y_spec _ y0 _ E Hb) as (H1 & H2 & H3).
  eexists. split; [reflexivity|]. split; auto. split; auto.
  rewrite <- E. destruct FS_facts as (_ & F3 & _).
  destruct H3 as [-> | ->].
  - rewrite <- Zmult_mod. reflexivity.
  - rewrite <- Zmult_mod. f_equal. ring.
Qed.

Lemma decode_bad_length key : length key <> 33%nat -> length key <> 65%nat -> public_key_to_coords key = Raise ValueError.
Proof.
  intros H1 H2. unfold public_key_to_coords, zlen.
  replace (Z.of_nat (length key) =? 33) with false by lia. replace (Z.of_nat (length key) =? 65) with false by lia. reflexivity.
Qed.
