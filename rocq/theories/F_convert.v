(** convertbits regroups bits. *)
From Coq Require Import String.
From Verif Require Export F_base M_base32 S_Bech32.

(** ** Bits *)
Lemma bits_of_length n x : length (bits_of n x) = n.
Proof. induction n; simpl; auto. Qed.

Lemma bits_of_ext n x y : (forall i, 0 <= i < Z.of_nat n -> Z.testbit x i = Z.testbit y i) -> bits_of n x = bits_of n y.
Proof.
  induction n as [|n IH]; intros H; auto. cbn [bits_of]. rewrite (H (Z.of_nat n)) by lia. f_equal.
  apply IH. intros i Hi. apply H. lia.
Qed.

Lemma bits_of_app a b x : bits_of (a + b) x = bits_of a (Z.shiftr x (Z.of_nat b)) ++ bits_of b x.
Proof.
  induction a as [|a IH]; auto. cbn [bits_of Nat.add app]. f_equal; auto.
  rewrite Z.shiftr_spec by lia. f_equal. lia.
Qed.

Lemma bits_of_inj_bits n x y : bits_of n x = bits_of n y -> forall i, 0 <= i < Z.of_nat n -> Z.testbit x i = Z.testbit y i.
Proof.
  induction n as [|n IH]; intros H i Hi; [lia|]. cbn [bits_of] in H. injection H as H1 H2.
  destruct (Z.eq_dec i (Z.of_nat n)) as [->|N]; auto. apply IH; auto. lia.
Qed.

Lemma testbit_small n x i : 0 <= x < 2 ^ n -> 0 <= n -> n <= i -> Z.testbit x i = false.
Proof.
  intros Hx Hn Hi. rewrite <- (Z.mod_small x (2 ^ n)) by lia. apply Z.mod_pow2_bits_high. lia.
Qed.

Lemma bits_of_inj n x y : 0 <= x < 2 ^ Z.of_nat n -> 0 <= y < 2 ^ Z.of_nat n -> bits_of n x = bits_of n y -> x = y.
Proof.
  intros Hx Hy H. apply Z.bits_inj'. intros i Hi. destruct (Z_lt_dec i (Z.of_nat n)).
  - apply (bits_of_inj_bits n); auto; lia.
  - rewrite !(testbit_small (Z.of_nat n)) by lia. reflexivity.
Qed.

Lemma bits_of_0 n : bits_of n 0 = repeat false n.
Proof. induction n; simpl; auto. rewrite Z.bits_0, IHn. reflexivity. Qed.

Lemma bits_of_land n m x : (n <= m)%nat -> bits_of n (Z.land x (Z.ones (Z.of_nat m))) = bits_of n x.
Proof.
  intros H. apply bits_of_ext. intros i Hi. rewrite Z.land_spec, Z.ones_spec_low by lia. apply andb_true_r.
Qed.

Lemma land_ones_bound n x : 0 <= n -> 0 <= Z.land x (Z.ones n) < 2 ^ n.
Proof. intros H. rewrite Z.land_ones by auto. apply Z.mod_pos_bound. apply Z.pow_pos_nonneg; lia. Qed.

Lemma shiftl1_ones n : 0 <= n -> Z.shiftl 1 n - 1 = Z.ones n.
Proof. intros H. rewrite Z.ones_equiv, Z.shiftl_mul_pow2 by auto. lia. Qed.

Lemma bitstring_app n a b : bitstring n (a ++ b) = bitstring n a ++ bitstring n b.
Proof. apply flat_map_app. Qed.
Lemma bitstring_length n l : length (bitstring n l) = (n * length l)%nat.
Proof. induction l; simpl; [lia|]. rewrite app_length, bits_of_length, IHl. lia. Qed.

Lemma app_inj_len {A} (a b c d : list A) : length a = length c -> a ++ b = c ++ d -> a = c /\ b = d.
Proof.
  revert c; induction a as [|x a IH]; intros [|y c] Hl H; try discriminate; auto.
  simpl in *. inv H. destruct (IH c) as [-> ->]; auto.
Qed.

Definition small (n : nat) (l : list Z) : Prop := Forall (fun x => 0 <= x < 2 ^ Z.of_nat n) l.

Lemma bitstring_inj n a b : small n a -> small n b -> length a = length b -> bitstring n a = bitstring n b -> a = b.
Proof.
  intros Ha. revert b; induction Ha as [|x a Hx Ha IH]; intros b Hb Hl H.
  - destruct b; [auto|discriminate].
  - destruct Hb as [|y b Hy Hb]; [discriminate|]. cbn [bitstring flat_map] in H.
    apply app_inj_len in H as [H1 H2]; [|rewrite !bits_of_length; auto].
    f_equal; [apply (bits_of_inj n); auto|apply IH; auto].
Qed.

(** ** The inner loop *)
Lemma emit_spec t acc ret : (1 <= t)%nat -> forall fuel b, (b <= fuel)%nat ->
  exists out b', emit fuel acc (Z.of_nat b) (Z.of_nat t) (Z.ones (Z.of_nat t)) ret = (Z.of_nat b', ret ++ out) /\
    (b' < t)%nat /\ small t out /\ bitstring t out ++ bits_of b' acc = bits_of b acc.
Proof.
  intros Ht fuel. revert ret. induction fuel as [|fuel IH]; intros ret b Hb; cbn [emit].
  - exists [], b. rewrite app_nil_r. repeat split; auto; [lia|constructor].
  - destruct (Z.of_nat t <=? Z.of_nat b) eqn:E.
    + set (s := Z.land (Z.shiftr acc (Z.of_nat b - Z.of_nat t)) (Z.ones (Z.of_nat t))).
      destruct (IH (ret ++ [s]) (b - t)%nat ltac:(lia)) as (out & b' & Ee & Hb' & Ho & Hbits).
      replace (Z.of_nat b - Z.of_nat t) with (Z.of_nat (b - t)) by lia.
      exists (s :: out), b'. rewrite Ee, <- app_assoc. repeat split; auto.
      * constructor; auto. apply land_ones_bound. lia.
      * cbn [bitstring flat_map]. rewrite <- app_assoc. fold (bitstring t out). rewrite Hbits.
        assert (Eb : bits_of b acc = bits_of (t + (b - t)) acc) by (f_equal; lia).
        rewrite Eb, bits_of_app. f_equal.
        unfold s. rewrite bits_of_land by auto. do 2 f_equal. lia.
    + exists [], b. rewrite app_nil_r. repeat split; auto; [lia|constructor].
Qed.

(** ** The outer loop *)
Lemma convert_loop_spec f t data : (1 <= f)%nat -> (1 <= t)%nat -> small f data ->
  forall acc b ret, (b < t)%nat ->
  exists acc' b' out,
    convert_loop data (Z.of_nat f) (Z.of_nat t) (Z.ones (Z.of_nat t)) (Z.ones (Z.of_nat (f + t - 1)))
                 acc (Z.of_nat b) ret = Some (acc', Z.of_nat b', ret ++ out) /\
    (b' < t)%nat /\ small t out /\
    bitstring t out ++ bits_of b' acc' = bits_of b acc ++ bitstring f data.
Proof.
  intros Hf Ht Hd. induction Hd as [|v data Hv Hd IH]; intros acc b ret Hb; cbn [convert_loop].
  - exists acc, b, []. rewrite !app_nil_r. repeat split; auto. constructor.
  - replace (v <? 0) with false by lia. rewrite Z.shiftr_div_pow2 by lia. rewrite Z.div_small by lia.
    cbn [orb negb Z.eqb].
    set (acc1 := Z.land (Z.lor (Z.shiftl acc (Z.of_nat f)) v) (Z.ones (Z.of_nat (f + t - 1)))).
    replace (Z.of_nat b + Z.of_nat f) with (Z.of_nat (b + f)) by lia.
    destruct (emit_spec t acc1 ret Ht (Z.to_nat (Z.of_nat (b + f))) (b + f)%nat ltac:(lia))
      as (out & b' & Ee & Hb' & Ho & Hbits). rewrite Ee.
    destruct (IH acc1 b' (ret ++ out) Hb') as (acc2 & b2 & out2 & E2 & Hb2 & Ho2 & Hbits2).
    exists acc2, b2, (out ++ out2). rewrite E2, app_assoc. repeat split; auto.
    + apply Forall_app. auto.
    + rewrite bitstring_app, <- app_assoc, Hbits2, app_assoc, Hbits.
      cbn [bitstring flat_map]. rewrite app_assoc. f_equal.
      unfold acc1. rewrite bits_of_land by lia. rewrite bits_of_app. f_equal.
      * apply bits_of_ext. intros i Hi. rewrite Z.shiftr_spec, Z.lor_spec by lia.
        rewrite Z.shiftl_spec by lia. rewrite (testbit_small (Z.of_nat f) v) by lia.
        rewrite orb_false_r. f_equal. lia.
      * apply bits_of_ext. intros i Hi. rewrite Z.lor_spec, Z.shiftl_spec by lia.
        rewrite Z.testbit_neg_r by lia. reflexivity.
Qed.

Lemma convert_loop_bad f t mv ma data : (exists v, In v data /\ ~ 0 <= v < 2 ^ f) -> 0 <= f -> 
  forall acc b ret, convert_loop data f t mv ma acc b ret = None.
Proof.
  intros (v & Hin & Hv) Hf. induction data as [|x data IH]; intros acc b ret; [contradiction|].
  cbn [convert_loop]. destruct Hin as [->|Hin].
  - replace ((v <? 0) || negb (Z.shiftr v f =? 0)) with true; [reflexivity|].
    symmetry. destruct (v <? 0) eqn:E; auto. cbn [orb].
    rewrite Z.shiftr_div_pow2 by auto. apply negb_true_iff. apply Z.eqb_neq. intros C.
    assert (0 < 2 ^ f) by (apply Z.pow_pos_nonneg; lia).
    apply Z.div_small_iff in C; [|lia]. lia.
  - destruct (_ || _); auto. destruct (emit _ _ _ _ _ _). apply IH; auto.
Qed.

(** The last symbol: the remaining bits, padded with zeros on the right. *)
Lemma pad_symbol t b acc : (b <= t)%nat ->
  bits_of t (Z.land (Z.shiftl acc (Z.of_nat t - Z.of_nat b)) (Z.ones (Z.of_nat t))) =
  bits_of b acc ++ repeat false (t - b).
Proof.
  intros H. rewrite bits_of_land by auto. replace t with (b + (t - b))%nat at 1 by lia.
  rewrite bits_of_app. f_equal.
  - apply bits_of_ext. intros i Hi. rewrite Z.shiftr_spec, Z.shiftl_spec by lia. f_equal. lia.
  - rewrite <- bits_of_0. apply bits_of_ext. intros i Hi. rewrite Z.shiftl_spec, Z.bits_0 by lia.
    apply Z.testbit_neg_r. lia.
Qed.

Lemma convertbits_pad f t data : (1 <= f)%nat -> (1 <= t)%nat -> small f data ->
  exists out k, convertbits data (Z.of_nat f) (Z.of_nat t) true = Some out /\ small t out /\
    (k < t)%nat /\ bitstring t out = bitstring f data ++ repeat false k.
Proof.
  intros Hf Ht Hd. unfold convertbits. rewrite !shiftl1_ones by lia.
  replace (Z.of_nat f + Z.of_nat t - 1) with (Z.of_nat (f + t - 1)) by lia.
  destruct (convert_loop_spec f t data Hf Ht Hd 0 0%nat [] ltac:(lia)) as (acc & b & out & E & Hb & Ho & Hbits).
  cbn [Z.of_nat app bits_of] in E, Hbits. rewrite E.
  destruct (Z.of_nat b =? 0) eqn:E0.
  - exists out, 0%nat. repeat split; auto. cbn [repeat]. rewrite app_nil_r, <- Hbits.
    replace b with 0%nat by lia. cbn [bits_of]. rewrite app_nil_r. reflexivity.
  - eexists. exists (t - b)%nat. split; [reflexivity|]. split; [|split; [lia|]].
    + apply Forall_app. split; auto. constructor; [|constructor]. apply land_ones_bound. lia.
    + rewrite bitstring_app. cbn [bitstring flat_map]. rewrite app_nil_r, pad_symbol by lia.
      rewrite app_assoc. rewrite Hbits. reflexivity.
Qed.

Lemma convertbits_nopad f t data : (1 <= f)%nat -> (1 <= t)%nat -> small f data ->
  forall out, convertbits data (Z.of_nat f) (Z.of_nat t) false = Some out <->
    small t out /\ exists k, (k < f)%nat /\ (k < t)%nat /\ bitstring f data = bitstring t out ++ repeat false k.
Proof.
  intros Hf Ht Hd out. unfold convertbits. rewrite !shiftl1_ones by lia.
  replace (Z.of_nat f + Z.of_nat t - 1) with (Z.of_nat (f + t - 1)) by lia.
  destruct (convert_loop_spec f t data Hf Ht Hd 0 0%nat [] ltac:(lia)) as (acc & b & out0 & E & Hb & Ho & Hbits).
  cbn [Z.of_nat app bits_of] in E, Hbits. rewrite E.
  assert (Hz : Z.land (Z.shiftl acc (Z.of_nat t - Z.of_nat b)) (Z.ones (Z.of_nat t)) = 0 <->
               bits_of b acc = repeat false b).
  { pose proof (pad_symbol t b acc ltac:(lia)) as P. split; intros H.
    - rewrite H, bits_of_0 in P. replace t with (b + (t - b))%nat in P at 1 by lia. rewrite repeat_app in P.
      apply app_inj_len in P as [P _]; auto. rewrite repeat_length, bits_of_length. auto.
    - rewrite H, <- repeat_app in P. replace (b + (t - b))%nat with t in P by lia.
      rewrite <- bits_of_0 in P. apply (bits_of_inj t); auto; [|split; [lia|apply Z.pow_pos_nonneg; lia]].
      apply land_ones_bound. lia. }
  split.
  - destruct ((Z.of_nat f <=? Z.of_nat b) || _) eqn:C; [discriminate|]. intros H. inv H.
    apply orb_false_elim in C as [C1 C2]. apply negb_false_iff, Z.eqb_eq, Hz in C2.
    split; auto. exists b. repeat split; auto; [lia|]. rewrite <- Hbits, C2. reflexivity.
  - intros (Hs & k & Hk & Hkt & Hb2).
    assert (L : length (bitstring t out0 ++ bits_of b acc) = length (bitstring t out ++ repeat false k)).
    { rewrite Hbits, Hb2. reflexivity. }
    rewrite !app_length, !bitstring_length, bits_of_length, repeat_length in L.
    assert (length out0 = length out /\ b = k) as [L1 ->]
      by (apply (Nat.div_mod_unique t); auto).
    rewrite Hb2 in Hbits. apply app_inj_len in Hbits as [B1 B2]; [|rewrite !bitstring_length; lia].
    apply bitstring_inj in B1; auto. subst out0.
    apply Hz in B2. rewrite B2. replace (Z.of_nat f <=? Z.of_nat k) with false by lia. reflexivity.
Qed.

Lemma convertbits_bad f t data pad : 0 <= f -> (exists v, In v data /\ ~ 0 <= v < 2 ^ f) ->
  convertbits data f t pad = None.
Proof. intros Hf H. unfold convertbits. rewrite convert_loop_bad; auto. Qed.

(** ** The two cases used for addresses *)
Lemma small8 l : small 8 l <-> bytes_ok l = true.
Proof. unfold small. rewrite bytes_ok_Forall. reflexivity. Qed.
Lemma small5 l : small 5 l <-> Forall gf l.
Proof. unfold small, gf. reflexivity. Qed.

Lemma convert_8_5 e : bytes_ok e = true ->
  exists f, convertbits e 8 5 true = Some f /\ Forall gf f /\ Regroup e f.
Proof.
  intros H. apply small8 in H.
  destruct (convertbits_pad 8 5 e ltac:(lia) ltac:(lia) H) as (f & k & E & S5 & Hk & B).
  exists f. split; [exact E|]. split; [apply small5; auto|]. exists k. auto.
Qed.

Lemma convert_5_8 f : Forall gf f ->
  forall e, convertbits f 5 8 false = Some e <-> bytes_ok e = true /\ Regroup e f.
Proof.
  intros H e. apply small5 in H. change 5 with (Z.of_nat 5). change 8 with (Z.of_nat 8).
  rewrite (convertbits_nopad 5 8 f ltac:(lia) ltac:(lia) H e).
  rewrite <- small8. unfold Regroup. split; intros (H1 & k & H2); split; auto; exists k.
  - tauto.
  - destruct H2 as [H2 H3]. split; [exact H2|]. split; [lia|exact H3].
Qed.

Lemma Regroup_fun_r e f1 f2 : Forall gf f1 -> Forall gf f2 -> Regroup e f1 -> Regroup e f2 -> f1 = f2.
Proof.
  intros G1 G2 (k1 & H1 & B1) (k2 & H2 & B2).
  pose proof (f_equal (@length bool) B1) as L1. pose proof (f_equal (@length bool) B2) as L2.
  rewrite app_length, !bitstring_length, repeat_length in L1, L2.
  assert (k1 = k2 /\ length f1 = length f2) as [-> L] by nia.
  apply (bitstring_inj 5); try (apply small5; auto); auto. congruence.
Qed.

Lemma Regroup_fun_l e1 e2 f : bytes_ok e1 = true -> bytes_ok e2 = true -> Regroup e1 f -> Regroup e2 f -> e1 = e2.
Proof.
  intros G1 G2 (k1 & H1 & B1) (k2 & H2 & B2).
  pose proof (f_equal (@length bool) B1) as L1. pose proof (f_equal (@length bool) B2) as L2.
  rewrite app_length, !bitstring_length, repeat_length in L1, L2.
  assert (k1 = k2 /\ length e1 = length e2) as [-> L] by nia.
  rewrite B1 in B2. apply app_inj_len in B2 as [B _]; [|rewrite !bitstring_length; lia].
  apply (bitstring_inj 8); try (apply small8; auto); auto.
Qed.
