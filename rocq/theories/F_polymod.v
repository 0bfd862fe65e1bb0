(** The Bech32 checksum function is polynomial division over GF(32). *)
From Coq Require Import String.
From Verif Require Export F_gf32.

(** ** Exclusive or *)
Lemma lxor_cancel a b : Z.lxor a b = 0 -> a = b.
Proof. apply Z.lxor_eq. Qed.

Lemma lxor_cancel_l a b c : Z.lxor a b = Z.lxor a c -> b = c.
Proof.
  intros H. assert (H2 : Z.lxor a (Z.lxor a b) = Z.lxor a (Z.lxor a c)) by (rewrite H; reflexivity).
  rewrite <- !Z.lxor_assoc, Z.lxor_nilpotent, !Z.lxor_0_l in H2. exact H2.
Qed.

Lemma lxor_bound n a b : 0 <= n -> 0 <= a < 2 ^ n -> 0 <= b < 2 ^ n -> 0 <= Z.lxor a b < 2 ^ n.
Proof.
  intros Hn Ha Hb.
  assert (E : Z.lxor a b = Z.lxor a b mod 2 ^ n).
  { apply Z.bits_inj'. intros i Hi. destruct (Z_lt_dec i n).
    - rewrite Z.mod_pow2_bits_low by lia. reflexivity.
    - rewrite Z.mod_pow2_bits_high by lia. rewrite Z.lxor_spec.
      rewrite <- (Z.mod_small a (2 ^ n)), <- (Z.mod_small b (2 ^ n)) by lia.
      rewrite !Z.mod_pow2_bits_high by lia. reflexivity. }
  rewrite E. apply Z.mod_pos_bound. lia.
Qed.

(** ** Symbols of the checksum state *)
Definition sym (i : nat) (x : Z) : Z := Z.land (Z.shiftr x (5 * Z.of_nat i)) 31.

Lemma sym_div i x : sym i x = (x / 32 ^ Z.of_nat i) mod 32.
Proof.
  unfold sym. rewrite Z.shiftr_div_pow2 by lia. rewrite Z.pow_mul_r by lia. change (2 ^ 5) with 32.
  change 31 with (Z.ones 5). rewrite Z.land_ones by lia. reflexivity.
Qed.

Lemma sym_gf i x : gf (sym i x).
Proof. rewrite sym_div. unfold gf. apply Z.mod_pos_bound. lia. Qed.

Lemma sym_lxor i a b : sym i (Z.lxor a b) = Z.lxor (sym i a) (sym i b).
Proof.
  unfold sym. rewrite Z.shiftr_lxor. apply Z.bits_inj'. intros n Hn.
  rewrite !Z.lxor_spec, !Z.land_spec, !Z.lxor_spec.
  destruct (Z.testbit 31 n); rewrite ?andb_true_r, ?andb_false_r; reflexivity.
Qed.

Lemma sym_all x : 0 <= x < 2 ^ 30 ->
  x = sym 0 x + 32 * (sym 1 x + 32 * (sym 2 x + 32 * (sym 3 x + 32 * (sym 4 x + 32 * sym 5 x)))).
Proof. intros H. rewrite !sym_div. cbn [Z.of_nat]. simpl Z.pow. Z.div_mod_to_equations. lia. Qed.

Lemma sym_inj x y : 0 <= x < 2 ^ 30 -> 0 <= y < 2 ^ 30 -> (forall i, (i < 6)%nat -> sym i x = sym i y) -> x = y.
Proof. intros Hx Hy H. rewrite (sym_all x), (sym_all y) by auto. rewrite !H by lia. reflexivity. Qed.

(** ** One step *)
Definition gmask (top : Z) : Z :=
  fold_left (fun c i => Z.lxor c (if Z.testbit top (Z.of_nat i) then nth i generator 0 else 0))
            [0; 1; 2; 3; 4]%nat 0.

Lemma polymod_step_eq chk v :
  polymod_step chk v = Z.lxor (Z.lxor (Z.shiftl (Z.land chk 0x1FFFFFF) 5) v) (gmask (Z.shiftr chk 25)).
Proof.
  unfold polymod_step, gmask. cbn [fold_left]. rewrite !Z.lxor_0_l, !Z.lxor_assoc. reflexivity.
Qed.

Definition gcoef (i : nat) : Z := coef gen_poly i.

Lemma gcoef_gf i : gf (gcoef i).
Proof.
  unfold gcoef, coef. do 7 (destruct i as [|i]; [unfold gf; simpl; lia|]).
  simpl. destruct i; unfold gf; lia.
Qed.

Lemma gmask_ok top : gf top -> 0 <= gmask top < 2 ^ 30 /\
  forall i, (i < 6)%nat -> sym i (gmask top) = gf_mul top (gcoef i).
Proof.
  intros Ht.
  assert (H : forallb (fun t => (0 <=? gmask t) && (gmask t <? 2 ^ 30) &&
     forallb (fun i => sym i (gmask t) =? gf_mul t (gcoef i)) [0;1;2;3;4;5]%nat) all32 = true)
    by (vm_compute; reflexivity).
  pose proof (forall32 _ H top Ht) as G. cbv beta in G.
  apply andb_prop in G as [G1 G2]. apply andb_prop in G1 as [G0 G1].
  split; [lia|]. intros i Hi. rewrite forallb_forall in G2. apply Z.eqb_eq. apply G2. simpl. lia.
Qed.

Definition shl (chk : Z) : Z := Z.shiftl (Z.land chk 0x1FFFFFF) 5.

Lemma shl_eq chk : shl chk = (chk mod 2 ^ 25) * 32.
Proof.
  unfold shl. rewrite Z.shiftl_mul_pow2 by lia. change 0x1FFFFFF with (Z.ones 25).
  rewrite Z.land_ones by lia. reflexivity.
Qed.

Lemma sym_shl_0 chk : sym 0 (shl chk) = 0.
Proof. rewrite sym_div, shl_eq. simpl Z.pow. rewrite Z.div_1_r. apply Z.mod_mul. lia. Qed.

Lemma sym_shl_S i chk : (i < 5)%nat -> sym (S i) (shl chk) = sym i chk.
Proof.
  intros Hi. rewrite !sym_div, shl_eq.
  destruct i as [|[|[|[|[|i]]]]]; [| | | | |lia]; cbn [Z.of_nat Pos.of_succ_nat Pos.succ];
    simpl Z.pow; Z.div_mod_to_equations; lia.
Qed.

Lemma top_sym chk : 0 <= chk < 2 ^ 30 -> Z.shiftr chk 25 = sym 5 chk.
Proof.
  intros H. rewrite sym_div, Z.shiftr_div_pow2 by lia. cbn [Z.of_nat Pos.of_succ_nat Pos.succ].
  simpl Z.pow. Z.div_mod_to_equations; lia.
Qed.

Lemma sym_small_0 v : gf v -> sym 0 v = v.
Proof. intros H. rewrite sym_div. unfold gf in H. simpl Z.pow. Z.div_mod_to_equations; lia. Qed.
Lemma sym_small_S i v : gf v -> sym (S i) v = 0.
Proof.
  intros H. unfold gf in H. rewrite sym_div. rewrite Z.div_small; [reflexivity|].
  split; [lia|]. rewrite Nat2Z.inj_succ, Z.pow_succ_r by lia.
  assert (0 < 32 ^ Z.of_nat i) by (apply Z.pow_pos_nonneg; lia). lia.
Qed.

Lemma polymod_step_range chk v : 0 <= chk < 2 ^ 30 -> gf v -> 0 <= polymod_step chk v < 2 ^ 30.
Proof.
  intros Hc Hv. rewrite polymod_step_eq. rewrite top_sym by auto. fold (shl chk).
  apply lxor_bound; [lia| |apply gmask_ok, sym_gf].
  apply lxor_bound; [lia| |unfold gf in Hv; lia].
  rewrite shl_eq. Z.div_mod_to_equations; lia.
Qed.

Lemma polymod_step_0 chk v : 0 <= chk < 2 ^ 30 -> gf v ->
  sym 0 (polymod_step chk v) = Z.lxor v (gf_mul (sym 5 chk) (gcoef 0)).
Proof.
  intros Hc Hv. rewrite polymod_step_eq, top_sym by auto. fold (shl chk).
  rewrite !sym_lxor, sym_shl_0, sym_small_0 by auto. rewrite Z.lxor_0_l.
  f_equal. apply gmask_ok; [apply sym_gf|lia].
Qed.

Lemma polymod_step_S i chk v : 0 <= chk < 2 ^ 30 -> gf v -> (i < 5)%nat ->
  sym (S i) (polymod_step chk v) = Z.lxor (sym i chk) (gf_mul (sym 5 chk) (gcoef (S i))).
Proof.
  intros Hc Hv Hi. rewrite polymod_step_eq, top_sym by auto. fold (shl chk).
  rewrite !sym_lxor, sym_shl_S, sym_small_S by auto. rewrite Z.lxor_0_r.
  f_equal. apply gmask_ok; [apply sym_gf|lia].
Qed.

(** ** The loop from any state *)
Definition pm (c : Z) (vs : list Z) : Z := fold_left polymod_step vs c.

Lemma pm_app c a b : pm c (a ++ b) = pm (pm c a) b.
Proof. apply fold_left_app. Qed.

Lemma pm_range c vs : 0 <= c < 2 ^ 30 -> Forall gf vs -> 0 <= pm c vs < 2 ^ 30.
Proof.
  intros Hc H. revert c Hc; induction H as [|v vs Hv Hvs IH]; intros c Hc; [exact Hc|].
  apply IH. apply polymod_step_range; auto.
Qed.

Lemma lxor_if (p q : bool) g :
  (if xorb p q then g else 0) = Z.lxor (if p then g else 0) (if q then g else 0).
Proof. destruct p, q; simpl; rewrite ?Z.lxor_nilpotent, ?Z.lxor_0_r; reflexivity. Qed.

Lemma lxor_swap a b c d : Z.lxor (Z.lxor a b) (Z.lxor c d) = Z.lxor (Z.lxor a c) (Z.lxor b d).
Proof.
  rewrite !Z.lxor_assoc. f_equal. rewrite <- !Z.lxor_assoc. f_equal. apply Z.lxor_comm.
Qed.

Lemma gmask_lxor a b : gmask (Z.lxor a b) = Z.lxor (gmask a) (gmask b).
Proof.
  unfold gmask. cbn [fold_left]. rewrite !Z.lxor_0_l, !Z.lxor_spec, !lxor_if.
  symmetry. do 4 (rewrite lxor_swap; f_equal).
Qed.

Lemma polymod_step_lxor a b u v :
  polymod_step (Z.lxor a b) (Z.lxor u v) = Z.lxor (polymod_step a u) (polymod_step b v).
Proof.
  rewrite !polymod_step_eq, Z.shiftr_lxor, gmask_lxor.
  assert (E : Z.shiftl (Z.land (Z.lxor a b) 33554431) 5 =
              Z.lxor (Z.shiftl (Z.land a 33554431) 5) (Z.shiftl (Z.land b 33554431) 5)).
  { rewrite <- Z.shiftl_lxor. f_equal. apply Z.bits_inj'. intros n Hn.
    rewrite Z.lxor_spec, !Z.land_spec, Z.lxor_spec.
    destruct (Z.testbit 33554431 n); rewrite ?andb_true_r, ?andb_false_r; reflexivity. }
  rewrite E. apply Z.bits_inj'. intros n Hn. rewrite !Z.lxor_spec.
  destruct (Z.testbit (Z.shiftl _ _) n), (Z.testbit (Z.shiftl _ _) n), (Z.testbit u n), (Z.testbit v n),
     (Z.testbit (gmask _) n), (Z.testbit (gmask _) n); reflexivity.
Qed.

Fixpoint xors (a b : list Z) : list Z :=
  match a, b with
  | x :: a', y :: b' => Z.lxor x y :: xors a' b'
  | _, _ => []
  end.

Lemma pm_xors a b u v : length u = length v -> pm (Z.lxor a b) (xors u v) = Z.lxor (pm a u) (pm b v).
Proof.
  revert a b v; induction u as [|x u IH]; intros a b [|y v] H; try discriminate; [reflexivity|].
  cbn [xors]. unfold pm. cbn [fold_left]. rewrite polymod_step_lxor. apply IH. simpl in H. lia.
Qed.

(** ** Division with remainder *)
Lemma sym_1 n : (if (n <? 6)%nat then sym n 1 else 0) = coef [1] n.
Proof. do 6 (destruct n as [|n]; [reflexivity|]). unfold coef; simpl. destruct n; reflexivity. Qed.

Local Opaque gf_mul Z.lxor sym.

Lemma coef_app_S l v n : coef (l ++ [v]) (S n) = coef l n.
Proof. unfold coef. rewrite rev_app_distr. reflexivity. Qed.
Lemma coef_app_0 l v : coef (l ++ [v]) 0 = v.
Proof. unfold coef. rewrite rev_app_distr. reflexivity. Qed.
Lemma coef_nil n : coef [] n = 0.
Proof. unfold coef. destruct n; reflexivity. Qed.
Lemma coef_high l n : (length l <= n)%nat -> coef l n = 0.
Proof. intros H. unfold coef. apply nth_overflow. rewrite rev_length. lia. Qed.
Lemma coef_gf l n : Forall gf l -> gf (coef l n).
Proof.
  intros H. unfold coef. destruct (Nat.lt_ge_cases n (length (rev l))) as [L|L].
  - rewrite Forall_forall in H. apply H. apply in_rev. apply nth_In. auto.
  - rewrite nth_overflow by lia. apply gf_0.
Qed.

Lemma coef_mul_gen_0 q : coef_mul_gen q 0 = gf_mul (coef q 0) (gcoef 0).
Proof.
  unfold coef_mul_gen. cbn [seq map fold_left Nat.leb Nat.sub]. rewrite !Z.lxor_0_r, Z.lxor_0_l. reflexivity.
Qed.

Lemma coef_mul_gen_S q t n : Forall gf q -> gf t ->
  coef_mul_gen (q ++ [t]) (S n) =
  Z.lxor (coef_mul_gen q n) (if (n <? 6)%nat then gf_mul t (gcoef (S n)) else 0).
Proof.
  intros Hq Ht.
  assert (E : forall m, coef (q ++ [t]) m = match m with O => t | S k => coef q k end).
  { intros [|m]; [apply coef_app_0|apply coef_app_S]. }
  unfold coef_mul_gen, gcoef. cbn [seq map].
  set (g0 := coef gen_poly 0). set (g1 := coef gen_poly 1). set (g2 := coef gen_poly 2).
  set (g3 := coef gen_poly 3). set (g4 := coef gen_poly 4). set (g5 := coef gen_poly 5).
  set (g6 := coef gen_poly 6).
  assert (Eg : (if (n <? 6)%nat then gf_mul t (coef gen_poly (S n)) else 0) =
               match n with 0%nat => gf_mul t g1 | 1%nat => gf_mul t g2 | 2%nat => gf_mul t g3 | 3%nat => gf_mul t g4
                          | 4%nat => gf_mul t g5 | 5%nat => gf_mul t g6 | _ => 0 end).
  { do 6 (destruct n as [|n]; [reflexivity|]). reflexivity. }
  rewrite Eg. clear Eg. clearbody g0 g1 g2 g3 g4 g5 g6.
  destruct n as [|[|[|[|[|[|n]]]]]]; cbn [seq map fold_left Nat.leb Nat.sub Nat.ltb];
    rewrite ?E;
    rewrite ?Nat.sub_0_r, ?Z.lxor_0_r, ?Z.lxor_0_l; reflexivity.
Qed.

Lemma pm_division l : Forall gf l ->
  exists q, Forall gf q /\
    forall n, coef (1 :: l) n = Z.lxor (coef_mul_gen q n) (if (n <? 6)%nat then sym n (pm 1 l) else 0).
Proof.
  induction l as [|v l IH] using rev_ind; intros H.
  - exists []. split; [constructor|]. intros n.
    assert (E : coef_mul_gen [] n = 0).
    { unfold coef_mul_gen. cbn [seq map fold_left]. rewrite !coef_nil.
      rewrite !gf_mul_0_l by apply gcoef_gf.
      repeat match goal with |- context [if ?b then 0 else 0] => destruct b end; reflexivity. }
    rewrite E, Z.lxor_0_l. symmetry. exact (sym_1 n).
  - apply Forall_app in H as [Hl Hv]. inv Hv. destruct (IH Hl) as (q & Hq & E).
    set (chk := pm 1 l) in *.
    assert (Hc : 0 <= chk < 2 ^ 30) by (apply pm_range; auto; lia).
    exists (q ++ [sym 5 chk]). split.
    { apply Forall_app. split; auto. constructor; [apply sym_gf|constructor]. }
    assert (Ep : pm 1 (l ++ [v]) = polymod_step chk v) by (rewrite pm_app; reflexivity).
    rewrite Ep. change (1 :: l ++ [v]) with ((1 :: l) ++ [v]).
    intros [|n].
    + rewrite coef_app_0, coef_mul_gen_0, coef_app_0. cbn [Nat.ltb Nat.leb].
      rewrite polymod_step_0 by auto. rewrite (Z.lxor_comm v).
      rewrite <- Z.lxor_assoc, Z.lxor_nilpotent, Z.lxor_0_l. reflexivity.
    + rewrite coef_app_S, E, coef_mul_gen_S by (auto using sym_gf).
      destruct (Nat.lt_ge_cases n 5) as [L|L].
      * replace (n <? 6)%nat with true by (symmetry; apply Nat.ltb_lt; lia).
        replace (S n <? 6)%nat with true by (symmetry; apply Nat.ltb_lt; lia).
        rewrite polymod_step_S by auto. rewrite !Z.lxor_assoc. f_equal.
        rewrite (Z.lxor_comm (sym n chk)), <- Z.lxor_assoc, Z.lxor_nilpotent, Z.lxor_0_l. reflexivity.
      * replace (S n <? 6)%nat with false by (symmetry; apply Nat.ltb_ge; lia).
        rewrite Z.lxor_0_r. f_equal.
        destruct (Nat.eq_dec n 5) as [->|N].
        -- cbn [Nat.ltb Nat.leb]. change (gcoef 6) with 1. rewrite gf_mul_1_r; auto using sym_gf.
        -- replace (n <? 6)%nat with false by (symmetry; apply Nat.ltb_ge; lia). reflexivity.
Qed.

(** The remainder is unique. *)
Lemma coef_mul_gen_high q n : Forall gf q ->
  coef_mul_gen q (n + 6) =
  Z.lxor (fold_left Z.lxor (map (fun j => gf_mul (coef q (n + 6 - j)) (gcoef j)) (seq 0 6)) 0) (coef q n).
Proof.
  intros Hq. unfold coef_mul_gen. cbn [seq map fold_left].
  replace (0 <=? n + 6)%nat with true by (symmetry; apply Nat.leb_le; lia).
  replace (1 <=? n + 6)%nat with true by (symmetry; apply Nat.leb_le; lia).
  replace (2 <=? n + 6)%nat with true by (symmetry; apply Nat.leb_le; lia).
  replace (3 <=? n + 6)%nat with true by (symmetry; apply Nat.leb_le; lia).
  replace (4 <=? n + 6)%nat with true by (symmetry; apply Nat.leb_le; lia).
  replace (5 <=? n + 6)%nat with true by (symmetry; apply Nat.leb_le; lia).
  replace (6 <=? n + 6)%nat with true by (symmetry; apply Nat.leb_le; lia).
  fold (gcoef 0) (gcoef 1) (gcoef 2) (gcoef 3) (gcoef 4) (gcoef 5).
  replace (n + 6 - 6)%nat with n by lia. change (coef gen_poly 6) with 1.
  rewrite gf_mul_1_r by (apply coef_gf; auto). reflexivity.
Qed.

Lemma remainder_unique q q' (r r' : nat -> Z) :
  Forall gf q -> Forall gf q' ->
  (forall n, (6 <= n)%nat -> r n = 0 /\ r' n = 0) ->
  (forall n, Z.lxor (coef_mul_gen q n) (r n) = Z.lxor (coef_mul_gen q' n) (r' n)) ->
  forall n, r n = r' n.
Proof.
  intros Hq Hq' Hr H.
  assert (E : forall n, coef q n = coef q' n).
  { set (K := Nat.max (length q) (length q')).
    assert (G : forall k n, (K <= n + k)%nat -> coef q n = coef q' n).
    { induction k as [|k IH]; intros n Hn.
      - rewrite !coef_high by lia. reflexivity.
      - specialize (H (n + 6)%nat). destruct (Hr (n + 6)%nat ltac:(lia)) as [R1 R2].
        rewrite R1, R2, !Z.lxor_0_r in H. rewrite !coef_mul_gen_high in H by auto.
        cbn [seq map fold_left] in H.
        rewrite !(IH (n + 6 - 0)%nat), !(IH (n + 6 - 1)%nat), !(IH (n + 6 - 2)%nat),
          !(IH (n + 6 - 3)%nat), !(IH (n + 6 - 4)%nat), !(IH (n + 6 - 5)%nat) in H by lia.
        match type of H with Z.lxor ?a ?b = Z.lxor ?a ?c => exact (lxor_cancel_l a b c H) end. }
    intros n. apply (G K). lia. }
  intros n. specialize (H n).
  assert (E2 : coef_mul_gen q n = coef_mul_gen q' n).
  { unfold coef_mul_gen. f_equal. apply map_ext. intros j. rewrite E. reflexivity. }
  rewrite E2 in H. exact (lxor_cancel_l _ _ _ H).
Qed.

Lemma pm_congruent l : Forall gf l -> (pm 1 l = 1 <-> CongruentModGen (1 :: l) [1]).
Proof.
  intros Hl. destruct (pm_division l Hl) as (q & Hq & E).
  assert (Hc : 0 <= pm 1 l < 2 ^ 30) by (apply pm_range; auto; lia).
  split.
  - intros H. exists q. split; auto. intros n. rewrite E, H, sym_1. reflexivity.
  - intros (q' & Hq' & E').
    apply sym_inj; auto; [lia|]. intros i Hi.
    pose proof (remainder_unique q q' (fun n => if (n <? 6)%nat then sym n (pm 1 l) else 0) (fun n => coef [1] n)
                  Hq Hq') as U.
    assert (U1 : forall n, (6 <= n)%nat -> (if (n <? 6)%nat then sym n (pm 1 l) else 0) = 0 /\ coef [1] n = 0).
    { intros n Hn. replace (n <? 6)%nat with false by (symmetry; apply Nat.ltb_ge; lia).
      split; [reflexivity|]. apply coef_high. simpl. lia. }
    specialize (U U1). cbv beta in U.
    assert (U2 : forall n, Z.lxor (coef_mul_gen q n) (if (n <? 6)%nat then sym n (pm 1 l) else 0) =
                           Z.lxor (coef_mul_gen q' n) (coef [1] n)).
    { intros n. rewrite <- E, <- E'. reflexivity. }
    specialize (U U2 i). rewrite <- sym_1 in U.
    replace (i <? 6)%nat with true in U by (symmetry; apply Nat.ltb_lt; lia). exact U.
Qed.
