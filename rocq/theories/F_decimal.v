(** Lemmas on decimal numbers. *)
From Coq Require Import String.
From Verif Require Import M_decimal S_Decimal.

Lemma pow10_pos k : 0 < 10 ^ k \/ k < 0.
Proof. destruct (Z_lt_le_dec k 0); [right; auto|left; apply Z.pow_pos_nonneg; lia]. Qed.
Lemma p10 k : 0 <= k -> 0 < 10 ^ k.
Proof. intros. apply Z.pow_pos_nonneg; lia. Qed.

(** ** Digits *)
Lemma Digits_num n ds : Digits n ds -> num ds = n.
Proof.
  induction 1 as [|n ds d H IH Hd]; [reflexivity|]. unfold num in *. rewrite fold_left_app, IH. cbn [fold_left]. lia.
Qed.
Lemma Digits_nonneg n ds : Digits n ds -> 0 <= n.
Proof. induction 1; lia. Qed.
Lemma Digits_bound n ds : Digits n ds -> n < 10 ^ zlen ds.
Proof.
  unfold zlen. induction 1 as [|n ds d H IH Hd]; [reflexivity|]. rewrite app_length. cbn [length].
  replace (Z.of_nat (length ds + 1)) with (Z.of_nat (length ds) + 1) by lia. rewrite Z.pow_add_r by lia. lia.
Qed.
Lemma Digits_chars n ds : Digits n ds -> forallb is_digit ds = true.
Proof.
  induction 1 as [|n ds d H IH Hd]; [reflexivity|]. rewrite forallb_app, IH. cbn [forallb andb]. unfold is_digit.
  rewrite (proj2 (Z.leb_le 48 (48 + d))), (proj2 (Z.leb_le (48 + d) 57)) by lia. reflexivity.
Qed.
Lemma Digits_app n a m b : Digits n a -> Digits m b -> Digits (n * 10 ^ zlen b + m) (a ++ b).
Proof.
  intros A. unfold zlen. induction 1 as [|m b d H IH Hd].
  - rewrite app_nil_r. cbn. replace (n * 1 + 0) with n by lia. auto.
  - rewrite app_assoc, app_length. cbn [length]. replace (Z.of_nat (length b + 1)) with (Z.of_nat (length b) + 1) by lia.
    rewrite Z.pow_add_r by lia. replace (n * (10 ^ Z.of_nat (length b) * 10 ^ 1) + (10 * m + d)) with (10 * (n * 10 ^ Z.of_nat (length b) + m) + d) by lia.
    constructor; auto.
Qed.
Lemma Digits_one d : 0 <= d <= 9 -> Digits d [48 + d].
Proof. intros H. pose proof (Dsnoc 0 [] d Dnil H) as A. cbn in A. exact A. Qed.
Lemma Digits_zeros k : Digits 0 (repeat 48 k).
Proof.
  induction k as [|k IH]; [constructor|]. replace (S k) with (k + 1)%nat by lia. rewrite repeat_app.
  pose proof (Dsnoc 0 _ 0 IH ltac:(lia)) as A. exact A.
Qed.
Lemma Digits_split n a b : Digits n (a ++ b) -> exists x y, Digits x a /\ Digits y b /\ n = x * 10 ^ zlen b + y.
Proof.
  revert n. induction b as [|c b IH] using rev_ind; intros n H.
  - rewrite app_nil_r in H. exists n, 0. split; auto. split; [constructor|]. cbn. lia.
  - rewrite app_assoc in H. inversion H as [E0 E|m ds d H' Hd E1 E2].
    + symmetry in E. apply app_eq_nil in E as [_ E]. discriminate.
    + apply app_inj_tail in E2 as [-> <-]. destruct (IH _ H') as (x & y & Hx & Hy & ->). exists x, (10 * y + d). split; auto.
      split; [constructor; auto|]. unfold zlen. rewrite app_length. cbn [length].
      replace (Z.of_nat (length b + 1)) with (Z.of_nat (length b) + 1) by lia. rewrite Z.pow_add_r by lia. lia.
Qed.

Lemma dig_spec fuel : forall c acc, 0 <= c < 2 ^ Z.of_nat fuel -> (0 < fuel)%nat ->
  exists ds, dig fuel c acc = ds ++ acc /\ Digits c ds /\ ds <> [] /\ (c = 0 -> ds = [48]) /\ (0 < c -> exists d r, ds = d :: r /\ d <> 48).
Proof.
  induction fuel as [|fuel IH]; intros c acc Hc Hf; [lia|]. cbn [dig]. destruct (Z.ltb_spec c 10).
  - exists [48 + c]. split; auto. split; [apply Digits_one; lia|]. split; [discriminate|]. split; [intros ->; reflexivity|].
    intros ?. exists (48 + c), []. split; auto. lia.
  - assert (HD : 0 <= c / 10 < 2 ^ Z.of_nat fuel).
    { split; [apply Z.div_pos; lia|]. apply Z.div_lt_upper_bound; [lia|]. rewrite Nat2Z.inj_succ, Z.pow_succ_r in Hc by lia. lia. }
    assert (F0 : (0 < fuel)%nat).
    { destruct fuel; [|lia]. cbn in Hc. lia. }
    destruct (IH (c / 10) (48 + c mod 10 :: acc) HD F0) as (ds & E & D & NE & _ & L).
    exists (ds ++ [48 + c mod 10]). split; [rewrite E, <- app_assoc; reflexivity|].
    split.
    { rewrite (Z.div_mod c 10) at 1 by lia. constructor; auto. pose proof (Z.mod_pos_bound c 10). lia. }
    split; [intros A; apply app_eq_nil in A as [_ A]; discriminate|]. split; [lia|].
    intros _. destruct L as (d & r & -> & Hd).
    { pose proof (Z.div_mod c 10 ltac:(lia)). pose proof (Z.mod_pos_bound c 10). lia. }
    exists d, (r ++ [48 + c mod 10]). split; auto.
Qed.
Lemma digits_spec c : 0 <= c -> Digits c (digits c) /\ digits c <> [] /\ (c = 0 -> digits c = [48]) /\
  (0 < c -> exists d r, digits c = d :: r /\ d <> 48).
Proof.
  intros H. unfold digits. destruct (dig_spec (Z.to_nat (Z.log2 c) + 1) c []) as (ds & E & D & R).
  - split; auto. rewrite Nat2Z.inj_add, Z2Nat.id by apply Z.log2_nonneg. destruct (Z.eq_dec c 0) as [->|]; [reflexivity|].
    apply (Z.log2_spec c). lia.
  - lia.
  - rewrite app_nil_r in E. rewrite E. destruct R as (A & B & C). auto.
Qed.
Lemma digits_zero : digits 0 = [48].
Proof. reflexivity. Qed.
Lemma Digits_hd n d ds : Digits n (d :: ds) -> d <> 48 -> 10 ^ zlen ds <= n.
Proof.
  intros H Hd. change (d :: ds) with ([d] ++ ds) in H. apply Digits_split in H as (x & y & Hx & Hy & ->).
  pose proof (Digits_nonneg _ _ Hy). assert (1 <= x).
  { pose proof (Digits_num _ _ Hx) as N. pose proof (Digits_chars _ _ Hx) as G. cbn in N, G. unfold is_digit in G.
    destruct (Z.leb_spec 48 d); [lia|discriminate]. }
  pose proof (p10 (zlen ds)). unfold zlen in *. nia.
Qed.
Lemma ndigits_bounds c : 0 < c -> 10 ^ (ndigits c - 1) <= c < 10 ^ ndigits c.
Proof.
  intros H. destruct (digits_spec c) as (D & NE & _ & L); [lia|]. destruct (L H) as (d & r & E & Hd). unfold ndigits. split.
  - rewrite E in *. unfold zlen. cbn [length]. replace (Z.of_nat (S (length r)) - 1) with (zlen r) by (unfold zlen; lia). eapply Digits_hd; eauto.
  - apply Digits_bound. auto.
Qed.
Lemma ndigits_ge1 c : 0 <= c -> 1 <= ndigits c.
Proof.
  intros H. destruct (digits_spec c H) as (_ & NE & _). unfold ndigits, zlen. destruct (digits c); [congruence|]. cbn [length]. lia.
Qed.
Lemma ndigits_le c k : 0 <= c < 10 ^ k -> 1 <= k -> ndigits c <= k.
Proof.
  intros H Hk. destruct (Z.eq_dec c 0) as [->|]; [cbn; lia|]. pose proof (ndigits_bounds c ltac:(lia)) as [A _].
  destruct (Z_le_gt_dec (ndigits c) k); auto. assert (10 ^ k <= 10 ^ (ndigits c - 1)) by (apply Z.pow_le_mono_r; lia). lia.
Qed.
Lemma ndigits_gt c k : 0 <= k -> 10 ^ k <= c -> k < ndigits c.
Proof.
  intros Hk H. pose proof (p10 k Hk). pose proof (ndigits_bounds c ltac:(lia)) as [_ B].
  destruct (Z_lt_le_dec k (ndigits c)); auto. assert (10 ^ ndigits c <= 10 ^ k) by (apply Z.pow_le_mono_r; lia). lia.
Qed.
Lemma ndigits_unique c k : 1 <= k -> 10 ^ (k - 1) <= c < 10 ^ k -> ndigits c = k.
Proof.
  intros Hk H. pose proof (p10 (k - 1) ltac:(lia)). pose proof (ndigits_le c k ltac:(lia) Hk). pose proof (ndigits_gt c (k - 1) ltac:(lia) ltac:(lia)). lia.
Qed.
Lemma ndigits_mul10 c k : 0 < c -> 0 <= k -> ndigits (c * 10 ^ k) = ndigits c + k.
Proof.
  intros H Hk. pose proof (ndigits_bounds c H) as [A B]. pose proof (ndigits_ge1 c ltac:(lia)). pose proof (p10 k Hk).
  apply ndigits_unique; [lia|]. replace (ndigits c + k - 1) with (ndigits c - 1 + k) by lia. rewrite !Z.pow_add_r by lia. nia.
Qed.

(** ** Reading *)
Lemma span_all ds r : forallb is_digit ds = true -> (forall c t, r = c :: t -> is_digit c = false) -> span_digits (ds ++ r) = (ds, r).
Proof.
  intros H Hr. induction ds as [|d ds IH]; cbn [app span_digits].
  - destruct r as [|c t]; [reflexivity|]. cbn. rewrite (Hr c t eq_refl). reflexivity.
  - cbn in H. apply andb_true_iff in H as [H1 H2]. rewrite H1, IH; auto.
Qed.
Definition plain_char (c : Z) : bool := is_digit c || (c =? 46).
Lemma plain_not_space c : plain_char c = true -> is_space c = false.
Proof.
  unfold plain_char, is_digit, is_space. intros H.
  destruct (Z.leb_spec 48 c), (Z.leb_spec c 57), (Z.eqb_spec c 46), (Z.leb_spec 9 c), (Z.leb_spec c 13), (Z.leb_spec 28 c), (Z.leb_spec c 32), (Z.eqb_spec c 133), (Z.eqb_spec c 160);
    cbn in *; try reflexivity; try discriminate; lia.
Qed.
Lemma lstrip_id c s : is_space c = false -> lstrip (c :: s) = c :: s.
Proof. intros H. cbn. rewrite H. reflexivity. Qed.
Lemma strip_id s : forallb (fun c => negb (is_space c)) s = true -> strip s = s.
Proof.
  intros H. unfold strip. assert (L : forall s, forallb (fun c => negb (is_space c)) s = true -> lstrip s = s).
  { intros [|c t] G; [reflexivity|]. cbn in G. apply andb_true_iff in G as [G _]. apply lstrip_id. destruct (is_space c); [discriminate|auto]. }
  rewrite (L s H). rewrite L, rev_involutive; auto. rewrite forallb_forall in *. intros x Hx. apply H. apply in_rev. auto.
Qed.
Lemma no_underscore s : forallb (fun c => negb (c =? 95)) s = true -> filter (fun c => negb (c =? 95)) s = s.
Proof. induction s as [|c s IH]; cbn; auto. intros H. apply andb_true_iff in H as [-> H]. rewrite IH; auto. Qed.

Lemma Amount_chars c k s : Amount c k s -> forallb plain_char s = true.
Proof.
  assert (W : forall l, forallb is_digit l = true -> forallb plain_char l = true).
  { intros l H. rewrite forallb_forall in *. intros x Hx. unfold plain_char. rewrite (H x Hx). reflexivity. }
  intros [c' ds D NE|c' ds fs D NE]; apply Digits_chars in D.
  - apply W. auto.
  - rewrite forallb_app in D |- *. apply andb_true_iff in D as [D1 D2]. cbn [forallb]. rewrite (W _ D1), (W _ D2). reflexivity.
Qed.
Lemma Amount_clean c k s : Amount c k s -> forallb (fun c => negb (is_space c)) s = true /\ forallb (fun c => negb (c =? 95)) s = true /\ s <> [].
Proof.
  intros H. pose proof (Amount_chars _ _ _ H) as P. split; [|split].
  - rewrite forallb_forall in *. intros x Hx. rewrite plain_not_space; auto.
  - rewrite forallb_forall in *. intros x Hx. specialize (P x Hx). unfold plain_char, is_digit in P.
    destruct (Z.eqb_spec x 95) as [->|]; [discriminate P|reflexivity].
  - destruct H as [? ds D NE|? ds fs D NE]; auto. destruct ds; discriminate.
Qed.
Lemma parse_amount c k s : Amount c k s ->
  (let '(i, r) := span_digits s in
   let '(f, r) := match r with c :: r' => if c =? 46 then span_digits r' else ([], r) | [] => ([], r) end in
   exists d t, i ++ f = d :: t /\ r = [] /\ num (i ++ f) = c /\ zlen f = k).
Proof.
  intros [c' ds D NE|c' ds fs D NE].
  - pose proof (Digits_chars _ _ D). rewrite <- (app_nil_r ds), span_all by (auto; discriminate). rewrite app_nil_r.
    destruct ds as [|d t]; [congruence|]. exists d, t. split; auto. split; auto. split; [apply Digits_num; auto|reflexivity].
  - pose proof (Digits_chars _ _ D) as G. rewrite forallb_app in G. apply andb_true_iff in G as [G1 G2].
    rewrite span_all; auto.
    2:{ intros c0 t E. injection E as <- _. reflexivity. }
    rewrite Z.eqb_refl. pose proof (span_all fs [] G2 ltac:(discriminate)) as SA. rewrite app_nil_r in SA. rewrite SA.
    destruct (ds ++ fs) as [|d t] eqn:E; [congruence|]. exists d, t. split; auto. split; auto. split; auto. apply Digits_num. auto.
Qed.
Lemma parse_signed neg c k s : Signed neg c k s -> parse_dec s = Ok (Fin neg c (- k)).
Proof.
  intros H. unfold parse_dec. assert (E : exists t, Amount c k t /\ sign_of (filter (fun c => negb (c =? 95)) (strip s)) = (neg, t)).
  { destruct H as [c k s A|c k s A|c k s A]; destruct (Amount_clean _ _ _ A) as (A1 & A2 & A3); exists s; split; auto.
    - rewrite strip_id, no_underscore; auto. pose proof (Amount_chars _ _ _ A) as P. destruct s as [|x s]; [congruence|].
      cbn in P. apply andb_true_iff in P as [P _]. cbn [sign_of]. unfold plain_char, is_digit in P.
      destruct (Z.eqb_spec x 45) as [->|]; [discriminate P|]. destruct (Z.eqb_spec x 43) as [->|]; [discriminate P|]. reflexivity.
    - rewrite strip_id by (cbn; auto). rewrite no_underscore by (cbn; auto). reflexivity.
    - rewrite strip_id by (cbn; auto). rewrite no_underscore by (cbn; auto). reflexivity. }
  destruct E as (t & A & ->). pose proof (parse_amount _ _ _ A) as P. destruct (span_digits t) as [i r].
  destruct (match r with [] => ([], r) | c :: r' => if c =? 46 then span_digits r' else ([], r) end) as [f r'].
  destruct P as (d & u & E & -> & <- & <-). rewrite E. reflexivity.
Qed.

(** ** Rounding *)
Lemma strip_zeros_spec fuel : forall c e ideal, 0 < c -> exists j, 0 <= j /\ strip_zeros fuel c e ideal = (c / 10 ^ j, e + j) /\
  c = c / 10 ^ j * 10 ^ j /\ (j = 0 \/ e + j <= ideal) /\ (Z.of_nat fuel <= j \/ ideal <= e + j \/ (c / 10 ^ j) mod 10 <> 0).
Proof.
  induction fuel as [|fuel IH]; intros c e ideal Hc.
  - exists 0. cbn. rewrite Z.div_1_r, Z.add_0_r. repeat split; try lia.
  - cbn [strip_zeros]. destruct (Z.ltb_spec e ideal) as [Lt|Ge]; cbn [andb].
    + destruct (Z.eqb_spec (c mod 10) 0) as [M|M].
      * pose proof (Z.div_mod c 10 ltac:(lia)) as DM. destruct (IH (c / 10) (e + 1) ideal) as (j & Hj & E & Ec & Ej & F); [lia|].
        exists (j + 1). assert (DD : c / 10 ^ (j + 1) = c / 10 / 10 ^ j).
        { rewrite Z.div_div by (try lia; apply p10; lia). f_equal. rewrite Z.pow_add_r by lia. lia. }
        rewrite DD. split; [lia|]. split; [rewrite E; f_equal; lia|]. split; [|split].
        -- rewrite Z.pow_add_r by lia. change (10 ^ 1) with 10. lia.
        -- right. destruct Ej; lia.
        -- rewrite Nat2Z.inj_succ. destruct F as [F|[F|F]]; [left; lia|right; left; lia|right; right; auto].
      * exists 0. rewrite Z.add_0_r. change (10 ^ 0) with 1. rewrite Z.div_1_r. repeat split; try lia.
    + exists 0. rewrite Z.add_0_r. change (10 ^ 0) with 1. rewrite Z.div_1_r. repeat split; try lia.
Qed.
Lemma fix_zero prec neg e : 0 <= prec -> Emin - prec + 1 <= e <= Emax -> fix_dec prec neg 0 e = Ok (Fin neg 0 e).
Proof. intros P H. unfold fix_dec. cbn [Z.eqb]. do 2 f_equal. lia. Qed.
(** Nothing to round. *)
Lemma fix_exact prec neg c e : 0 < c -> ndigits c <= prec -> Emin - prec + 1 <= e -> ndigits c + e <= Emax + 1 ->
  fix_dec prec neg c e = Ok (Fin neg c e).
Proof.
  intros Hc Hn H1 H2. unfold fix_dec. destruct (Z.eqb_spec c 0); [lia|]. cbv zeta.
  destruct (Z.gtb_spec (ndigits c + e - prec) (Emax - prec + 1)); [lia|].
  destruct (Z.ltb_spec e (Z.max (ndigits c + e - prec) (Emin - prec + 1))); [lia|reflexivity].
Qed.
Lemma rhe_exact c j : 0 <= j -> round_half_even (c * 10 ^ j) j = c.
Proof.
  intros H. pose proof (p10 j H). unfold round_half_even. rewrite Z.div_mul, Z.mod_mul by lia. cbv zeta.
  destruct (Z.ltb_spec (2 * 0) (10 ^ j)); [reflexivity|lia].
Qed.
(** Only zeros are rounded away. *)
Lemma fix_zeros prec neg c j e : 0 < c -> ndigits c <= prec -> 0 <= j -> Emin - prec + 1 <= e -> ndigits c + j + e <= Emax + 1 ->
  exists c' e', fix_dec prec neg (c * 10 ^ j) e = Ok (Fin neg c' e') /\ e <= e' /\ c * 10 ^ j = c' * 10 ^ (e' - e).
Proof.
  intros Hc Hn Hj H1 H2. pose proof (p10 j Hj). unfold fix_dec. destruct (Z.eqb_spec (c * 10 ^ j) 0); [nia|]. cbv zeta.
  rewrite ndigits_mul10 by auto. destruct (Z.gtb_spec (ndigits c + j + e - prec) (Emax - prec + 1)); [lia|].
  destruct (Z.ltb_spec e (Z.max (ndigits c + j + e - prec) (Emin - prec + 1))) as [L|G].
  - set (k := ndigits c + j - prec). assert (Hk : 0 < k <= j) by lia.
    assert (MM : Z.max (ndigits c + j + e - prec) (Emin - prec + 1) = e + k) by lia. rewrite MM.
    replace (e + k - e) with k by lia. pose proof (p10 k ltac:(lia)). pose proof (p10 (j - k) ltac:(lia)).
    assert (EE : c * 10 ^ j = c * 10 ^ (j - k) * 10 ^ k).
    { rewrite <- Z.mul_assoc, <- Z.pow_add_r by lia. do 2 f_equal. lia. }
    rewrite EE, rhe_exact by lia. rewrite ndigits_mul10 by lia.
    destruct (Z.gtb_spec (ndigits c + (j - k)) prec); [lia|]. destruct (Z.gtb_spec (e + k) (Emax - prec + 1)); [lia|].
    exists (c * 10 ^ (j - k)), (e + k). split; auto. split; [lia|]. replace (e + k - e) with k by lia. reflexivity.
  - exists (c * 10 ^ j), e. split; auto. split; [lia|]. rewrite Z.sub_diag. change (10 ^ 0) with 1. lia.
Qed.

(** The general case: the result is within half a unit, and no multiple of the unit is crossed. *)
Definition Rounds (prec C e : Z) (c1 e1 : Z) (J : Z) : Prop :=
  0 < c1 /\ e <= e1 /\ 0 <= J /\ ndigits c1 <= prec /\
  2 * Z.abs (c1 * 10 ^ (e1 - e) - C) <= 10 ^ J /\
  (forall M, M * 10 ^ J <= C -> M * 10 ^ J <= c1 * 10 ^ (e1 - e)).
Lemma rhe_spec c j : 0 <= j -> 0 <= c -> exists q, round_half_even c j = q /\ 2 * Z.abs (q * 10 ^ j - c) <= 10 ^ j /\ c / 10 ^ j <= q <= c / 10 ^ j + 1.
Proof.
  intros Hj Hc. pose proof (p10 j Hj). unfold round_half_even. pose proof (Z.div_mod c (10 ^ j) ltac:(lia)) as D.
  pose proof (Z.mod_pos_bound c (10 ^ j) ltac:(lia)) as B. cbv zeta. revert D B. generalize (c / 10 ^ j) (c mod 10 ^ j). generalize (10 ^ j). intros P q r D B.
  destruct (Z.ltb_spec (2 * r) P); [|destruct (Z.gtb_spec (2 * r) P); [|destruct (Z.even q)]].
  - exists q. repeat split; lia.
  - exists (q + 1). repeat split; lia.
  - exists q. repeat split; lia.
  - exists (q + 1). repeat split; lia.
Qed.
Lemma fix_rounds prec neg c e : 0 < c -> 1 <= prec -> Emin - prec + 1 <= e -> ndigits c + e <= Emax ->
  exists c1 e1 J, fix_dec prec neg c e = Ok (Fin neg c1 e1) /\ Rounds prec c e c1 e1 J /\ (J = 0 \/ J <= ndigits c - prec) /\
    (10 ^ J | c1 * 10 ^ (e1 - e)) /\ (J = ndigits c - prec \/ ndigits c <= prec).
Proof.
  intros Hc Hp H1 H2. unfold fix_dec. destruct (Z.eqb_spec c 0); [lia|]. cbv zeta.
  destruct (Z.gtb_spec (ndigits c + e - prec) (Emax - prec + 1)); [lia|].
  destruct (Z.ltb_spec e (Z.max (ndigits c + e - prec) (Emin - prec + 1))) as [L|G].
  - set (j := ndigits c - prec). assert (Hj : 0 < j) by lia.
    assert (MM : Z.max (ndigits c + e - prec) (Emin - prec + 1) = e + j) by lia. rewrite MM.
    replace (e + j - e) with j by lia. destruct (rhe_spec c j) as (q & -> & Q1 & Q2); [lia|lia|].
    pose proof (p10 j ltac:(lia)) as Pj. pose proof (ndigits_bounds c Hc) as [B1 B2].
    assert (BQ : 10 ^ (prec - 1) <= c / 10 ^ j < 10 ^ prec).
    { split.
      - apply Z.div_le_lower_bound; [lia|]. rewrite <- Z.pow_add_r by lia. replace (j + (prec - 1)) with (ndigits c - 1) by lia. auto.
      - apply Z.div_lt_upper_bound; [lia|]. rewrite <- Z.pow_add_r by lia. replace (j + prec) with (ndigits c) by lia. auto. }
    pose proof (p10 (prec - 1) ltac:(lia)). assert (MU : forall M, M * 10 ^ j <= c -> M * 10 ^ j <= q * 10 ^ j).
    { intros M HM. assert (M <= c / 10 ^ j) by (apply Z.div_le_lower_bound; lia). nia. }
    destruct (Z.gtb_spec (ndigits q) prec) as [GT|LE].
    + assert (q = 10 ^ prec) as ->.
      { destruct (Z.eq_dec q (10 ^ prec)); auto. assert (ndigits q <= prec) by (apply ndigits_le; lia). lia. }
      assert (P10 : 10 ^ prec = 10 ^ (prec - 1) * 10).
      { replace prec with (prec - 1 + 1) at 1 by lia. rewrite Z.pow_add_r by lia. reflexivity. }
      rewrite P10, Z.div_mul by lia. rewrite P10 in Q1, MU.
      destruct (Z.gtb_spec (e + j + 1) (Emax - prec + 1)); [lia|]. exists (10 ^ (prec - 1)), (e + j + 1), j. split; auto.
      assert (EV : 10 ^ (prec - 1) * 10 ^ (e + j + 1 - e) = 10 ^ (prec - 1) * 10 * 10 ^ j).
      { replace (e + j + 1 - e) with (j + 1) by lia. rewrite (Z.pow_add_r 10 j 1) by lia. change (10 ^ 1) with 10. ring. }
      split; [|split; [lia|split; [rewrite EV; exists (10 ^ (prec - 1) * 10); ring|lia]]]. unfold Rounds. rewrite EV. repeat split; auto; try lia.
      apply ndigits_le; [|lia]. lia.
    + destruct (Z.gtb_spec (e + j) (Emax - prec + 1)); [lia|]. exists q, (e + j), j. split; auto. replace (e + j - e) with j by lia.
      split; [|split; [lia|split; [exists q; ring|lia]]]. unfold Rounds. replace (e + j - e) with j by lia. repeat split; auto; lia.
  - exists c, e, 0. split; auto. split; [|split; [lia|split; [change (10 ^ 0) with 1; apply Z.divide_1_l|lia]]]. unfold Rounds. rewrite Z.sub_diag. change (10 ^ 0) with 1. rewrite Z.mul_1_r, Z.sub_diag.
    cbn. repeat split; try lia.
Qed.

(** ** Multiplying *)
Lemma Signed_len neg c k s : Signed neg c k s -> 0 <= c /\ 0 <= k <= zlen s.
Proof.
  assert (W : forall c k s, Amount c k s -> 0 <= c /\ 0 <= k <= zlen s).
  { intros c0 k0 s0 [c1 ds D NE|c1 ds fs D NE]; pose proof (Digits_nonneg _ _ D); unfold zlen; [lia|].
    rewrite app_length. cbn [length]. lia. }
  intros [c0 k0 s0 A|c0 k0 s0 A|c0 k0 s0 A]; apply W in A; unfold zlen in *; cbn [length]; lia.
Qed.
Lemma to_int_scaled neg P k c' e' : - k <= e' -> 0 <= k -> P = c' * 10 ^ (e' + k) -> dec_to_int (Fin neg c' e') = Ok (trunc neg P (10 ^ k)).
Proof.
  intros He Hk EP. cbn [dec_to_int]. unfold trunc. assert (Q : (if e' >=? 0 then c' * 10 ^ e' else c' / 10 ^ (- e')) = P / 10 ^ k).
  { subst P. destruct (Z.geb_spec e' 0).
    - rewrite Z.pow_add_r by lia. rewrite Z.mul_assoc, Z.div_mul; auto. pose proof (p10 k Hk). lia.
    - assert (EE : 10 ^ k = 10 ^ (- e') * 10 ^ (e' + k)) by (rewrite <- Z.pow_add_r by lia; f_equal; lia).
      rewrite EE. pose proof (p10 (- e') ltac:(lia)). pose proof (p10 (e' + k) ltac:(lia)). rewrite Z.div_mul_cancel_r by lia. reflexivity. }
  rewrite Q. reflexivity.
Qed.
Lemma mul_exact prec r neg c k m j : 0 < r -> 0 <= c -> 0 <= k < 100000 -> 1 <= prec <= 100000 ->
  r * c = m * 10 ^ j -> 0 <= m < 10 ^ prec -> 0 <= j <= 100000 ->
  exists x, dec_mul prec (dec_of_int r) (Fin neg c (- k)) = Ok x /\ dec_to_int x = Ok (trunc neg (r * c) (10 ^ k)).
Proof.
  intros Hr Hc Hk Hp E Hm Hj. unfold dec_of_int. destruct (Z.ltb_spec r 0); [lia|]. rewrite Z.abs_eq by lia. cbn [dec_mul].
  replace (xorb false neg) with neg by (destruct neg; auto). rewrite E. change (0 + - k) with (- k).
  pose proof (p10 j ltac:(lia)). destruct (Z.eq_dec m 0) as [->|NZ].
  - rewrite Z.mul_0_l, fix_zero; [|lia|cbv [Emin Emax]; lia]. eexists. split; [reflexivity|].
    apply to_int_scaled; lia.
  - pose proof (ndigits_le m prec Hm ltac:(lia)). destruct (fix_zeros prec neg m j (- k)) as (c' & e' & -> & He & EV); [lia|lia|lia|cbv [Emin]; lia|cbv [Emax]; lia|].
    eexists. split; [reflexivity|]. apply to_int_scaled; try lia. rewrite EV. do 2 f_equal. lia.
Qed.

(** ** Writing *)
Lemma zlen_app {A} (a b : list A) : zlen (a ++ b) = zlen a + zlen b.
Proof. unfold zlen. rewrite app_length. lia. Qed.
Lemma format_shortest prec neg T p : 0 <= T < 10 ^ prec -> 1 <= prec <= 100000 -> 0 <= p <= 100000 ->
  exists x s, normalize prec (Fin neg T (- p)) = Ok x /\ format_f x = (if neg then [45] else []) ++ s /\ Shortest T p s.
Proof.
  intros HT Hp Hpl. unfold normalize. destruct (Z.eq_dec T 0) as [->|NZ].
  - rewrite fix_zero; [|lia|cbv [Emin Emax]; lia]. cbn [bind]. exists (Fin neg 0 0), [48]. split; auto. split; [destruct neg; reflexivity|].
    exists 0, 0, [48], []. cbn. repeat split; auto; try lia. apply (Digits_zeros 1).
  - pose proof (ndigits_le T prec HT ltac:(lia)) as ND. rewrite fix_exact; [|lia|lia|cbv [Emin]; lia|cbv [Emax]; lia]. cbn [bind].
    destruct (Z.eqb_spec T 0); [lia|]. destruct (strip_zeros_spec (Z.to_nat (ndigits T)) T (- p) Emax) as (j & Hj & -> & ET & _ & ST); [lia|].
    pose proof (p10 j Hj) as Pj. set (t := T / 10 ^ j) in *. assert (Ht : 0 < t) by nia.
    assert (NJ : j < ndigits T). { apply ndigits_gt; auto. nia. }
    assert (MD : t mod 10 <> 0).
    { destruct ST as [ST|[ST|ST]]; auto; [lia|]. cbv [Emax] in ST. lia. }
    assert (NT : ndigits T = ndigits t + j). { rewrite ET. apply ndigits_mul10; auto. }
    exists (Fin neg t (- p + j)). cbn [format_f]. destruct (Z.eqb_spec t 0); [lia|]. destruct (digits_spec t) as (D & NE & _ & L); [lia|]. destruct (L Ht) as (d & r & Ed & Hd).
    set (e := - p + j). destruct (Z.geb_spec e 0) as [P|N].
    + eexists. split; [reflexivity|]. split; [reflexivity|].
      exists (t * 10 ^ e), 0, (digits t ++ repeat 48 (Z.to_nat e)), []. rewrite app_nil_r.
      assert (DD : Digits (t * 10 ^ e) (digits t ++ repeat 48 (Z.to_nat e))).
      { pose proof (Digits_app _ _ _ _ D (Digits_zeros (Z.to_nat e))) as A. unfold zlen in A. rewrite repeat_length, Z2Nat.id, Z.add_0_r in A by lia. auto. }
      repeat split; auto; try lia.
      * rewrite Z.sub_0_r, <- Z.mul_assoc, <- Z.pow_add_r by lia. rewrite ET at 1. do 2 f_equal. lia.
      * right. exists d, (r ++ repeat 48 (Z.to_nat e)). rewrite Ed. auto.
    + set (k := - e). change (zlen (digits t)) with (ndigits t). destruct (Z.leb_spec (ndigits t + e) 0) as [LE|GT].
      * eexists. split; [reflexivity|]. split; [reflexivity|].
        exists t, k, [48], (repeat 48 (Z.to_nat (- (ndigits t + e))) ++ digits t).
        assert (k =? 0 = false) as -> by (apply Z.eqb_neq; lia). split; [lia|]. split; [rewrite ET at 1; do 2 f_equal; lia|].
        split.
        { rewrite zlen_app. unfold zlen at 1. rewrite repeat_length. change (zlen (digits t)) with (ndigits t). lia. }
        split.
        { change [48] with (repeat 48 1). rewrite app_assoc, <- repeat_app. pose proof (Digits_app _ _ _ _ (Digits_zeros (1 + Z.to_nat (- (ndigits t + e)))) D) as A.
          rewrite Z.mul_0_l, Z.add_0_l in A. exact A. }
        split; [reflexivity|]. split; [left; auto|auto].
      * eexists. split; [reflexivity|]. split; [reflexivity|].
        set (l := Z.to_nat (ndigits t + e)). exists t, k, (firstn l (digits t)), (skipn l (digits t)). rewrite firstn_skipn.
        assert (k =? 0 = false) as -> by (apply Z.eqb_neq; lia). split; [lia|]. split; [rewrite ET at 1; do 2 f_equal; lia|].
        split.
        { unfold zlen. rewrite skipn_length. unfold ndigits, zlen in *. lia. }
        split; [auto|]. split; [reflexivity|]. split; [|auto]. right. rewrite Ed. destruct l as [|l'] eqn:El; [lia|]. exists d, (firstn l' r). auto.
Qed.
(** The last steps of satoshi_to_currency, given the quotient. *)
Lemma quantize_shows prec neg c e p T : 0 < c -> 1 <= prec <= 100000 -> 0 <= p <= 100000 -> e <= 100000 ->
  e + ndigits c + p <= prec -> T = (if e >=? - p then c * 10 ^ (e + p) else c / 10 ^ (- p - e)) ->
  quantize_down prec (Fin neg c e) p = Ok (Fin neg T (- p)) /\ 0 <= T < 10 ^ prec.
Proof.
  intros Hc Hp Hpl He H ET. assert (BT : 0 <= T < 10 ^ prec).
  { pose proof (ndigits_bounds c Hc) as [_ B]. pose proof (ndigits_ge1 c ltac:(lia)). subst T. destruct (Z.geb_spec e (- p)).
    - pose proof (p10 (e + p) ltac:(lia)). split; [nia|]. apply Z.lt_le_trans with (10 ^ ndigits c * 10 ^ (e + p)); [nia|].
      rewrite <- Z.pow_add_r by lia. apply Z.pow_le_mono_r; lia.
    - pose proof (p10 (- p - e) ltac:(lia)). split; [apply Z.div_pos; lia|]. apply Z.div_lt_upper_bound; [lia|].
      rewrite <- Z.pow_add_r by lia. apply Z.lt_le_trans with (10 ^ ndigits c); auto. apply Z.pow_le_mono_r; lia. }
  split; auto. unfold quantize_down. destruct (Z.eqb_spec c 0); [lia|]. cbv zeta. rewrite <- ET.
  destruct (Z.gtb_spec (e + ndigits c - 1) Emax) as [G|_]; [cbv [Emax] in G; lia|]. cbn [orb].
  destruct (Z.gtb_spec (e + ndigits c - 1 + p + 1) prec); [lia|]. pose proof (ndigits_le T prec BT ltac:(lia)).
  destruct (Z.gtb_spec (ndigits T) prec); [lia|]. destruct (Z.eq_dec T 0) as [->|].
  - apply fix_zero; [lia|cbv [Emin Emax]; lia].
  - apply fix_exact; [lia|lia|cbv [Emin]; lia|cbv [Emax]; lia].
Qed.

(** ** Dividing *)
Lemma div_rounds prec neg n r k p : 0 < n -> 0 < r -> 0 <= p -> 0 <= k -> ndigits n + p + k + 1 <= prec -> prec <= 100000 -> ndigits r <= 100000 ->
  exists c1 e1, dec_div prec (Fin neg n 0) (Fin false r (- k)) = Ok (Fin neg c1 e1) /\ 0 < c1 /\ ndigits c1 <= prec /\
    k - (ndigits r + prec + 1) <= e1 /\ e1 + ndigits c1 <= ndigits n + k /\
    n * 10 ^ (p + k) / r = (if e1 >=? - p then c1 * 10 ^ (e1 + p) else c1 / 10 ^ (- p - e1)).
Proof.
  intros Hn Hr Hpl Hk HP Hprec Hnr. cbn [dec_div]. destruct (Z.eqb_spec r 0); [lia|]. destruct (Z.eqb_spec n 0); [lia|].
  cbv zeta. replace (xorb neg false) with neg by (destruct neg; auto). set (shift := ndigits r - ndigits n + prec + 1).
  pose proof (ndigits_bounds n Hn) as [N1 N2]. pose proof (ndigits_bounds r Hr) as [R1 R2].
  pose proof (ndigits_ge1 n ltac:(lia)) as N0. pose proof (ndigits_ge1 r ltac:(lia)) as R0.
  destruct (Z.geb_spec shift 0) as [_|]; [|lia]. replace (0 - - k) with k by lia. set (x := k - shift).
  set (N := n * 10 ^ shift). set (q := N / r). pose proof (p10 shift ltac:(lia)) as Ps.
  pose proof (Z.div_mod N r ltac:(lia)) as DM. fold q in DM. pose proof (Z.mod_pos_bound N r ltac:(lia)) as MB.
  assert (Q1 : 10 ^ prec <= q).
  { apply Z.div_le_lower_bound; [lia|]. apply Z.le_trans with (10 ^ ndigits r * 10 ^ prec).
    - pose proof (p10 prec ltac:(lia)). nia.
    - rewrite <- Z.pow_add_r by lia. replace (ndigits r + prec) with (ndigits n - 1 + shift) by lia. rewrite Z.pow_add_r by lia. unfold N. nia. }
  assert (Q2 : q < 10 ^ (prec + 2)).
  { apply Z.div_lt_upper_bound; [lia|]. apply Z.lt_le_trans with (10 ^ (ndigits r - 1) * 10 ^ (prec + 2)).
    - rewrite <- Z.pow_add_r by lia. replace (ndigits r - 1 + (prec + 2)) with (ndigits n + shift) by lia. rewrite Z.pow_add_r by lia. unfold N. nia.
    - pose proof (p10 (prec + 2) ltac:(lia)). nia. }
  pose proof (p10 prec ltac:(lia)) as Pp.
  assert (K : exists c1 e1 J C, (let '(coeff, exp) := if N mod r =? 0 then strip_zeros (Z.to_nat (k - x)) q x k
       else (if q mod 5 =? 0 then q + 1 else q, x) in fix_dec prec neg coeff exp) = Ok (Fin neg c1 e1)
     /\ Rounds prec C x c1 e1 J /\ J <= 2 /\ q <= C /\ C * r <= N + r).
  { destruct (Z.eqb_spec (N mod r) 0) as [M0|M0].
    - destruct (strip_zeros_spec (Z.to_nat (k - x)) q x k) as (z & Hz & -> & Eq & Zs & _); [lia|].
      pose proof (p10 z Hz) as Pz. set (q' := q / 10 ^ z) in *. assert (Hq' : 0 < q') by nia.
      assert (NQ : ndigits q = ndigits q' + z) by (rewrite Eq; apply ndigits_mul10; auto).
      assert (NQ2 : ndigits q <= prec + 2) by (apply ndigits_le; lia).
      destruct (fix_rounds prec neg q' (x + z)) as (c1 & e1 & J & E & (C1 & C2 & C3 & C4 & C5 & C6) & HJ & _);
        [lia|lia|cbv [Emin]; lia|cbv [Emax]; lia|].
      assert (EV : c1 * 10 ^ (e1 - x) = c1 * 10 ^ (e1 - (x + z)) * 10 ^ z).
      { rewrite <- Z.mul_assoc, <- Z.pow_add_r by lia. do 2 f_equal. lia. }
      set (V := c1 * 10 ^ (e1 - (x + z))) in *.
      destruct HJ as [->|HJ].
      + exists c1, e1, 0, q. split; [exact E|]. split; [|lia]. change (10 ^ 0) with 1 in *. assert (V = q') by lia.
        unfold Rounds. rewrite EV. change (10 ^ 0) with 1. assert (V * 10 ^ z = q) as -> by congruence.
        repeat split; auto; try lia.
      + exists c1, e1, (J + z), q. split; [exact E|]. split; [|lia]. unfold Rounds. rewrite EV, (Z.pow_add_r 10 J z) by lia.
        repeat split; auto; try lia.
        * replace (V * 10 ^ z - q) with ((V - q') * 10 ^ z) by lia. rewrite Z.abs_mul, (Z.abs_eq (10 ^ z)) by lia. rewrite Z.mul_assoc. apply Z.mul_le_mono_nonneg_r; lia.
        * intros M HM. assert (M * 10 ^ J <= q') by (clear - HM Pz Eq; nia). specialize (C6 M H). rewrite Z.mul_assoc. apply Z.mul_le_mono_nonneg_r; lia.
    - set (C := if q mod 5 =? 0 then q + 1 else q). assert (HC : q <= C /\ C <= q + 1) by (unfold C; destruct (q mod 5 =? 0); lia).
      assert (CB : C < 10 ^ (prec + 2)).
      { unfold C. destruct (Z.eqb_spec (q mod 5) 0) as [M5|]; [|auto].
        assert (q + 1 <> 10 ^ (prec + 2)); [|lia]. intros EQ.
        assert (E10 : 10 ^ (prec + 2) = 5 * (2 * 10 ^ (prec + 1))).
        { replace (prec + 2) with (prec + 1 + 1) by lia. rewrite (Z.pow_add_r 10 (prec + 1) 1) by lia. change (10 ^ 1) with 10. ring. }
        pose proof (Z.div_mod q 5 ltac:(lia)). lia. }
      assert (NC : ndigits C <= prec + 2) by (apply ndigits_le; lia).
      destruct (fix_rounds prec neg C x) as (c1 & e1 & J & E & R & HJ & _); [lia|lia|cbv [Emin]; lia|cbv [Emax]; lia|].
      exists c1, e1, J, C. split; [exact E|]. split; [auto|]. split; [lia|]. split; [lia|].
      apply Z.le_trans with ((q + 1) * r); [nia|]. lia. }
  destruct K as (c1 & e1 & J & C & E & (C1 & C2 & C3 & C4 & C5 & C6) & HJ & HC & HCr). exists c1, e1. split; [exact E|]. split; [auto|]. split; [auto|]. split; [unfold x, shift in *; lia|].
  set (W := c1 * 10 ^ (e1 - x)) in *. set (T := n * 10 ^ (p + k) / r). set (D := shift - (p + k)).
  assert (PD : 10 ^ D = 10 ^ J * 10 ^ (D - J)) by (rewrite <- Z.pow_add_r by lia; f_equal; lia).
  pose proof (p10 D ltac:(lia)) as PD0. pose proof (p10 J C3) as PJ0. pose proof (p10 (p + k) ltac:(lia)) as Pp0.
  pose proof (Z.div_mod (n * 10 ^ (p + k)) r ltac:(lia)) as TM. fold T in TM. pose proof (Z.mod_pos_bound (n * 10 ^ (p + k)) r ltac:(lia)) as TB.
  assert (ND : N = n * 10 ^ (p + k) * 10 ^ D) by (unfold N; rewrite <- Z.mul_assoc, <- Z.pow_add_r by lia; do 2 f_equal; lia).
  assert (T0 : 0 <= T) by (apply Z.div_pos; [apply Z.mul_nonneg_nonneg; lia|lia]).
  assert (LOW : T * 10 ^ D <= W).
  { rewrite PD, (Z.mul_comm (10 ^ J)), Z.mul_assoc. apply C6. rewrite <- Z.mul_assoc, (Z.mul_comm _ (10 ^ J)), <- PD.
    apply Z.le_trans with q; auto. apply Z.div_le_lower_bound; [lia|]. rewrite ND, Z.mul_assoc. apply Z.mul_le_mono_nonneg_r; lia. }
  assert (J100 : 10 ^ J <= 100). { change 100 with (10 ^ 2). apply Z.pow_le_mono_r; lia. }
  assert (D100 : r * 100 < 10 ^ D).
  { apply Z.lt_le_trans with (10 ^ (ndigits r + 2)); [|apply Z.pow_le_mono_r; lia]. rewrite Z.pow_add_r by lia. change (10 ^ 2) with 100. lia. }
  assert (HIGH : W < (T + 1) * 10 ^ D).
  { assert (U : 2 * W <= 2 * C + 100) by lia. apply (Z.mul_lt_mono_pos_r r); [lia|].
    assert (X : (n * 10 ^ (p + k) + 1) * 10 ^ D <= (T + 1) * r * 10 ^ D) by (apply Z.mul_le_mono_nonneg_r; lia).
    assert (Y : 2 * W * r <= (2 * C + 100) * r) by (apply Z.mul_le_mono_nonneg_r; lia).
    rewrite ND in HCr. generalize dependent (10 ^ D). intros. lia. }
  assert (EW : W / 10 ^ D = T).
  { symmetry. apply Z.div_unique with (W - T * 10 ^ D); [left; lia|ring]. }
  split.
  - assert (WN : ndigits W = ndigits c1 + (e1 - x)) by (apply ndigits_mul10; lia).
    assert (ndigits W <= ndigits n + shift); [|lia]. apply ndigits_le; [|lia]. split; [pose proof (Z.mul_nonneg_nonneg T (10 ^ D)); lia|].
    apply Z.lt_le_trans with ((T + 1) * 10 ^ D); auto. replace (ndigits n + shift) with (ndigits n + (p + k) + D) by lia. rewrite (Z.pow_add_r 10 (ndigits n + (p + k)) D), (Z.pow_add_r 10 (ndigits n) (p + k)) by lia.
    apply Z.mul_le_mono_nonneg_r; [lia|]. assert (T <= n * 10 ^ (p + k)) by (apply Z.div_le_upper_bound; [lia|]; clear - Hr Hn Pp0; nia).
    clear - N2 Pp0 H. nia.
  - rewrite <- EW. unfold W. destruct (Z.geb_spec e1 (- p)).
    + replace (e1 - x) with (e1 + p + D) by (unfold x, D; lia). rewrite Z.pow_add_r, Z.mul_assoc, Z.div_mul by lia. reflexivity.
    + assert (EE : 10 ^ D = 10 ^ (- p - e1) * 10 ^ (e1 - x)) by (rewrite <- Z.pow_add_r by lia; f_equal; lia).
      rewrite EE. pose proof (p10 (- p - e1) ltac:(lia)). pose proof (p10 (e1 - x) ltac:(lia)). rewrite Z.div_mul_cancel_r by lia. reflexivity.
Qed.

(** Dividing by a power of ten. *)
Lemma div_unit prec neg n u : 0 < n < 10 ^ prec -> 0 <= u -> 1 <= prec -> prec + u <= 100000 ->
  exists c1 e1, dec_div prec (Fin neg n 0) (Fin false (10 ^ u) 0) = Ok (Fin neg c1 e1) /\ 0 < c1 /\ e1 <= 0 /\ e1 + ndigits c1 + u <= prec /\
    n = (if e1 >=? - u then c1 * 10 ^ (e1 + u) else c1 / 10 ^ (- u - e1)).
Proof.
  intros Hn Hu Hp Hpu. cbn [dec_div]. pose proof (p10 u Hu) as Pu. destruct (Z.eqb_spec (10 ^ u) 0); [lia|]. destruct (Z.eqb_spec n 0); [lia|].
  cbv zeta. replace (xorb neg false) with neg by (destruct neg; auto). change (0 - 0) with 0.
  assert (ndigits (10 ^ u) = u + 1) as ->. { rewrite <- (Z.mul_1_l (10 ^ u)), ndigits_mul10 by lia. change (ndigits 1) with 1. lia. }
  pose proof (ndigits_le n prec ltac:(lia) Hp) as NN. pose proof (ndigits_ge1 n ltac:(lia)).
  set (shift := u + 1 - ndigits n + prec + 1). destruct (Z.geb_spec shift 0) as [_|]; [|lia].
  assert (EN : n * 10 ^ shift = n * 10 ^ (shift - u) * 10 ^ u). { rewrite <- Z.mul_assoc, <- Z.pow_add_r by lia. do 2 f_equal. lia. }
  rewrite EN, Z.mod_mul, Z.div_mul by lia. cbn [Z.eqb]. pose proof (p10 (shift - u) ltac:(lia)) as Psu.
  set (q := n * 10 ^ (shift - u)). replace (0 - (0 - shift)) with shift by lia. change (0 - shift) with (- shift).
  destruct (strip_zeros_spec (Z.to_nat shift) q (- shift) 0) as (j & Hj & -> & Eq & Ej & ST); [unfold q; nia|].
  pose proof (p10 j Hj) as Pj. set (q' := q / 10 ^ j) in *.
  assert (JJ : shift - u <= j).
  { destruct (Z_le_gt_dec (shift - u) j); auto. destruct ST as [ST|[ST|ST]]; [lia|lia|]. exfalso. apply ST.
    assert (q' = n * 10 ^ (shift - u - j - 1) * 10) as ->; [|apply Z.mod_mul; lia].
    unfold q'. symmetry. apply Z.div_unique_exact; [lia|]. unfold q. replace (shift - u) with (j + (shift - u - j - 1) + 1) at 1 by lia.
    rewrite !Z.pow_add_r by lia. change (10 ^ 1) with 10. ring. }
  assert (EV : n = q' * 10 ^ (j - (shift - u))).
  { apply (Z.mul_reg_r _ _ (10 ^ (shift - u))); [lia|]. rewrite <- Z.mul_assoc, <- Z.pow_add_r by lia.
    replace (j - (shift - u) + (shift - u)) with j by lia. exact Eq. }
  pose proof (p10 (j - (shift - u)) ltac:(lia)). assert (Hq' : 0 < q') by nia.
  assert (ND : ndigits n = ndigits q' + (j - (shift - u))) by (rewrite EV; apply ndigits_mul10; lia).
  rewrite fix_exact; [|lia|lia|cbv [Emin]; lia|cbv [Emax]; lia]. exists q', (- shift + j). split; auto. split; auto.
  split; [lia|]. split; [lia|]. destruct (Z.geb_spec (- shift + j) (- u)); [|lia]. rewrite EV at 1. do 2 f_equal. lia.
Qed.
