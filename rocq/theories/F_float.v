(** Lemmas about doubles. *)
From Coq Require Import String QArith Qabs Qpower Lqa Lia.
From Verif Require Import Py M_decimal S_Decimal F_decimal S_Float.
Open Scope Q_scope.

Lemma pow_pos b q : 0 < b -> 0 < Qpower b q.
Proof. apply Qpower_0_lt. Qed.
Lemma pow_plus b p q : ~ b == 0 -> Qpower b (p + q) == Qpower b p * Qpower b q.
Proof. apply Qpower_plus. Qed.
Lemma pow_int b (n : Z) : (0 <= n)%Z -> Qpower (inject_Z b) n == inject_Z (b ^ n).
Proof.
  intros H. rewrite Zpower_Qpower by exact H. reflexivity.
Qed.
Lemma pow_inv b n : Qpower b (- n) == / Qpower b n.
Proof. apply Qpower_opp. Qed.

(** Two powers of two compare as their exponents. *)
Lemma pow2_le p q : (p <= q)%Z -> Qpower 2 p <= Qpower 2 q.
Proof.
  intros H. replace q with (p + (q - p))%Z by lia. rewrite pow_plus by discriminate.
  assert (1 <= Qpower 2 (q - p)).
  { rewrite (pow_int 2) by lia. change 1 with (inject_Z 1). rewrite <- Zle_Qle. pose proof (Z.pow_pos_nonneg 2 (q - p)). lia. }
  pose proof (pow_pos 2 p eq_refl). nra.
Qed.

Lemma binary_S m q : binary (m + 1) q == binary m q + Qpower 2 q.
Proof. unfold binary. rewrite inject_Z_plus. ring. Qed.

(** The next numbers that a double can be: of 53 bits. *)
Lemma double_mul m q : (0 <= m <= 2 ^ 53)%Z -> (-1074 <= q <= 970)%Z -> IsDouble (binary m q).
Proof.
  intros Hm Hq. destruct (Z.eq_dec m (2 ^ 53)) as [->|N].
  { exists (2 ^ 52)%Z, (q + 1)%Z. split; [split; [lia|left; lia]|]. unfold binary. rewrite pow_plus by discriminate.
    change (inject_Z (2 ^ 53)) with (inject_Z (2 ^ 52) * 2). change (Qpower 2 1) with 2. ring. }
  assert (E : forall k : nat, forall m q, (0 <= m < 2 ^ 53)%Z -> (-1074 <= q <= 970)%Z -> (q + 1074 <= Z.of_nat k)%Z -> IsDouble (binary m q)).
  2: { apply (E (Z.to_nat (q + 1074))); lia. }
  clear. induction k as [|k IH]; intros m q Hm Hq Hk.
  - exists m, q. split; [|reflexivity]. split; [lia|]. destruct (Z_lt_le_dec m (2 ^ 52)); [right|left]; lia.
  - destruct (Z_lt_le_dec m (2 ^ 52)) as [L|G]; [|exists m, q; split; [split; [lia|left; lia]|reflexivity]].
    destruct (Z.eq_dec q (-1074)) as [->|N]; [exists m, (-1074)%Z; split; [split; [lia|right; lia]|reflexivity]|].
    destruct (IH (2 * m)%Z (q - 1)%Z) as (m' & q' & S & E); try lia. exists m', q'. split; [exact S|]. rewrite <- E. unfold binary.
    rewrite inject_Z_mult. replace q with (q - 1 + 1)%Z at 1 by lia. rewrite pow_plus by discriminate. change (Qpower 2 1) with 2. change (inject_Z 2) with 2. ring.
Qed.

(** A number that is read as m * 2^q is half a step away at most. *)
Lemma rounds_near v m q : (2 ^ 52 <= m)%Z -> (q <= 970)%Z -> Rounds v m q -> 2 * v <= 2 * binary m q + Qpower 2 q /\ 2 * binary m q - Qpower 2 q <= 2 * v.
Proof.
  intros Hm Hq2 [[Hq HS] N]. assert (P := pow_pos 2 q eq_refl).
  assert (M : (2 ^ 52 <= m < 2 ^ 53)%Z) by lia.
  assert (U : IsDouble (binary (m + 1) q)) by (apply double_mul; lia).
  assert (D : IsDouble (binary (m - 1) q)) by (apply double_mul; lia).
  assert (ED : binary m q == binary (m - 1) q + Qpower 2 q) by (rewrite <- binary_S; replace (m - 1 + 1)%Z with m by lia; reflexivity).
  pose proof (binary_S m q) as EU. set (x := binary m q) in *. set (w := Qpower 2 q) in *.
  assert (A : Qabs (v - x) <= Qabs (v - binary (m + 1) q)) by (destruct (N _ U) as [H|[H _]]; [rewrite EU; lra|apply Qlt_le_weak; exact H|rewrite H; apply Qle_refl]).
  assert (B : Qabs (v - x) <= Qabs (v - binary (m - 1) q)) by (destruct (N _ D) as [H|[H _]]; [lra|apply Qlt_le_weak; exact H|rewrite H; apply Qle_refl]).
  revert A B. apply Qabs_case; apply Qabs_case; apply Qabs_case; intros; lra.
Qed.

Lemma binary_le a b q : (a <= b)%Z -> binary a q <= binary b q.
Proof. intros H. unfold binary. apply Qmult_le_compat_r; [rewrite <- Zle_Qle; exact H|apply Qlt_le_weak, pow_pos; reflexivity]. Qed.
Lemma binary_min m q : (2 ^ 52 <= m)%Z -> inject_Z (2 ^ 52) * Qpower 2 q <= binary m q.
Proof. intros H. exact (binary_le _ _ q H). Qed.

Lemma at_most v m q y : Rounds v m q -> IsDouble y -> ~ y == binary m q -> Qabs (v - binary m q) <= Qabs (v - y).
Proof. intros [_ N] D E. destruct (N y D E) as [H|[H _]]; [apply Qlt_le_weak; exact H|rewrite H; apply Qle_refl]. Qed.

(** Doubles are close to each other. *)
Lemma rounds_amount v m q : 1 # 100000000000000000000 <= v -> v <= 100000000000000000 -> Rounds v m q ->
  (2 ^ 52 <= m < 2 ^ 53)%Z /\ (-1074 <= q <= 5)%Z /\ Qpower 2 q * 4000000000000000 <= v.
Proof.
  intros L U R. assert (P := pow_pos 2 q eq_refl). pose proof R as [[Hq HS] _].
  assert (M : (2 ^ 52 <= m < 2 ^ 53)%Z).
  { destruct HS as [HS|[-> HS]]; [exact HS|exfalso].
    assert (X : binary m (-1074) < 1 # 295147905179352825856).
    { apply Qle_lt_trans with (binary (2 ^ 52) (-1074)); [apply binary_le; lia|].
      unfold binary. change (inject_Z (2 ^ 52)) with (Qpower 2 52). rewrite <- pow_plus by discriminate. change (52 + -1074)%Z with (-1022)%Z.
      apply Qle_lt_trans with (Qpower 2 (-69)); [apply pow2_le; lia|reflexivity]. }
    assert (D : IsDouble (binary (2 ^ 52) (-119))) by (apply double_mul; lia).
    assert (E : binary (2 ^ 52) (-119) == 1 # 147573952589676412928) by (vm_compute; reflexivity).
    pose proof (at_most v m (-1074) _ R D) as A. rewrite E in A. assert (N : ~ 1 # 147573952589676412928 == binary m (-1074)) by lra. specialize (A N). revert A.
    apply Qabs_case; apply Qabs_case; intros; lra. }
  split; [exact M|].
  assert (Q1 : (q <= 5)%Z).
  { destruct (Z_le_gt_dec q 5) as [|G]; [assumption|exfalso].
    assert (X : inject_Z (2 ^ 58) <= binary m q).
    { apply Qle_trans with (inject_Z (2 ^ 52) * Qpower 2 q); [|apply binary_min; lia].
      apply Qle_trans with (inject_Z (2 ^ 52) * Qpower 2 6); [vm_compute; discriminate|]. apply Qmult_le_l; [reflexivity|apply pow2_le; lia]. }
    assert (D : IsDouble (binary (2 ^ 52) 5)) by (apply double_mul; lia).
    assert (E : binary (2 ^ 52) 5 == inject_Z (2 ^ 57)) by (vm_compute; reflexivity).
    change (inject_Z (2 ^ 58)) with 288230376151711744 in X. change (inject_Z (2 ^ 57)) with 144115188075855872 in E.
    pose proof (at_most v m q _ R D) as A. rewrite E in A. assert (N : ~ 144115188075855872 == binary m q) by lra. specialize (A N). revert A.
    apply Qabs_case; apply Qabs_case; intros; lra. }
  destruct (rounds_near v m q) as [N1 N2]; auto; [lia|lia|].
  pose proof (binary_min m q) as B. change (inject_Z (2 ^ 52)) with 4503599627370496 in B. specialize (B (proj1 M)).
  split; [lia|lra].
Qed.

(** Two numbers that are read as the same double *)
Lemma same_double v r m q : 1 # 100000000000000000000 <= v -> v <= 100000000000000000 -> Rounds v m q -> Rounds r m q ->
  Qabs (r - v) * 4000000000000000 <= v.
Proof.
  intros L U R1 R2. destruct (rounds_amount v m q L U R1) as (M & Hq & P).
  destruct (rounds_near v m q) as [A1 A2]; auto; try lia. destruct (rounds_near r m q) as [B1 B2]; auto; try lia.
  apply Qabs_case; intros; lra.
Qed.

Lemma pow10_le p q : (p <= q)%Z -> Qpower 10 p <= Qpower 10 q.
Proof.
  intros H. replace q with (p + (q - p))%Z by lia. rewrite pow_plus by discriminate.
  assert (1 <= Qpower 10 (q - p)).
  { rewrite (pow_int 10) by lia. change 1 with (inject_Z 1). rewrite <- Zle_Qle. pose proof (Z.pow_pos_nonneg 10 (q - p)). lia. }
  pose proof (pow_pos 10 p eq_refl). nra.
Qed.
Lemma decimal_shift c e g : (0 <= g)%Z -> decimal c (g + e) == decimal (c * 10 ^ g) e.
Proof. intros H. unfold decimal. rewrite pow_plus, inject_Z_mult by discriminate. rewrite <- (pow_int 10 g H). change (inject_Z 10) with 10. ring. Qed.

(** n without its last zeros *)
Lemma strip_zeros n : (0 < n)%Z -> exists c g D, (n = c * 10 ^ g /\ 0 <= g /\ c mod 10 <> 0 /\ 1 <= D /\ 10 ^ (D - 1) <= c < 10 ^ D)%Z.
Proof.
  intros H.
  assert (S : forall k : nat, forall n, (0 < n < Z.of_nat k)%Z -> exists c g, (n = c * 10 ^ g /\ 0 <= g /\ c mod 10 <> 0 /\ 0 < c)%Z).
  { clear. induction k as [|k IH]; intros n P; [lia|]. destruct (Z.eq_dec (n mod 10) 0) as [E|N].
    - assert (n = 10 * (n / 10))%Z by (pose proof (Z.div_mod n 10); lia). destruct (IH (n / 10)%Z) as (c & g & A & B & C & D); [lia|].
      exists c, (g + 1)%Z. rewrite Z.pow_add_r by lia. repeat split; try lia.
    - exists n, 0%Z. rewrite Z.pow_0_r. lia. }
  destruct (S (Z.to_nat (n + 1)) n) as (c & g & A & B & C & P); [lia|]. exists c, g, (ndigits c).
  pose proof (ndigits_bounds c P). pose proof (ndigits_ge1 c). lia.
Qed.

Lemma far_apart a c W : (a <> c)%Z -> 0 < W -> W <= Qabs (inject_Z a * W - inject_Z c * W).
Proof.
  intros N P. setoid_replace (inject_Z a * W - inject_Z c * W) with (inject_Z (a - c) * W).
  2: { unfold Zminus. rewrite inject_Z_plus, inject_Z_opp. ring. }
  destruct (Z_lt_le_dec a c) as [L|G].
  - assert (inject_Z (a - c) <= inject_Z (-1)) by (rewrite <- Zle_Qle; lia). change (inject_Z (-1)) with (-(1)) in *. apply Qabs_case; intros; nra.
  - assert (inject_Z 1 <= inject_Z (a - c)) by (rewrite <- Zle_Qle; lia). change (inject_Z 1) with 1 in *. apply Qabs_case; intros; nra.
Qed.

(** The shortest decimal number that is read as the same double as an amount is the
    amount. *)
Lemma amount_range n p : (0 < n <= 2100000000000000)%Z -> (0 <= p <= 20)%Z ->
  1 # 100000000000000000000 <= decimal n (- p) /\ decimal n (- p) <= 100000000000000000 /\ 0 < Qpower 10 (- p) /\ decimal n (- p) <= 2100000000000000 * Qpower 10 (- p).
Proof.
  intros Hn Hp. pose proof (pow10_le (-20) (- p)) as A. specialize (A ltac:(lia)). pose proof (pow10_le (- p) 0) as B. specialize (B ltac:(lia)).
  change (Qpower 10 (-20)) with (1 # 100000000000000000000) in A. change (Qpower 10 0) with 1 in B. pose proof (pow_pos 10 (- p) eq_refl) as P.
  assert (C : inject_Z 1 <= inject_Z n) by (rewrite <- Zle_Qle; lia). assert (D : inject_Z n <= inject_Z 2100000000000000) by (rewrite <- Zle_Qle; lia).
  change (inject_Z 1) with 1 in C. change (inject_Z 2100000000000000) with 2100000000000000 in D. unfold decimal. set (w := Qpower 10 (- p)) in *. repeat split; nra.
Qed.
Lemma shortest_is_amount n p d k m q : (0 < n <= 2100000000000000)%Z -> (0 <= p <= 20)%Z -> Rounds (decimal n (- p)) m q -> Rounds (decimal d (- k)) m q ->
  (forall D r, (0 <= D)%Z -> Written D r -> Rounds r m q -> Written D (decimal d (- k))) -> decimal d (- k) == decimal n (- p).
Proof.
  intros Hn Hp R1 R2 S. destruct (amount_range n p Hn Hp) as (L & U & PZ & MX).
  set (v := decimal n (- p)) in *. set (r := decimal d (- k)) in *. set (Z0 := Qpower 10 (- p)) in *.
  pose proof (same_double v r m q L U R1 R2) as NR. assert (NA : Qabs (r - v) < Z0) by lra.
  destruct (strip_zeros n) as (c & g & D & En & Hg & Hc & HD & Bc); [lia|].
  set (W := Qpower 10 (g - p)). assert (PW : 0 < W) by (apply pow_pos; reflexivity).
  assert (LW : Z0 <= W) by (apply pow10_le; lia).
  assert (EW : v == inject_Z c * W).
  { unfold v. rewrite En. rewrite <- decimal_shift by lia. replace (g + - p)%Z with (g - p)%Z by lia. reflexivity. }
  destruct (S D v) as (c' & f & Hc' & Er); [lia|exists c, (g - p)%Z; split; [split; [pose proof (Z.pow_pos_nonneg 10 (D - 1)); lia|lia]|exact EW]|exact R1|].
  fold r in Er. destruct (Z_le_gt_dec (g - p) f) as [GE|LT].
  - assert (E : r == inject_Z (c' * 10 ^ (f - (g - p))) * W).
    { rewrite Er. replace f with ((f - (g - p)) + (g - p))%Z at 1 by lia. rewrite decimal_shift by lia. reflexivity. }
    destruct (Z.eq_dec (c' * 10 ^ (f - (g - p))) c) as [EQ|NE]; [rewrite E, EW, EQ; reflexivity|exfalso].
    pose proof (far_apart _ _ W NE PW) as FA. rewrite <- E, <- EW in FA. lra.
  - exfalso. pose proof (pow10_le (f + 1) (g - p)) as PL. specialize (PL ltac:(lia)). fold W in PL. rewrite pow_plus in PL by discriminate. change (Qpower 10 1) with 10 in PL.
    pose proof (pow_pos 10 f eq_refl) as Pf. set (w := Qpower 10 f) in *.
    assert (Cq : inject_Z c' + 1 <= inject_Z (10 ^ D)) by (change 1 with (inject_Z 1); rewrite <- inject_Z_plus, <- Zle_Qle; lia).
    assert (TD : inject_Z (10 ^ D) == 10 * inject_Z (10 ^ (D - 1))).
    { change (10 * inject_Z (10 ^ (D - 1))) with (inject_Z 10 * inject_Z (10 ^ (D - 1))). rewrite <- inject_Z_mult. replace D with (Z.succ (D - 1)) at 1 by lia. rewrite Z.pow_succ_r by lia. reflexivity. }
    rewrite TD in Cq. set (T := inject_Z (10 ^ (D - 1))) in *.
    assert (T1 : 1 <= T) by (change 1 with (inject_Z 1); unfold T; rewrite <- Zle_Qle; pose proof (Z.pow_pos_nonneg 10 (D - 1)); lia).
    assert (RT : r <= T * W - w).
    { rewrite Er. unfold decimal. fold w. nra. }
    destruct (Z.eq_dec c (10 ^ (D - 1))) as [EC|NC].
    + destruct (Z.eq_dec D 1) as [->|ND].
      * assert (T == 1) by reflexivity. assert (r <= (9 # 10) * W) by (rewrite Er; unfold decimal; fold w; nra).
        assert (EW1 : v == W) by (rewrite EW, EC; change (inject_Z (10 ^ (1 - 1))) with 1; ring). revert NR. apply Qabs_case; intros; lra.
      * exfalso. apply Hc. rewrite EC. replace (D - 1)%Z with (Z.succ (D - 2)) by lia. rewrite Z.pow_succ_r by lia. rewrite Z.mul_comm. apply Z_mod_mult.
    + assert (CT : T + 1 <= inject_Z c) by (change 1 with (inject_Z 1); unfold T; rewrite <- inject_Z_plus, <- Zle_Qle; lia).
      assert (T * W + W <= v) by (rewrite EW; nra). revert NA. apply Qabs_case; intros; lra.
Qed.
