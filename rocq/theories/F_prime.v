(** Number theory over Z: Fermat's little theorem, Pocklington's criterion and
    the primality of the field modulus of secp256k1. *)
From Coq Require Import Znumtheory Zpow_facts Permutation.
From Verif Require Export F_base.

(** ** Congruences *)
Lemma mod_eq_div a b n : n <> 0 -> (a mod n = b mod n <-> (n | a - b)).
Proof.
  intros Hn. split; intros H.
  - exists (a / n - b / n). rewrite (Z.div_mod a n Hn) at 1. rewrite (Z.div_mod b n Hn) at 1. rewrite H. ring.
  - destruct H as [k H]. replace a with (b + k * n) by lia. apply Z_mod_plus_full.
Qed.

Lemma pow_mod_eq a b n k : 0 < n -> 0 <= k -> a mod n = b mod n -> (a ^ k) mod n = (b ^ k) mod n.
Proof.
  intros Hn Hk H. rewrite (Zpower_mod a), (Zpower_mod b) by lia. rewrite H. reflexivity.
Qed.

(** ** Fermat *)
Definition residues (p : Z) : list Z := map Z.of_nat (seq 1 (Z.to_nat p - 1)).

Lemma residues_In p x : 1 < p -> In x (residues p) <-> 1 <= x < p.
Proof.
  intros Hp. unfold residues. rewrite in_map_iff. split.
  - intros (n & <- & H). apply in_seq in H. lia.
  - intros H. exists (Z.to_nat x). split; [lia|]. apply in_seq. lia.
Qed.

Lemma residues_NoDup p : NoDup (residues p).
Proof.
  unfold residues. apply FinFun.Injective_map_NoDup; [|apply seq_NoDup]. intros a b H. lia.
Qed.

Lemma NoDup_map_in {A B} (f : A -> B) l :
  NoDup l -> (forall x y, In x l -> In y l -> f x = f y -> x = y) -> NoDup (map f l).
Proof.
  induction 1 as [|a l Ha Hl IH]; intros H; simpl; constructor.
  - intros C. apply in_map_iff in C as (b & E & Hb). apply Ha. rewrite <- (H b a); auto; simpl; auto.
  - apply IH. intros x y Hx Hy. apply H; simpl; auto.
Qed.

Definition prodl (l : list Z) : Z := fold_right Z.mul 1 l.

Lemma prodl_perm l l' : Permutation l l' -> prodl l = prodl l'.
Proof. induction 1; simpl; try lia; try congruence. Qed.

Lemma prodl_map_mod a p l : 0 < p ->
  prodl (map (fun x => (a * x) mod p) l) mod p = (a ^ zlen l * prodl l) mod p.
Proof.
  intros Hp. induction l as [|x l IH]; [reflexivity|].
  cbn [map]. unfold prodl in *. cbn [fold_right]. rewrite zlen_cons, Z.pow_add_r by (unfold zlen; lia).
  rewrite Z.pow_1_r, Zmult_mod, IH, Zmod_mod, <- Zmult_mod. f_equal. ring.
Qed.

Lemma prodl_coprime p l : prime p -> (forall x, In x l -> 1 <= x < p) -> ~ (p | prodl l).
Proof.
  intros Hp. induction l as [|x l IH]; intros H C; unfold prodl in *; cbn [fold_right] in C.
  - apply Z.divide_1_r in C. destruct Hp. lia.
  - apply prime_mult in C; auto. destruct C as [C|C].
    + assert (1 <= x < p) by (apply H; simpl; auto). apply Z.divide_pos_le in C; lia.
    + apply IH; auto. intros y Hy. apply H. simpl; auto.
Qed.

Lemma fermat p a : prime p -> ~ (p | a) -> a ^ (p - 1) mod p = 1.
Proof.
  intros Hp Ha. assert (H1 : 1 < p) by (destruct Hp; auto).
  set (l := residues p). set (l' := map (fun x => (a * x) mod p) l).
  assert (Hin : incl l' l).
  { intros y Hy. apply in_map_iff in Hy as (x & <- & Hx). apply residues_In in Hx; auto. apply residues_In; auto.
    pose proof (Z.mod_pos_bound (a * x) p). enough ((a * x) mod p <> 0) by lia.
    intros C. apply Z.mod_divide in C; [|lia]. apply prime_mult in C; auto.
    destruct C as [C|C]; auto. apply Z.divide_pos_le in C; lia. }
  assert (Hnd : NoDup l').
  { apply NoDup_map_in; [apply residues_NoDup|]. intros x y Hx Hy E.
    apply residues_In in Hx; auto. apply residues_In in Hy; auto.
    apply mod_eq_div in E; [|lia]. replace (a * x - a * y) with (a * (x - y)) in E by ring.
    apply prime_mult in E; auto. destruct E as [E|E]; [contradiction|].
    destruct E as [k E]. assert (k = 0) by (destruct (Z.lt_trichotomy k 0) as [L|[L|L]]; auto; exfalso; nia). subst k. lia. }
  assert (Hperm : Permutation l' l).
  { apply NoDup_Permutation_bis; auto. unfold l'. rewrite map_length. auto. }
  apply prodl_perm in Hperm.
  pose proof (prodl_map_mod a p l ltac:(lia)) as E. fold l' in E. rewrite Hperm in E.
  assert (Hlen : zlen l = p - 1).
  { unfold l, residues, zlen. rewrite map_length, seq_length. lia. }
  rewrite Hlen in E. apply mod_eq_div in E; [|lia].
  replace (prodl l - a ^ (p - 1) * prodl l) with ((1 - a ^ (p - 1)) * prodl l) in E by ring.
  apply prime_mult in E; auto. destruct E as [E|E].
  - apply mod_eq_div in E; [|lia]. rewrite <- E. apply Z.mod_1_l. lia.
  - exfalso. revert E. apply prodl_coprime; auto. intros x Hx. apply residues_In; auto.
Qed.

(** ** Prime divisors *)
Lemma prime_divisor n : 1 < n -> exists r, prime r /\ (r | n).
Proof.
  intros Hn. assert (H0 : 0 <= n) by lia. revert Hn. pattern n. apply Zlt_0_ind; auto.
  clear n H0. intros n IH H0 Hn. destruct (prime_dec n) as [P|P]; [exists n; split; auto; apply Z.divide_refl|].
  destruct (not_prime_divide n Hn P) as (d & Hd & D).
  destruct (IH d ltac:(lia) ltac:(lia)) as (r & Hr & Dr). exists r. split; auto. eapply Z.divide_trans; eauto.
Qed.

Lemma small_prime_divisor n : 1 < n -> ~ prime n -> exists r, prime r /\ (r | n) /\ r * r <= n.
Proof.
  intros Hn P. destruct (not_prime_divide n Hn P) as (d & Hd & [e E]).
  assert (He : 1 < e) by nia.
  assert (G : forall u v, 1 < u -> n = v * u -> u <= v -> exists r, prime r /\ (r | n) /\ r * r <= n).
  { intros u v Hu Ev Huv. destruct (prime_divisor u Hu) as (r & Hr & D). exists r. split; auto. split.
    - apply (Z.divide_trans _ u); auto. exists v. auto.
    - assert (r <= u) by (apply Z.divide_pos_le; auto; lia). destruct Hr. nia. }
  destruct (Z_le_gt_dec d e).
  - apply (G d e); auto; lia.
  - apply (G e d); auto; lia.
Qed.

(** ** Pocklington *)

Lemma pow_1_mod b n k : 1 < n -> 0 <= k -> b mod n = 1 -> b ^ k mod n = 1.
Proof.
  intros Hn Hk H. rewrite Zpower_mod by lia. rewrite H, Z.pow_1_l by lia. apply Z.mod_1_l. lia.
Qed.

Lemma pock_step N q b : 1 < N -> prime q ->
  b ^ q mod N = 1 -> rel_prime (b - 1) N ->
  forall r, prime r -> (r | N) -> (q | r - 1).
Proof.
  intros HN Hq Hb Hg r Hr HrN.
  assert (Hq1 : 1 < q) by (destruct Hq; auto). assert (Hr1 : 1 < r) by (destruct Hr; auto).
  assert (Hbr : b ^ q mod r = 1).
  { assert (D : (N | b ^ q - 1)).
    { apply mod_eq_div; [lia|]. rewrite Hb. symmetry. apply Z.mod_1_l. lia. }
    assert (D2 : (r | b ^ q - 1)) by (eapply Z.divide_trans; eauto).
    apply mod_eq_div in D2; [|lia]. rewrite D2. apply Z.mod_1_l. lia. }
  destruct (Zdivide_dec q (r - 1)) as [D|D]; auto. exfalso.
  assert (Hrb : ~ (r | b)).
  { intros C. apply Z.mod_divide in C; [|lia].
    assert (E : b ^ q mod r = 0 ^ q mod r) by (apply pow_mod_eq; try lia; rewrite C; symmetry; apply Z.mod_0_l; lia).
    rewrite Z.pow_0_l, Z.mod_0_l, Hbr in E by lia. discriminate. }
  assert (F : b ^ (r - 1) mod r = 1) by (apply fermat; auto).
  assert (G : rel_prime q (r - 1)) by (apply prime_rel_prime; auto).
  assert (Hb1 : b mod r = 1).
  { apply rel_prime_bezout in G. destruct G as [u v E].
    (* make the coefficients have the right signs *)
    set (t := Z.abs u + Z.abs v + 1).
    assert (E2 : (u + t * (r - 1)) * q = (t * q - v) * (r - 1) + 1) by (transitivity ((t * q - v) * (r - 1) + (u * q + v * (r - 1))); [ring|rewrite E; ring]).
    assert (T : 0 < t) by lia.
    assert (T1 : t * 1 <= t * (r - 1)) by (apply Z.mul_le_mono_nonneg_l; lia).
    assert (T2 : t * 1 <= t * q) by (apply Z.mul_le_mono_nonneg_l; lia).
    assert (P1 : 0 <= u + t * (r - 1)) by lia. assert (P2 : 0 <= t * q - v) by lia.
    assert (P3 : 0 <= (t * q - v) * (r - 1)) by (apply Z.mul_nonneg_nonneg; lia).
    clearbody t.
    assert (L : b ^ ((u + t * (r - 1)) * q) mod r = 1).
    { rewrite Z.mul_comm, Z.pow_mul_r by lia. apply pow_1_mod; auto. }
    rewrite E2, Z.pow_add_r, Z.pow_1_r in L by lia.
    rewrite Z.mul_comm with (n := t * q - v), Z.pow_mul_r in L by lia.
    rewrite Zmult_mod, pow_1_mod, Z.mul_1_l, Zmod_mod in L by auto; lia || auto. }
  assert (D3 : (r | b - 1)).
  { apply mod_eq_div; [lia|]. rewrite Hb1. symmetry. apply Z.mod_1_l. lia. }
  destruct Hg as [_ _ Hg]. specialize (Hg r D3 HrN). apply Z.divide_1_r in Hg. lia.
Qed.

Lemma pocklington N F : 1 < N -> 0 < F -> N < F * F ->
  (forall r, prime r -> (r | N) -> (F | r - 1)) -> prime N.
Proof.
  intros HN HF HS H. destruct (prime_dec N) as [P|P]; auto. exfalso.
  destruct (small_prime_divisor N HN P) as (r & Hr & D & L).
  specialize (H r Hr D). destruct Hr as [Hr _]. apply Z.divide_pos_le in H; nia.
Qed.

(** One prime factor [q] of [N - 1 = k * q]. *)
Lemma pock_base N q a k : 1 < N -> 0 <= k -> prime q -> N - 1 = k * q -> a ^ (N - 1) mod N = 1 -> rel_prime (a ^ k mod N - 1) N ->
  forall r, prime r -> (r | N) -> (q | r - 1).
Proof.
  intros HN Hk Hq E H G. apply (pock_step N q (a ^ k mod N)); auto.
  assert (0 <= q) by (destruct Hq; lia). rewrite <- Zpower_mod, <- Z.pow_mul_r, <- E by lia. exact H.
Qed.

(** ** Small primes by trial division *)
Fixpoint no_divisor (n d : Z) (fuel : nat) : bool :=
  match fuel with
  | O => true
  | S k => negb (n mod d =? 0) && no_divisor n (d + 1) k
  end.

Lemma no_divisor_spec n d fuel : no_divisor n d fuel = true ->
  forall x, d <= x < d + Z.of_nat fuel -> n mod x <> 0.
Proof.
  revert d; induction fuel as [|k IH]; intros d H x Hx; [lia|].
  cbn [no_divisor] in H. apply andb_prop in H as [H1 H2].
  destruct (Z.eq_dec x d) as [->|Hn]; [lia|]. apply (IH (d + 1)); auto. lia.
Qed.

Lemma trial_prime n fuel : 1 < n -> n < (2 + Z.of_nat fuel) * (2 + Z.of_nat fuel) ->
  no_divisor n 2 fuel = true -> prime n.
Proof.
  intros Hn HS H. destruct (prime_dec n) as [P|P]; auto. exfalso.
  destruct (small_prime_divisor n Hn P) as (r & Hr & D & L). destruct Hr as [Hr _].
  apply (no_divisor_spec n 2 fuel H r); [nia|]. apply Z.mod_divide; auto. lia.
Qed.

Lemma prime_107590001 : prime 107590001.
Proof. apply (trial_prime _ 10400); [lia|vm_compute; reflexivity|vm_compute; reflexivity]. Qed.
Lemma prime_7240687 : prime 7240687.
Proof. apply (trial_prime _ 2700); [lia|vm_compute; reflexivity|vm_compute; reflexivity]. Qed.
Lemma prime_96557 : prime 96557.
Proof. apply (trial_prime _ 320); [lia|vm_compute; reflexivity|vm_compute; reflexivity]. Qed.

(** ** The chain of certificates for the field modulus *)
Definition r128 : Z := 255515944373312847190720520512484175977.
Definition q237 : Z := 205115282021455665897114700593932402728804164701536103180137503955397371.
Definition P256 : Z := 2 ^ 256 - 2 ^ 32 - 977.

Lemma pow_r128 : Zpow_mod 3 (r128 - 1) r128 = 1.
Proof. vm_compute. reflexivity. Qed.
Lemma pow_q237 : Zpow_mod 2 (q237 - 1) q237 = 1.
Proof. vm_compute. reflexivity. Qed.
Lemma pock_r128 q k : prime q -> 0 <= k -> r128 - 1 = k * q -> Z.gcd (Zpow_mod 3 k r128 - 1) r128 = 1 -> forall r, prime r -> (r | r128) -> (q | r - 1).
Proof.
  intros Hq Hk E G. rewrite Zpow_mod_correct in G by discriminate. pose proof pow_r128 as P. rewrite Zpow_mod_correct in P by discriminate.
  assert (N1 : 1 < r128) by reflexivity. generalize dependent r128. intros r128 E G P N1.
  apply (pock_base r128 q 3 k); auto. apply Zgcd_1_rel_prime. exact G.
Qed.

(** *** Arithmetic modulo 2^256 - 2^32 - 977, by folding the upper bits *)
Fixpoint sqr (p : positive) : positive :=
  match p with xH => xH | xO q => xO (xO (sqr q)) | xI q => xI (xO (sqr q + q)) end.
Lemma sqr_ok p : sqr p = (p * p)%positive.
Proof. induction p as [p IH|p IH|]; cbn [sqr]; rewrite ?IH; lia. Qed.
(** [split n p] is [p mod 2^n] and [p / 2^n]. *)
Fixpoint split (n : nat) (p : positive) : Z * Z :=
  match n with
  | O => (0, Z.pos p)
  | S k => match p with
           | xH => (1, 0)
           | xO q => let '(l, h) := split k q in (Z.double l, h)
           | xI q => let '(l, h) := split k q in (Z.succ_double l, h)
           end
  end.
Lemma split_ok n : forall p, Z.pos p = snd (split n p) * 2 ^ Z.of_nat n + fst (split n p) /\ 0 <= fst (split n p) /\ 0 <= snd (split n p).
Proof.
  induction n as [|n IH]; intros p; cbn [split]; [cbn [fst snd]; rewrite Z.pow_0_r; lia|].
  destruct p as [p|p|]; [destruct (IH p) as (E & A & B); destruct (split n p) as [l h]; cbn [fst snd] in *..|cbn [fst snd]; lia];
    rewrite Nat2Z.inj_succ, Z.pow_succ_r by lia; rewrite ?Z.succ_double_spec, ?Z.double_spec; lia.
Qed.
Definition fold256 (x : Z) : Z :=
  match x with Z.pos p => let '(l, h) := split 256 p in (2 ^ 32 + 977) * h + l | _ => x end.
Lemma fold256_ok x : fold256 x mod P256 = x mod P256.
Proof.
  destruct x as [|p|p]; auto. unfold fold256. destruct (split_ok 256 p) as (E & _). destruct (split 256 p) as [l h]. cbn [fst snd] in E. rewrite E.
  apply mod_eq_div; [discriminate|]. exists (- h). unfold P256. change (Z.of_nat 256) with 256. ring.
Qed.
Definition sqr256 (x : Z) : Z := match x with Z.pos p => fold256 (fold256 (Z.pos (sqr p))) | _ => fold256 (x * x) end.
Lemma sqr256_ok x : sqr256 x mod P256 = (x * x) mod P256.
Proof. destruct x as [|p|p]; unfold sqr256; rewrite ?fold256_ok; auto. rewrite sqr_ok. reflexivity. Qed.
Fixpoint pow256 (a : Z) (e : positive) : Z :=
  match e with
  | xH => a
  | xO e' => sqr256 (pow256 a e')
  | xI e' => fold256 (a * sqr256 (pow256 a e'))
  end.
Lemma pow256_ok a e : pow256 a e mod P256 = a ^ Z.pos e mod P256.
Proof.
  induction e as [e IH|e IH|]; cbn [pow256].
  - rewrite fold256_ok, <- Zmult_mod_idemp_r, sqr256_ok, (Zmult_mod (pow256 a e)), IH, <- Zmult_mod, Zmult_mod_idemp_r, Pos2Z.inj_xI, Z.pow_add_r, Z.pow_1_r by lia.
    f_equal. rewrite (Z.mul_comm 2), Z.pow_mul_r, Z.pow_2_r by lia. ring.
  - rewrite sqr256_ok, Zmult_mod, IH, <- Zmult_mod, Pos2Z.inj_xO. rewrite Z.mul_comm with (n := 2), Z.pow_mul_r, Z.pow_2_r by lia. reflexivity.
  - rewrite Z.pow_1_r. reflexivity.
Qed.

Lemma prime_r128 : prime r128.
Proof.
  apply (pocklington r128 (107590001 * (7240687 * 96557))); try (vm_compute; reflexivity).
  intros r Hr D.
  assert (D1 : (107590001 | r - 1)).
  { refine (pock_r128 107590001 ((r128 - 1) / 107590001) prime_107590001 _ _ _ r Hr D); vm_compute; (reflexivity || discriminate). }
  assert (D2 : (7240687 | r - 1)).
  { refine (pock_r128 7240687 ((r128 - 1) / 7240687) prime_7240687 _ _ _ r Hr D); vm_compute; (reflexivity || discriminate). }
  assert (D3 : (96557 | r - 1)).
  { refine (pock_r128 96557 ((r128 - 1) / 96557) prime_96557 _ _ _ r Hr D); vm_compute; (reflexivity || discriminate). }
  assert (C : forall a b x, Z.gcd a b = 1 -> (a | x) -> (b | x) -> (a * b | x)).
  { intros a b x Hg [u ->] Hb. rewrite Z.mul_comm. apply Z.mul_divide_mono_r.
    rewrite Z.mul_comm in Hb. apply Gauss in Hb; auto. apply Zgcd_1_rel_prime. rewrite Z.gcd_comm. auto. }
  apply C; [reflexivity|auto|]. apply C; [reflexivity|auto|auto].
Qed.

Lemma gcd_q237 : Z.gcd (Zpow_mod 2 ((q237 - 1) / r128) q237 - 1) q237 = 1.
Proof. vm_compute. reflexivity. Qed.
Lemma prime_q237 : prime q237.
Proof.
  apply (pocklington q237 r128); [reflexivity|reflexivity|vm_compute; reflexivity|].
  apply (pock_base q237 r128 2 ((q237 - 1) / r128)); [reflexivity|vm_compute; discriminate|apply prime_r128|vm_compute; reflexivity| |].
  - pose proof pow_q237 as P. rewrite Zpow_mod_correct in P by discriminate. exact P.
  - apply Zgcd_1_rel_prime. pose proof gcd_q237 as P. rewrite Zpow_mod_correct in P by discriminate. exact P.
Qed.

Lemma pow_P256 : pow256 3 (Z.to_pos (P256 - 1)) mod P256 = 1.
Proof. vm_compute. reflexivity. Qed.
Lemma gcd_P256 : Z.gcd (Zpow_mod 3 ((P256 - 1) / q237) P256 - 1) P256 = 1.
Proof. vm_compute. reflexivity. Qed.
Lemma prime_P256 : prime P256.
Proof.
  apply (pocklington P256 q237); [reflexivity|reflexivity|vm_compute; reflexivity|].
  apply (pock_base P256 q237 3 ((P256 - 1) / q237)); [reflexivity|vm_compute; discriminate|apply prime_q237|vm_compute; reflexivity| |].
  - pose proof pow_P256 as P. rewrite pow256_ok in P. assert (E : Z.pos (Z.to_pos (P256 - 1)) = P256 - 1) by (vm_compute; reflexivity). rewrite E in P. exact P.
  - apply Zgcd_1_rel_prime. pose proof gcd_P256 as P. rewrite Zpow_mod_correct in P by discriminate. exact P.
Qed.
