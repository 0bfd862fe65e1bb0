(** Lemmas about bit/base58.py. *)
From Coq Require Import String.
From Verif Require Export F_utils M_base58.
From Verif Require Import S_Base58.

(** ** The alphabet *)
Lemma alphabet_nodup : NoDup BASE58_ALPHABET.
Proof.
  assert (H : (fix nd (l : list Z) := match l with [] => true | x :: r => negb (existsb (Z.eqb x) r) && nd r end)
              BASE58_ALPHABET = true) by (vm_compute; reflexivity).
  revert H. generalize BASE58_ALPHABET as l. induction l as [|x l IH]; intros H; constructor.
  - apply andb_prop in H as [H _]. intros Hin. apply negb_true_iff in H.
    assert (existsb (Z.eqb x) l = true); [|congruence].
    apply existsb_exists. exists x. split; auto. apply Z.eqb_refl.
  - apply IH. apply andb_prop in H as [_ H]. exact H.
Qed.

Lemma alphabet_len : zlen BASE58_ALPHABET = 58.
Proof. vm_compute. reflexivity. Qed.

Definition b58char (d : Z) : Z := nth (Z.to_nat d) BASE58_ALPHABET 0.

Lemma index_b58char d : 0 <= d < 58 -> index_of (b58char d) BASE58_ALPHABET = Some d.
Proof. intros H. apply index_of_nth; [apply alphabet_nodup|]. rewrite alphabet_len. lia. Qed.

Lemma b58char_index c d : index_of c BASE58_ALPHABET = Some d -> 0 <= d < 58 /\ b58char d = c.
Proof.
  intros H. apply index_of_Some in H as [H1 H2]. rewrite alphabet_len in H1. split; auto.
  unfold b58char. apply nth_error_nth. auto.
Qed.

Lemma b58char_0 : b58char 0 = 49.
Proof. reflexivity. Qed.

Lemma b58char_49 d : 0 <= d < 58 -> b58char d = 49 -> d = 0.
Proof.
  intros H E. pose proof (index_b58char d H) as E1. rewrite E in E1.
  change (index_of 49 BASE58_ALPHABET) with (Some 0) in E1. congruence.
Qed.

(** The model's alphabet lookup is the ASCII table of the specification. *)
Lemma digit58_range c d : digit58 c = Some d -> 49 <= c <= 122.
Proof.
  unfold digit58. repeat (match goal with |- context [if ?b then _ else _] => destruct b eqn:? end);
    try discriminate; lia.
Qed.

Lemma index_digit58 c : index_of c BASE58_ALPHABET = digit58 c.
Proof.
  destruct (Z_lt_dec c 49) as [H|H].
  { destruct (digit58 c) as [d|] eqn:E; [apply digit58_range in E; lia|].
    apply index_of_None. intros Hin.
    assert (F : forallb (fun x => 49 <=? x) BASE58_ALPHABET = true) by (vm_compute; reflexivity).
    rewrite forallb_forall in F. specialize (F c Hin). lia. }
  destruct (Z_lt_dec 122 c) as [H2|H2].
  { destruct (digit58 c) as [d|] eqn:E; [apply digit58_range in E; lia|].
    apply index_of_None. intros Hin.
    assert (F : forallb (fun x => x <=? 122) BASE58_ALPHABET = true) by (vm_compute; reflexivity).
    rewrite forallb_forall in F. specialize (F c Hin). lia. }
  assert (F : forallb (fun n => match index_of (Z.of_nat n) BASE58_ALPHABET, digit58 (Z.of_nat n) with
                                | Some a, Some b => a =? b | None, None => true | _, _ => false end)
                      (seq 49 74) = true) by (vm_compute; reflexivity).
  rewrite forallb_forall in F. specialize (F (Z.to_nat c)).
  rewrite in_seq in F. rewrite Z2Nat.id in F by lia. specialize (F ltac:(lia)).
  destruct (index_of c BASE58_ALPHABET), (digit58 c); try discriminate; auto.
  f_equal. lia.
Qed.

(** ** Positional notation *)
Definition dig_value (ds : list Z) (a : Z) : Z := fold_left (fun a d => a * 58 + d) ds a.

Lemma dig_value_acc ds a : dig_value ds a = a * 58 ^ zlen ds + pos_value 58 ds.
Proof.
  unfold dig_value, zlen. revert a; induction ds as [|d ds IH]; intros a; cbn [fold_left pos_value length].
  - simpl. lia.
  - rewrite IH, Nat2Z.inj_succ, Z.pow_succ_r by lia. ring.
Qed.

Lemma pos_value_app B a b : 0 <= B -> pos_value B (a ++ b) = pos_value B a * B ^ zlen b + pos_value B b.
Proof.
  intros HB. unfold zlen. induction a as [|d a IH]; cbn [app pos_value]; [lia|].
  rewrite IH, app_length, Nat2Z.inj_add, Z.pow_add_r by lia. ring.
Qed.

Lemma pos_value_256 l : pos_value 256 l = from_be l.
Proof.
  induction l as [|x l IH] using rev_ind; [reflexivity|].
  rewrite pos_value_app, from_be_app, IH by lia. f_equal.
  cbn [pos_value length]. unfold from_be. cbn [fold_left]. simpl Z.of_nat. lia.
Qed.

Lemma pos_value_bound B ds :
  1 < B -> Forall (fun d => 0 <= d < B) ds -> 0 <= pos_value B ds < B ^ zlen ds.
Proof.
  intros HB. unfold zlen. induction 1 as [|d ds Hd Hds IH]; cbn [pos_value length].
  - simpl. lia.
  - rewrite Nat2Z.inj_succ, Z.pow_succ_r by lia. nia.
Qed.

Lemma pos_value_lower B ds :
  1 < B -> Forall (fun d => 0 <= d < B) ds -> ds <> [] -> hd 0 ds <> 0 ->
  B ^ (zlen ds - 1) <= pos_value B ds.
Proof.
  intros HB Hf Hne Hh. destruct ds as [|d ds]; [contradiction|]. simpl in Hh. inv Hf.
  pose proof (pos_value_bound B ds HB H2) as Hb. unfold zlen in *. cbn [pos_value length].
  replace (Z.of_nat (S (length ds)) - 1) with (Z.of_nat (length ds)) by lia.
  assert (0 < B ^ Z.of_nat (length ds)) by (apply Z.pow_pos_nonneg; lia). nia.
Qed.

(** Digits without leading zero are determined by their value. *)
Lemma pos_value_inj_len B a b :
  1 < B -> Forall (fun d => 0 <= d < B) a -> Forall (fun d => 0 <= d < B) b ->
  length a = length b -> pos_value B a = pos_value B b -> a = b.
Proof.
  intros HB Ha. revert b; induction Ha as [|x a Hx Ha IH]; intros b Hb Hl Hv.
  - destruct b; [reflexivity|discriminate].
  - destruct Hb as [|y b Hy Hb]; [discriminate|]. injection Hl as Hl.
    cbn [pos_value] in Hv. rewrite Hl in Hv.
    pose proof (pos_value_bound B a HB Ha) as B1. pose proof (pos_value_bound B b HB Hb) as B2.
    unfold zlen in *. rewrite Hl in B1.
    assert (x = y) by nia. subst y. f_equal. apply IH; auto. lia.
Qed.

Lemma pos_value_inj B a b :
  1 < B -> Forall (fun d => 0 <= d < B) a -> Forall (fun d => 0 <= d < B) b ->
  hd 1 a <> 0 -> hd 1 b <> 0 -> pos_value B a = pos_value B b -> a = b.
Proof.
  intros HB Ha Hb H0a H0b Hv. apply (pos_value_inj_len B); auto.
  assert (L : forall a b, Forall (fun d => 0 <= d < B) a -> Forall (fun d => 0 <= d < B) b ->
                hd 1 b <> 0 -> pos_value B a = pos_value B b -> (length b <= length a)%nat).
  { clear - HB. intros a b Ha Hb H0b Hv.
    destruct b as [|y b]; [simpl; lia|].
    pose proof (pos_value_lower B (y :: b) HB Hb ltac:(discriminate) H0b) as L.
    pose proof (pos_value_bound B a HB Ha) as U.
    rewrite Hv in U. unfold zlen in *.
    assert (Z.of_nat (length (y :: b)) - 1 < Z.of_nat (length a)); [|lia].
    apply (Z.pow_lt_mono_r_iff B); lia. }
  apply Nat.le_antisymm; apply L; auto.
Qed.

(** ** The digits computed by the encoder *)
Lemma b58_digits_fuel_app fuel n acc :
  b58_digits_fuel fuel n acc = b58_digits_fuel fuel n [] ++ acc.
Proof.
  revert n acc; induction fuel as [|k IH]; intros n acc; cbn [b58_digits_fuel]; [reflexivity|].
  destruct (0 <? n); [|reflexivity]. rewrite IH, (IH _ [_]), <- app_assoc. reflexivity.
Qed.

Lemma b58_digits_fuel_spec fuel n :
  0 <= n < 2 ^ Z.of_nat fuel ->
  let ds := b58_digits_fuel fuel n [] in
  pos_value 58 ds = n /\ Forall (fun d => 0 <= d < 58) ds /\ hd 1 ds <> 0.
Proof.
  revert n; induction fuel as [|k IH]; intros n Hn; cbn [b58_digits_fuel].
  - simpl in *. split; [lia|]. split; [constructor|lia].
  - destruct (0 <? n) eqn:E.
    2:{ simpl. split; [lia|]. split; [constructor|lia]. }
    rewrite Nat2Z.inj_succ, Z.pow_succ_r in Hn by lia.
    assert (Hq : 0 <= n / 58 < 2 ^ Z.of_nat k) by (zdm; nia).
    specialize (IH (n / 58) Hq). cbv zeta in IH. destruct IH as (V & F & Hh).
    rewrite b58_digits_fuel_app. cbv zeta. split; [|split].
    + rewrite pos_value_app by lia. rewrite V. cbn [pos_value length].
      unfold zlen. simpl length. change (58 ^ Z.of_nat 1) with 58. change (58 ^ Z.of_nat 0) with 1.
      zdm; lia.
    + apply Forall_app. split; auto. constructor; [|constructor]. zdm; lia.
    + destruct (b58_digits_fuel k (n / 58) []) as [|x l]; simpl in *; [|exact Hh].
      intros Hz. zdm; lia.
Qed.

Lemma b58_digits_spec n :
  0 <= n ->
  pos_value 58 (b58_digits n) = n /\ Forall (fun d => 0 <= d < 58) (b58_digits n) /\ hd 1 (b58_digits n) <> 0.
Proof.
  intros Hn. unfold b58_digits. apply b58_digits_fuel_spec.
  unfold bit_length. destruct (n =? 0) eqn:E.
  - simpl. lia.
  - pose proof (Z.log2_spec n ltac:(lia)). pose proof (Z.log2_nonneg n).
    rewrite Z2Nat.id by lia. rewrite <- Z.add_1_r in H. lia.
Qed.

Lemma b58_digits_unique n ds :
  Forall (fun d => 0 <= d < 58) ds -> hd 1 ds <> 0 -> pos_value 58 ds = n -> b58_digits n = ds.
Proof.
  intros Hf Hh Hv. pose proof (pos_value_bound 58 ds ltac:(lia) Hf).
  destruct (b58_digits_spec n ltac:(lia)) as (V & F & H0).
  apply (pos_value_inj 58); auto; lia.
Qed.

(** ** Leading zeros *)
Lemma leading_split x l : exists r, l = repeat x (leading x l) ++ r /\ hd (x + 1) r <> x.
Proof.
  induction l as [|y l (r & E & Hr)]; cbn [leading].
  - exists []. split; [reflexivity|simpl; lia].
  - destruct (y =? x) eqn:Ex.
    + apply Z.eqb_eq in Ex. subst y. exists r. split; auto. simpl. rewrite <- E. reflexivity.
    + exists (y :: l). split; auto. simpl. lia.
Qed.

Lemma leading_app x k r d : d <> x -> hd d r <> x -> leading x (repeat x k ++ r) = k.
Proof.
  intros Hd Hr. induction k as [|k IH]; cbn [repeat app leading].
  - destruct r as [|y r]; [reflexivity|]. simpl in *. replace (y =? x) with false by lia. reflexivity.
  - rewrite Z.eqb_refl, IH. reflexivity.
Qed.

Lemma from_be_zeros k r : from_be (repeat 0 k ++ r) = from_be r.
Proof.
  rewrite from_be_app. replace (from_be (repeat 0 k)) with 0; [lia|].
  induction k as [|k IH]; [reflexivity|]. change (repeat 0 (S k)) with ([0] ++ repeat 0 k).
  rewrite from_be_app, <- IH. reflexivity.
Qed.

(** ** Encoding *)
Lemma b58encode_split k b' :
  bytes_ok b' = true -> hd 1 b' <> 0 ->
  b58encode (repeat 0 k ++ b') = repeat 49 k ++ map b58char (b58_digits (from_be b')).
Proof.
  intros Hb Hh. unfold b58encode. rewrite from_be_zeros.
  rewrite (leading_app 0 k b' 1) by (auto; lia). reflexivity.
Qed.

Lemma map_b58char_digits ds : Forall (fun d => 0 <= d < 58) ds ->
  Forall2 (fun c d => digit58 c = Some d) (map b58char ds) ds.
Proof.
  induction 1; simpl; constructor; auto. rewrite <- index_digit58. apply index_b58char. auto.
Qed.

Lemma digits_map_b58char s ds :
  Forall2 (fun c d => digit58 c = Some d) s ds -> s = map b58char ds /\ Forall (fun d => 0 <= d < 58) ds.
Proof.
  induction 1 as [|c d s ds H Hf [IH1 IH2]]; [split; [reflexivity|constructor]|].
  rewrite <- index_digit58 in H. apply b58char_index in H as [H1 H2].
  split; [simpl; congruence|constructor; auto].
Qed.

Lemma hd_map_b58char ds : Forall (fun d => 0 <= d < 58) ds -> hd 1 ds <> 0 -> hd 0 (map b58char ds) <> 49.
Proof.
  intros Hf Hh. destruct ds as [|d ds]; simpl in *; [lia|]. inv Hf. intros E.
  apply b58char_49 in E; auto.
Qed.

Lemma hd_unmap_b58char ds : hd 0 (map b58char ds) <> 49 -> hd 1 ds <> 0.
Proof. destruct ds as [|d ds]; simpl; [lia|]. intros H E. subst. apply H. reflexivity. Qed.

Lemma b58encode_spec b : bytes_ok b = true -> forall s, b58encode b = s <-> Base58 b s.
Proof.
  intros Hb s. split.
  - intros <-. destruct (leading_split 0 b) as (b' & E & Hh). set (k := leading 0 b) in *.
    assert (Hb' : bytes_ok b' = true).
    { rewrite E, bytes_ok_app in Hb. apply andb_prop in Hb. tauto. }
    assert (Hh' : hd 1 b' <> 0) by (destruct b'; simpl in *; lia).
    pose proof (from_be_bound b' Hb') as Hbd.
    destruct (b58_digits_spec (from_be b') ltac:(lia)) as (V & F & H0).
    exists k, b', (map b58char (b58_digits (from_be b'))), (b58_digits (from_be b')).
    repeat split; auto.
    + rewrite E. apply b58encode_split; auto.
    + apply hd_map_b58char; auto.
    + apply map_b58char_digits; auto.
    + rewrite pos_value_256, V. reflexivity.
  - intros (k & b' & s' & ds & -> & -> & Hh & Hh2 & F2 & V).
    rewrite bytes_ok_app in Hb. apply andb_prop in Hb as [_ Hb'].
    rewrite b58encode_split by auto.
    apply digits_map_b58char in F2 as [-> F].
    rewrite pos_value_256 in V.
    rewrite (b58_digits_unique (from_be b') ds); auto.
    apply hd_unmap_b58char. auto.
Qed.

(** ** Decoding *)
Lemma b58_value_digits s ds a :
  Forall2 (fun c d => digit58 c = Some d) s ds -> b58_value s a = Ok (dig_value ds a).
Proof.
  intros H. revert a; induction H as [|c d s ds Hc Hf IH]; intros a; [reflexivity|].
  cbn [b58_value]. rewrite index_digit58, Hc, IH. reflexivity.
Qed.

Lemma b58_value_bad s a : (exists c, In c s /\ digit58 c = None) -> b58_value s a = Raise ValueError.
Proof.
  intros (c & Hin & Hc). revert a; induction s as [|x s IH]; intros a; [contradiction|].
  cbn [b58_value]. rewrite index_digit58. destruct Hin as [->|Hin].
  - rewrite Hc. reflexivity.
  - destruct (digit58 x); auto.
Qed.

Lemma digits_dec s : (exists ds, Forall2 (fun c d => digit58 c = Some d) s ds) \/
                     (exists c, In c s /\ digit58 c = None).
Proof.
  induction s as [|x s [(ds & IH)|(c & Hin & Hc)]].
  - left. exists []. constructor.
  - destruct (digit58 x) as [d|] eqn:E.
    + left. exists (d :: ds). constructor; auto.
    + right. exists x. split; [left; auto|auto].
  - right. exists c. split; [right; auto|auto].
Qed.

Lemma dig_value_zeros k ds : pos_value 58 (repeat 0 k ++ ds) = pos_value 58 ds.
Proof.
  rewrite pos_value_app by lia. replace (pos_value 58 (repeat 0 k)) with 0; [lia|].
  induction k as [|k IH]; [reflexivity|]. cbn [repeat pos_value]. lia.
Qed.

(** Decoding of a string split into leading ones and the rest. *)
Lemma b58decode_split k s' ds :
  hd 0 s' <> 49 -> Forall2 (fun c d => digit58 c = Some d) s' ds ->
  exists m, int_to_unknown_bytes (pos_value 58 ds) = Ok m /\
            b58decode (repeat 49 k ++ s') = Ok (repeat 0 k ++ m).
Proof.
  intros Hh F2.
  assert (F1 : Forall2 (fun c d => digit58 c = Some d) (repeat 49 k ++ s') (repeat 0 k ++ ds)).
  { apply Forall2_app; auto. induction k; simpl; constructor; auto. }
  apply digits_map_b58char in F2 as [E F].
  pose proof (pos_value_bound 58 ds ltac:(lia) F) as Hb.
  rewrite int_to_unknown_bytes_ok by lia. eexists. split; [reflexivity|].
  unfold b58decode. rewrite (b58_value_digits _ _ _ F1). cbn [bind].
  rewrite dig_value_acc, dig_value_zeros. rewrite Z.mul_0_l, Z.add_0_l.
  rewrite int_to_unknown_bytes_ok by lia. cbn [bind].
  rewrite (leading_app 49 k s' 0) by (auto; lia). reflexivity.
Qed.

(** A byte string with a nonzero byte and its Base58 form: decoding succeeds. *)
Lemma b58decode_spec b s :
  bytes_ok b = true -> Base58 b s -> (exists x, In x b /\ x <> 0) -> b58decode s = Ok b.
Proof.
  intros Hb (k & b' & s' & ds & -> & -> & Hh & Hh2 & F2 & V) (x & Hin & Hx).
  rewrite bytes_ok_app in Hb. apply andb_prop in Hb as [_ Hb'].
  destruct (b58decode_split k s' ds Hh2 F2) as (m & Hm & ->).
  rewrite <- V, pos_value_256 in Hm.
  assert (Hne : b' <> []).
  { intros ->. rewrite app_nil_r in Hin. apply repeat_spec in Hin. contradiction. }
  rewrite int_to_unknown_bytes_be in Hm; auto.
  - inv Hm. reflexivity.
  - destruct b'; [contradiction|]. exact Hh.
Qed.

Lemma has_nonzero b : (exists x, In x b /\ x <> 0) \/ b = repeat 0 (length b).
Proof.
  induction b as [|x b [(y & Hy & Hn)|IH]].
  - right. reflexivity.
  - left. exists y. split; [right; auto|auto].
  - destruct (Z.eq_dec x 0) as [->|Hx].
    + right. simpl. f_equal. auto.
    + left. exists x. split; [left; auto|auto].
Qed.

Lemma b58decode_encode b :
  bytes_ok b = true -> (exists x, In x b /\ x <> 0) -> b58decode (b58encode b) = Ok b.
Proof.
  intros Hb Hn. apply b58decode_spec; auto. apply b58encode_spec; auto.
Qed.

Lemma b58decode_encode_zeros k : b58decode (b58encode (repeat 0 k)) = Ok (repeat 0 (S k)).
Proof.
  pose proof (b58encode_split k [] eq_refl ltac:(simpl; lia)) as E. rewrite app_nil_r in E. rewrite E.
  change (b58_digits (from_be [])) with (@nil Z). simpl map.
  destruct (b58decode_split k [] [] ltac:(simpl; lia) ltac:(constructor)) as (m & Hm & ->).
  simpl in Hm. inv Hm. f_equal. symmetry. apply repeat_cons.
Qed.

Lemma Forall_digits s ds : Forall2 (fun c d => digit58 c = Some d) s ds -> Forall (fun d => 0 <= d < 58) ds.
Proof. intros H. apply digits_map_b58char in H. tauto. Qed.

Lemma unknown_bytes_hd n : 0 < n -> forall m, int_to_unknown_bytes n = Ok m ->
  bytes_ok m = true /\ hd 1 m <> 0 /\ from_be m = n.
Proof.
  intros Hn m Hm. rewrite int_to_unknown_bytes_ok in Hm by lia. oinv Hm.
  pose proof (unknown_len_upper n ltac:(lia)) as U. pose proof (unknown_len_lower n Hn) as L.
  pose proof (unknown_len_pos n) as P.
  set (k := unknown_len n) in *.
  assert (Hok : bytes_ok (rev (le_bytes k n)) = true) by (rewrite bytes_ok_rev; apply le_bytes_ok).
  assert (Hv : from_be (rev (le_bytes k n)) = n) by (apply from_be_be_bytes; lia).
  repeat split; auto.
  assert (Hlen : length (rev (le_bytes k n)) = k) by (rewrite rev_length, le_bytes_length; auto).
  destruct (rev (le_bytes k n)) as [|x r] eqn:E; [simpl; lia|].
  simpl. intros ->.
  change (0 :: r) with (repeat 0 1 ++ r) in Hv. rewrite from_be_zeros in Hv.
  rewrite bytes_ok_cons in Hok. apply andb_prop in Hok as [_ Hok].
  pose proof (from_be_bound r Hok) as B. unfold zlen in B. simpl length in Hlen.
  replace (Z.of_nat k - 1) with (Z.of_nat (length r)) in L by lia. lia.
Qed.

Lemma b58encode_decode s :
  Forall (fun c => digit58 c <> None) s -> (exists c, In c s /\ c <> 49) ->
  exists b, b58decode s = Ok b /\ bytes_ok b = true /\ Base58 b s /\ (exists x, In x b /\ x <> 0).
Proof.
  intros Hf (c & Hin & Hc).
  destruct (digits_dec s) as [(ds0 & F0)|(c0 & Hin0 & Hc0)].
  2:{ rewrite Forall_forall in Hf. exfalso. apply (Hf c0); auto. }
  destruct (leading_split 49 s) as (s' & E & Hh). set (k := leading 49 s) in *.
  assert (Hh' : hd 0 s' <> 49) by (destruct s'; simpl in *; lia).
  assert (exists ds, Forall2 (fun c d => digit58 c = Some d) s' ds) as (ds & F2).
  { rewrite E in F0. apply Forall2_app_inv_l in F0 as (l1 & l2 & _ & H & _). eauto. }
  assert (Hne : s' <> []).
  { intros ->. rewrite app_nil_r in E. rewrite E in Hin. apply repeat_spec in Hin. contradiction. }
  destruct (digits_map_b58char _ _ F2) as [Es F].
  assert (Hd : hd 1 ds <> 0) by (apply hd_unmap_b58char; rewrite <- Es; auto).
  assert (Hdn : ds <> []) by (intros ->; apply Hne; rewrite Es; reflexivity).
  pose proof (pos_value_lower 58 ds ltac:(lia) F Hdn ltac:(destruct ds; [contradiction|exact Hd])) as L.
  assert (0 < pos_value 58 ds) as Hpos.
  { eapply Z.lt_le_trans; [|exact L]. apply Z.pow_pos_nonneg; [lia|]. unfold zlen.
    destruct ds; [contradiction|simpl length; lia]. }
  destruct (b58decode_split k s' ds Hh' F2) as (m & Hm & Hdec).
  destruct (unknown_bytes_hd _ Hpos m Hm) as (Hmok & Hmh & Hmv).
  exists (repeat 0 k ++ m). rewrite E. repeat split; auto.
  - rewrite bytes_ok_app, Hmok, bytes_ok_repeat; auto.
  - exists k, m, s', ds. repeat split; auto. rewrite pos_value_256. auto.
  - destruct m as [|x m]; [simpl in Hmv; unfold from_be in Hmv; simpl in Hmv; lia|].
    exists x. split; [apply in_or_app; right; left; auto|exact Hmh].
Qed.

Lemma b58decode_bad s : (exists c, In c s /\ digit58 c = None) -> b58decode s = Raise ValueError.
Proof. intros H. unfold b58decode. rewrite b58_value_bad; auto. Qed.

Lemma b58decode_ones k : b58decode (repeat 49 k) = Ok (repeat 0 (S k)).
Proof.
  destruct (b58decode_split k [] [] ltac:(simpl; lia) ltac:(constructor)) as (m & Hm & H).
  rewrite app_nil_r in H. rewrite H. simpl in Hm. inv Hm. f_equal. symmetry. apply repeat_cons.
Qed.

Lemma Base58_inj b1 b2 s :
  bytes_ok b1 = true -> bytes_ok b2 = true -> Base58 b1 s -> Base58 b2 s -> b1 = b2.
Proof.
  intros H1 H2 (k1 & b1' & s1 & d1 & -> & E1 & Hb1 & Hs1 & F1 & V1)
              (k2 & b2' & s2 & d2 & -> & E2 & Hb2 & Hs2 & F2 & V2).
  assert (k1 = k2).
  { pose proof (leading_app 49 k1 s1 0 ltac:(lia) Hs1) as L1.
    pose proof (leading_app 49 k2 s2 0 ltac:(lia) Hs2) as L2. rewrite <- E1 in L1. rewrite <- E2 in L2. congruence. }
  subst k2. rewrite E1 in E2. apply app_inv_head in E2. subst s2.
  apply digits_map_b58char in F1 as [E3 F1]. apply digits_map_b58char in F2 as [E4 F2].
  assert (d1 = d2).
  { clear - E3 E4 F1 F2. rewrite E3 in E4. clear E3. revert d2 E4 F2. induction F1 as [|x l Hx F1 IH]; intros d2 E4 F2.
    - destruct d2; [auto|discriminate].
    - destruct d2 as [|y d2]; [discriminate|]. inv F2. injection E4 as E5 E6. f_equal; [|apply IH; auto].
      pose proof (index_b58char x Hx). pose proof (index_b58char y H1). congruence. }
  subst d2. f_equal. rewrite bytes_ok_app in H1, H2.
  apply andb_prop in H1 as [_ H1]. apply andb_prop in H2 as [_ H2].
  rewrite bytes_ok_Forall in H1, H2.
  apply (pos_value_inj 256); auto; [lia|congruence].
Qed.

(** Decoding in general. *)
Lemma b58decode_bytes_ok s b : b58decode s = Ok b -> bytes_ok b = true.
Proof.
  intros H. destruct (digits_dec s) as [(ds & F)|Hbad].
  2:{ rewrite b58decode_bad in H by auto. discriminate. }
  unfold b58decode in H. rewrite (b58_value_digits _ _ _ F) in H. cbn [bind] in H.
  apply bind_ok in H as (m & Hm & H). oinv H.
  rewrite bytes_ok_app, bytes_ok_repeat by auto.
  unfold int_to_unknown_bytes in Hm. destruct (_ <? 0); [discriminate|].
  apply rmap_ok in Hm as (l & Hl & ->). apply to_bytes_le_ok in Hl as [_ ->].
  rewrite bytes_ok_rev, le_bytes_ok. reflexivity.
Qed.

(** ** Checksums *)
Section WithCrypto.
Context {CR : Crypto}.

Definition sha256_len_ok : Prop := forall x, length (sha256 x) = 32%nat.
Definition sha256_bytes_ok : Prop := forall x, bytes_ok (sha256 x) = true.

Lemma checksum_length : sha256_len_ok -> forall b, length (double_sha256_checksum b) = 4%nat.
Proof. intros H b. unfold double_sha256_checksum, double_sha256. rewrite firstn_length, H. reflexivity. Qed.

Lemma checksum_bytes_ok : sha256_bytes_ok -> forall b, bytes_ok (double_sha256_checksum b) = true.
Proof. intros H b. unfold double_sha256_checksum, double_sha256. apply bytes_ok_firstn, H. Qed.

Lemma b58decode_check_iff (HL : sha256_len_ok) s v :
  b58decode_check s = Ok v <-> b58decode s = Ok (v ++ double_sha256_checksum v).
Proof.
  unfold b58decode_check. split.
  - intros H. apply bind_ok in H as (d & Hd & H).
    destruct (list_eqb _ _) eqn:E; [|discriminate]. oinv H. apply list_eqb_eq in E.
    rewrite <- E, drop_take_last. auto.
  - intros H. rewrite H. cbn [bind].
    rewrite drop_last_app, take_last_app by (apply checksum_length; auto).
    rewrite list_eqb_refl. reflexivity.
Qed.

Lemma b58decode_check_raise s v e :
  b58decode s = Ok v -> b58decode_check s = Raise e -> e = ValueError.
Proof.
  unfold b58decode_check. intros ->. cbn [bind]. destruct (list_eqb _ _); congruence.
Qed.

Lemma b58decode_exn s : (exists b, b58decode s = Ok b) \/ b58decode s = Raise ValueError.
Proof.
  destruct (digits_dec s) as [(ds & F)|Hbad]; [left|right; apply b58decode_bad; auto].
  unfold b58decode. rewrite (b58_value_digits _ _ _ F). cbn [bind].
  apply digits_map_b58char in F as [_ F].
  pose proof (pos_value_bound 58 ds ltac:(lia) F).
  rewrite int_to_unknown_bytes_ok by (rewrite dig_value_acc; lia). cbn [bind]. eauto.
Qed.

Lemma b58decode_check_exn s : (exists b, b58decode_check s = Ok b) \/ b58decode_check s = Raise ValueError.
Proof.
  unfold b58decode_check. destruct (b58decode_exn s) as [(b & ->)| ->]; cbn [bind]; auto.
  destruct (list_eqb _ _); eauto.
Qed.

Lemma b58check_roundtrip (HL : sha256_len_ok) (HB : sha256_bytes_ok) v :
  bytes_ok v = true -> (exists x, In x (v ++ double_sha256_checksum v) /\ x <> 0) ->
  b58decode_check (b58encode_check v) = Ok v.
Proof.
  intros Hv Hn. apply b58decode_check_iff; auto. apply b58decode_encode; auto.
  rewrite bytes_ok_app, Hv, checksum_bytes_ok; auto.
Qed.
End WithCrypto.
