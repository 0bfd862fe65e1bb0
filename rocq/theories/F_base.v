(** Basic lemmas about the Python values of Py.v. *)
From Coq Require Export ZifyBool ZifyNat.
From Verif Require Export Py.

Ltac zdm := Z.div_mod_to_equations.

(** Case split on the condition of the first [if] of the goal. *)
Ltac dif E := match goal with |- context [if ?b then _ else _] => destruct b eqn:E end.

Ltac inv H := inversion H; subst; clear H.

(** Injectivity of [Ok] without the reductions done by [inversion]. *)
Lemma Ok_inj {A} (a b : A) : Ok a = Ok b -> a = b.
Proof. congruence. Qed.
Ltac oinv H := apply Ok_inj in H; subst.

Lemma bind_ok {A B} (r : result A) (f : A -> result B) b :
  bind r f = Ok b <-> exists a, r = Ok a /\ f a = Ok b.
Proof.
  destruct r as [a|e]; simpl; split.
  - intros H. exists a. auto.
  - intros (a' & Ha & H). inv Ha. exact H.
  - discriminate.
  - intros (a' & Ha & H). discriminate.
Qed.

Lemma rmap_ok {A B} (f : A -> B) (r : result A) b :
  rmap f r = Ok b <-> exists a, r = Ok a /\ b = f a.
Proof.
  destruct r as [a|e]; simpl; split.
  - intros H. inv H. eauto.
  - intros (a' & Ha & H). inv Ha. reflexivity.
  - discriminate.
  - intros (a' & Ha & H). discriminate.
Qed.

Lemma list_eqb_eq a b : list_eqb a b = true <-> a = b.
Proof.
  revert b; induction a as [|x a IH]; intros [|y b]; simpl; split; intros H; try discriminate; auto.
  - apply andb_prop in H as [H1 H2]. apply Z.eqb_eq in H1. apply IH in H2. congruence.
  - inv H. rewrite Z.eqb_refl. simpl. apply IH; auto.
Qed.

Lemma list_eqb_refl a : list_eqb a a = true.
Proof. apply list_eqb_eq; auto. Qed.

Lemma list_eqb_neq a b : list_eqb a b = false <-> a <> b.
Proof.
  split; intros H.
  - intros E. apply list_eqb_eq in E. congruence.
  - destruct (list_eqb a b) eqn:E; auto. apply list_eqb_eq in E. contradiction.
Qed.

Lemma in_listb_In x l : in_listb x l = true <-> In x l.
Proof.
  unfold in_listb. rewrite existsb_exists. split.
  - intros (y & Hy & E). apply list_eqb_eq in E. congruence.
  - intros H. exists x. split; auto. apply list_eqb_refl.
Qed.

Lemma zlen_nonneg {A} (l : list A) : 0 <= zlen l.
Proof. unfold zlen; lia. Qed.
Lemma zlen_nil {A} : zlen (@nil A) = 0.
Proof. reflexivity. Qed.
Lemma zlen_cons {A} (a : A) l : zlen (a :: l) = zlen l + 1.
Proof. unfold zlen; simpl length; lia. Qed.
Lemma zlen_app {A} (a b : list A) : zlen (a ++ b) = zlen a + zlen b.
Proof. unfold zlen; rewrite app_length; lia. Qed.

Lemma ztake_firstn {A} n (l : list A) : ztake n l = firstn (Z.to_nat n) l.
Proof.
  unfold ztake, zlen. destruct (Z.le_gt_cases n (Z.of_nat (length l))).
  - rewrite Z.min_l by lia. reflexivity.
  - rewrite Z.min_r by lia. rewrite Nat2Z.id.
    rewrite firstn_all. symmetry. apply firstn_all2. lia.
Qed.

Lemma zdrop_skipn {A} n (l : list A) : zdrop n l = skipn (Z.to_nat n) l.
Proof.
  unfold zdrop, zlen. destruct (Z.le_gt_cases n (Z.of_nat (length l))).
  - rewrite Z.min_l by lia. reflexivity.
  - rewrite Z.min_r by lia. rewrite Nat2Z.id.
    rewrite skipn_all. symmetry. apply skipn_all2. lia.
Qed.

Lemma ztake_app {A} (a b : list A) n : n = zlen a -> ztake n (a ++ b) = a.
Proof.
  intros ->. rewrite ztake_firstn. unfold zlen. rewrite Nat2Z.id.
  rewrite firstn_app, Nat.sub_diag, firstn_all. simpl. apply app_nil_r.
Qed.

Lemma zdrop_app {A} (a b : list A) n : n = zlen a -> zdrop n (a ++ b) = b.
Proof.
  intros ->. rewrite zdrop_skipn. unfold zlen. rewrite Nat2Z.id.
  rewrite skipn_app, Nat.sub_diag, skipn_all. reflexivity.
Qed.

Lemma take_drop_z {A} n (l : list A) : ztake n l ++ zdrop n l = l.
Proof. rewrite ztake_firstn, zdrop_skipn. apply firstn_skipn. Qed.

Lemma drop_take_last {A} n (l : list A) : drop_last n l ++ take_last n l = l.
Proof. apply firstn_skipn. Qed.

Lemma drop_last_app {A} n (a b : list A) : length b = n -> drop_last n (a ++ b) = a.
Proof.
  intros H. unfold drop_last. rewrite app_length, H, Nat.add_sub.
  rewrite firstn_app, Nat.sub_diag, firstn_all. simpl. apply app_nil_r.
Qed.

Lemma take_last_app {A} n (a b : list A) : length b = n -> take_last n (a ++ b) = b.
Proof.
  intros H. unfold take_last. rewrite app_length, H, Nat.add_sub.
  rewrite skipn_app, Nat.sub_diag, skipn_all. reflexivity.
Qed.

Lemma take_last_length {A} n (l : list A) : length (take_last n l) = Nat.min n (length l).
Proof. unfold take_last. rewrite skipn_length. lia. Qed.

Lemma drop_last_length {A} n (l : list A) : length (drop_last n l) = (length l - n)%nat.
Proof. unfold drop_last. rewrite firstn_length. lia. Qed.

(** ** Bytes *)
Lemma is_byte_iff b : is_byte b = true <-> 0 <= b < 256.
Proof. unfold is_byte. lia. Qed.

Lemma bytes_ok_Forall l : bytes_ok l = true <-> Forall (fun b => 0 <= b < 256) l.
Proof.
  unfold bytes_ok. rewrite forallb_forall, Forall_forall.
  split; intros H x Hx; specialize (H x Hx); apply is_byte_iff; auto.
Qed.

Lemma bytes_ok_app a b : bytes_ok (a ++ b) = bytes_ok a && bytes_ok b.
Proof. apply forallb_app. Qed.

Lemma bytes_ok_cons x l : bytes_ok (x :: l) = is_byte x && bytes_ok l.
Proof. reflexivity. Qed.

Lemma forallb_rev {A} (f : A -> bool) l : forallb f (rev l) = forallb f l.
Proof.
  induction l as [|a l IH]; auto. simpl. rewrite forallb_app, IH. simpl.
  rewrite andb_true_r. apply andb_comm.
Qed.
Lemma bytes_ok_rev l : bytes_ok (rev l) = bytes_ok l.
Proof. apply forallb_rev. Qed.

Lemma bytes_ok_firstn n l : bytes_ok l = true -> bytes_ok (firstn n l) = true.
Proof.
  rewrite !bytes_ok_Forall. intros H. rewrite <- (firstn_skipn n l) in H.
  apply Forall_app in H. tauto.
Qed.
Lemma bytes_ok_skipn n l : bytes_ok l = true -> bytes_ok (skipn n l) = true.
Proof.
  rewrite !bytes_ok_Forall. intros H. rewrite <- (firstn_skipn n l) in H.
  apply Forall_app in H. tauto.
Qed.
Lemma bytes_ok_repeat x n : is_byte x = true -> bytes_ok (repeat x n) = true.
Proof. intros H. induction n; simpl; auto. rewrite H; auto. Qed.

Lemma le_bytes_length n x : length (le_bytes n x) = n.
Proof. revert x; induction n as [|n IH]; intros x; simpl; auto. Qed.

Lemma le_bytes_ok n x : bytes_ok (le_bytes n x) = true.
Proof.
  revert x; induction n as [|n IH]; intros x; simpl; auto.
  rewrite IH, andb_true_r. apply is_byte_iff. apply Z.mod_pos_bound. lia.
Qed.

Lemma pow256_succ n : 256 ^ Z.of_nat (S n) = 256 * 256 ^ Z.of_nat n.
Proof. rewrite Nat2Z.inj_succ, Z.pow_succ_r by lia. reflexivity. Qed.
Lemma pow256_pos n : 0 < 256 ^ Z.of_nat n.
Proof. apply Z.pow_pos_nonneg; lia. Qed.

Lemma from_le_le_bytes n x : 0 <= x < 256 ^ Z.of_nat n -> from_le (le_bytes n x) = x.
Proof.
  revert x; induction n as [|n IH]; intros x H.
  - simpl in *. lia.
  - rewrite pow256_succ in H. cbn [le_bytes from_le]. rewrite IH; [|zdm; nia].
    zdm; lia.
Qed.

Lemma from_le_bound l : bytes_ok l = true -> 0 <= from_le l < 256 ^ zlen l.
Proof.
  unfold zlen. induction l as [|b l IH]; intros H.
  - simpl. lia.
  - rewrite bytes_ok_cons in H. apply andb_prop in H as [H1 H2]. apply is_byte_iff in H1.
    specialize (IH H2). cbn [from_le length]. rewrite pow256_succ. nia.
Qed.

Lemma le_bytes_from_le l : bytes_ok l = true -> le_bytes (length l) (from_le l) = l.
Proof.
  induction l as [|b l IH]; intros H; auto.
  rewrite bytes_ok_cons in H. apply andb_prop in H as [H1 H2]. apply is_byte_iff in H1.
  cbn [from_le length le_bytes].
  replace ((b + 256 * from_le l) mod 256) with b by (zdm; lia).
  replace ((b + 256 * from_le l) / 256) with (from_le l) by (zdm; lia).
  rewrite IH; auto.
Qed.

Lemma from_le_app a b : from_le (a ++ b) = from_le a + 256 ^ zlen a * from_le b.
Proof.
  unfold zlen. induction a as [|x a IH]; cbn [app from_le length].
  - simpl Z.of_nat. rewrite Z.pow_0_r. lia.
  - rewrite IH, pow256_succ. ring.
Qed.

Lemma from_be_acc l a : fold_left (fun a b => a * 256 + b) l a = a * 256 ^ zlen l + from_le (rev l).
Proof.
  unfold zlen. revert a; induction l as [|b l IH]; intros a; cbn [fold_left rev length].
  - simpl. lia.
  - rewrite IH, from_le_app, pow256_succ. unfold zlen. rewrite rev_length. cbn [from_le]. ring.
Qed.

Lemma from_be_le l : from_be l = from_le (rev l).
Proof. unfold from_be. rewrite from_be_acc. lia. Qed.

Lemma from_be_bound l : bytes_ok l = true -> 0 <= from_be l < 256 ^ zlen l.
Proof.
  intros H. rewrite from_be_le. replace (zlen l) with (zlen (rev l)).
  - apply from_le_bound. rewrite bytes_ok_rev; auto.
  - unfold zlen. rewrite rev_length. reflexivity.
Qed.

Lemma from_be_app a b : from_be (a ++ b) = from_be a * 256 ^ zlen b + from_be b.
Proof.
  rewrite !from_be_le, rev_app_distr, from_le_app. unfold zlen. rewrite rev_length. ring.
Qed.

Lemma to_bytes_le_ok x n l :
  to_bytes_le x n = Ok l <-> 0 <= x < 256 ^ Z.of_nat n /\ l = le_bytes n x.
Proof.
  unfold to_bytes_le. destruct ((x <? 0) || (256 ^ Z.of_nat n <=? x)) eqn:E; split; intros H.
  - discriminate.
  - lia.
  - inv H. split; auto. lia.
  - destruct H as [_ ->]. reflexivity.
Qed.

Lemma to_bytes_le_ok' x n : 0 <= x < 256 ^ Z.of_nat n -> to_bytes_le x n = Ok (le_bytes n x).
Proof. intros H. apply to_bytes_le_ok. auto. Qed.

Lemma to_bytes_le_raise x n :
  ~ (0 <= x < 256 ^ Z.of_nat n) -> to_bytes_le x n = Raise OverflowError.
Proof.
  intros H. unfold to_bytes_le.
  destruct ((x <? 0) || (256 ^ Z.of_nat n <=? x)) eqn:E; auto. lia.
Qed.

Lemma to_bytes_be_ok' x n : 0 <= x < 256 ^ Z.of_nat n -> to_bytes_be x n = Ok (rev (le_bytes n x)).
Proof. intros H. unfold to_bytes_be. rewrite to_bytes_le_ok'; auto. Qed.

(** The big-endian bytes of a number are determined by length and value. *)
Lemma from_be_inj a b :
  bytes_ok a = true -> bytes_ok b = true -> length a = length b -> from_be a = from_be b -> a = b.
Proof.
  intros Ha Hb Hl H. rewrite !from_be_le in H.
  assert (E : rev a = rev b).
  { rewrite <- (le_bytes_from_le (rev a)) by (rewrite bytes_ok_rev; auto).
    rewrite <- (le_bytes_from_le (rev b)) by (rewrite bytes_ok_rev; auto).
    rewrite H, !rev_length, Hl. reflexivity. }
  rewrite <- (rev_involutive a), E, rev_involutive. reflexivity.
Qed.

Lemma from_be_be_bytes n x : 0 <= x < 256 ^ Z.of_nat n -> from_be (rev (le_bytes n x)) = x.
Proof. intros H. rewrite from_be_le, rev_involutive. apply from_le_le_bytes; auto. Qed.

(** ** index_of *)
Lemma index_of_Some x l i :
  index_of x l = Some i -> 0 <= i < zlen l /\ nth_error l (Z.to_nat i) = Some x.
Proof.
  revert i; induction l as [|y l IH]; intros i; cbn [index_of]; [discriminate|].
  rewrite zlen_cons. pose proof (zlen_nonneg l) as Hl.
  destruct (x =? y) eqn:E.
  - intros H. inv H. apply Z.eqb_eq in E. subst. simpl. split; auto; lia.
  - destruct (index_of x l) as [j|]; [|discriminate].
    intros H. inv H. destruct (IH j eq_refl) as [H1 H2]. split; [lia|].
    replace (Z.to_nat (j + 1)) with (S (Z.to_nat j)) by lia. exact H2.
Qed.

Lemma index_of_None x l : index_of x l = None <-> ~ In x l.
Proof.
  induction l as [|y l IH]; cbn [index_of]; simpl; [tauto|].
  destruct (x =? y) eqn:E.
  - apply Z.eqb_eq in E. subst. split; [discriminate|]. tauto.
  - apply Z.eqb_neq in E. destruct (index_of x l) as [j|].
    + split; [discriminate|]. intros H. exfalso. apply H. right.
      destruct (In_dec Z.eq_dec x l); auto. apply IH in n. discriminate.
    + split; auto. intros _ [H|H]; [congruence|]. apply IH in H; auto.
Qed.

Lemma index_of_nth l i d :
  NoDup l -> 0 <= i < zlen l -> index_of (nth (Z.to_nat i) l d) l = Some i.
Proof.
  revert i; induction l as [|y l IH]; intros i Hn Hi.
  - unfold zlen in Hi; simpl in Hi; lia.
  - rewrite zlen_cons in Hi. inv Hn. cbn [index_of].
    destruct (Z.eq_dec i 0) as [->|Hi0].
    + simpl. rewrite Z.eqb_refl. reflexivity.
    + replace (Z.to_nat i) with (S (Z.to_nat (i - 1))) by lia. cbn [nth].
      rewrite IH by (auto; lia).
      assert (In (nth (Z.to_nat (i - 1)) l d) l) as HIn.
      { apply nth_In. unfold zlen in Hi. lia. }
      destruct (_ =? y) eqn:E.
      * apply Z.eqb_eq in E. subst y. contradiction.
      * f_equal. lia.
Qed.

Lemma mapM_ok {A B} (f : A -> result B) l bs :
  mapM f l = Ok bs <-> Forall2 (fun a b => f a = Ok b) l bs.
Proof.
  revert bs; induction l as [|a l IH]; intros bs; cbn [mapM].
  - split; intros H; inv H; constructor.
  - rewrite bind_ok. split.
    + intros (b & Hb & H). apply bind_ok in H as (bs' & Hbs & H). inv H.
      constructor; auto. apply IH; auto.
    + intros H. inv H. exists y. split; auto. apply bind_ok.
      exists l'. split; auto. apply IH; auto.
Qed.

Lemma Forall2_length {A B} (P : A -> B -> Prop) l l' : Forall2 P l l' -> length l = length l'.
Proof. induction 1; simpl; auto. Qed.

Lemma py_index_nonneg {A} (l : list A) i a :
  0 <= i -> py_index l i = Ok a <-> nth_error l (Z.to_nat i) = Some a.
Proof.
  intros Hi. unfold py_index, zlen.
  replace (i <? 0) with false by lia.
  destruct ((i <? 0) || (Z.of_nat (length l) <=? i)) eqn:E.
  - split; [discriminate|]. intros H.
    assert (nth_error l (Z.to_nat i) <> None) by congruence.
    apply nth_error_Some in H0. lia.
  - destruct (nth_error l (Z.to_nat i)) as [b|]; split; intros H; inv H; auto.
Qed.
