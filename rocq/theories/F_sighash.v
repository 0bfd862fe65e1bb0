(** Facts about signature messages: functions of the skeleton, injective. *)
From Verif Require Export S_Sighash F_tx M_sign.

(** ** Prefix decodability of the encodings *)
Lemma app_len_inj {A} (a a' b b' : list A) : length a = length a' -> a ++ b = a' ++ b' -> a = a' /\ b = b'.
Proof.
  revert a'. induction a as [|x a IH]; intros [|y a'] L E; try discriminate; auto.
  cbn in *. injection E as -> E. destruct (IH a' ltac:(lia) E). subst. auto.
Qed.

Definition PrefixInj {A B} (E : A -> bytes -> Prop) (p : A -> B) : Prop :=
  forall a a' b b' r r', E a b -> E a' b' -> b ++ r = b' ++ r' -> p a = p a' /\ b = b' /\ r = r'.

Lemma LEnum_prefix n : PrefixInj (LEnum n) (fun v => v).
Proof.
  intros a a' b b' r r' H H' E. destruct (app_len_inj b b' r r') as [-> ->]; auto.
  - rewrite (LEnum_length _ _ _ H), (LEnum_length _ _ _ H'). reflexivity.
  - split; auto. eapply LEnum_inj; eauto.
Qed.
Lemma CompactSize_prefix : PrefixInj CompactSize (fun v => v).
Proof.
  intros a a' b b' r r' H H' E. pose proof (read_var_cs _ _ r H) as R. pose proof (read_var_cs _ _ r' H') as R'.
  rewrite E in R. rewrite R in R'. inv R'. split; auto. rewrite (CompactSize_fun _ _ _ H H') in *.
  split; auto.
Qed.
Lemma VarBytes_prefix : PrefixInj VarBytes (fun s => s).
Proof.
  intros a a' b b' r r' (n & H & ->) (n' & H' & ->) E. rewrite <- !app_assoc in E.
  destruct (CompactSize_prefix _ _ _ _ _ _ H H' E) as (L & -> & E'). cbv beta in L. destruct (app_len_inj _ _ _ _ (Nat2Z.inj _ _ L) E') as [-> ->]. auto.
Qed.
Lemma EncSeq_prefix {A B} (E : A -> bytes -> Prop) (p : A -> B) l : PrefixInj E p ->
  forall l' b b' r r', length l = length l' -> EncSeq E l b -> EncSeq E l' b' -> b ++ r = b' ++ r' ->
  map p l = map p l' /\ b = b' /\ r = r'.
Proof.
  intros P. induction l as [|a l IH]; intros [|a' l'] b b' r r' L S S' Q; try discriminate.
  - inv S. inv S'. auto.
  - inversion S as [|a0 l0 b0 c0 Ha Sl]; subst. inversion S' as [|a1 l1 b1 c1 Ha' Sl']; subst. rewrite <- !app_assoc in Q.
    destruct (P _ _ _ _ _ _ Ha Ha' Q) as (E1 & -> & Q').
    destruct (IH l' _ _ _ _ ltac:(simpl in L; lia) Sl Sl' Q') as (E2 & -> & ->). cbn [map]. rewrite E1, E2. auto.
Qed.
Lemma EncVec_prefix {A B} (E : A -> bytes -> Prop) (p : A -> B) : PrefixInj E p -> PrefixInj (EncVec E) (map p).
Proof.
  intros P a a' b b' r r' (n & c & Hn & S & ->) (n' & c' & Hn' & S' & ->) Q. rewrite <- !app_assoc in Q.
  destruct (CompactSize_prefix _ _ _ _ _ _ Hn Hn' Q) as (L & -> & Q'). cbv beta in L.
  destruct (EncSeq_prefix E p a P a' c c' r r' ltac:(lia) S S' Q') as (M & -> & ->). auto.
Qed.
Lemma EncOutpoint_prefix : PrefixInj EncOutpoint (fun i => (i_txid i, i_vout i)).
Proof.
  intros a a' b b' r r' (vo & L & V & ->) (vo' & L' & V' & ->) Q. rewrite <- !app_assoc in Q.
  destruct (app_len_inj _ _ _ _ (eq_trans L (eq_sym L')) Q) as [E1 Q']. destruct (LEnum_prefix _ _ _ _ _ _ _ V V' Q') as (E2 & -> & ->). rewrite E1, E2. auto.
Qed.
Lemma EncIn_prefix : PrefixInj EncIn no_wit.
Proof.
  intros a a' b b' r r' (vo & sc & sq & L & V & S & Q & ->) (vo' & sc' & sq' & L' & V' & S' & Q' & ->) E.
  rewrite <- !app_assoc in E.
  destruct (app_len_inj _ _ _ _ (eq_trans L (eq_sym L')) E) as [E1 E2].
  destruct (LEnum_prefix _ _ _ _ _ _ _ V V' E2) as (E3 & -> & E4).
  destruct (VarBytes_prefix _ _ _ _ _ _ S S' E4) as (E5 & -> & E6).
  destruct (LEnum_prefix _ _ _ _ _ _ _ Q Q' E6) as (E7 & -> & ->).
  unfold no_wit. rewrite E1, E3, E5, E7. auto.
Qed.
Lemma EncOut_prefix : PrefixInj EncOut (fun o => o).
Proof.
  intros a a' b b' r r' (v & sc & V & S & ->) (v' & sc' & V' & S' & ->) E. rewrite <- !app_assoc in E.
  destruct (LEnum_prefix _ _ _ _ _ _ _ V V' E) as (E1 & -> & E2).
  destruct (VarBytes_prefix _ _ _ _ _ _ S S' E2) as (E3 & -> & ->). destruct a, a'. cbn in *. subst. auto.
Qed.
Lemma EncLegacy_prefix : PrefixInj EncLegacy (fun x => (t_ver x, map no_wit (t_ins x), t_outs x, t_lock x)).
Proof.
  intros a a' b b' r r' (v & i & o & l & Hv & Hi & Ho & Hl & ->) (v' & i' & o' & l' & Hv' & Hi' & Ho' & Hl' & ->) E.
  rewrite <- !app_assoc in E.
  destruct (LEnum_prefix _ _ _ _ _ _ _ Hv Hv' E) as (E1 & -> & E2).
  destruct (EncVec_prefix _ _ EncIn_prefix _ _ _ _ _ _ Hi Hi' E2) as (E3 & -> & E4).
  destruct (EncVec_prefix _ _ EncOut_prefix _ _ _ _ _ _ Ho Ho' E4) as (E5 & -> & E6).
  destruct (LEnum_prefix _ _ _ _ _ _ _ Hl Hl' E6) as (E7 & -> & ->). rewrite !map_id in E5.
  rewrite E1, E3, E5, E7. auto.
Qed.

(** Sequences of non-empty self-delimiting items need no count. *)
Lemma EncSeq_whole {A B} (E : A -> bytes -> Prop) (p : A -> B) : PrefixInj E p -> (forall a b, E a b -> b <> []) ->
  forall l l' b, EncSeq E l b -> EncSeq E l' b -> map p l = map p l'.
Proof.
  intros P NE l. induction l as [|a l IH]; intros [|a' l'] b S S'; auto.
  - inv S. inversion S' as [|a1 l1 b1 c1 Ha Sl]; subst. match goal with H : _ ++ _ = [] |- _ => apply app_eq_nil in H as [-> _] end.
    exfalso. eapply NE; eauto.
  - inv S'. inversion S as [|a1 l1 b1 c1 Ha Sl]; subst. match goal with H : _ ++ _ = [] |- _ => apply app_eq_nil in H as [-> _] end.
    exfalso. eapply NE; eauto.
  - inversion S as [|a0 l0 b0 c0 Ha Sl]; subst. inversion S' as [|a1 l1 b1 c1 Ha' Sl' E1 E2]; subst.
    destruct (P _ _ _ _ _ _ Ha Ha' (eq_sym E2)) as (Q1 & -> & ->). cbn [map]. rewrite Q1. f_equal. eauto.
Qed.
Lemma EncOutpoint_ne i b : EncOutpoint i b -> b <> [].
Proof. intros (vo & L & _ & ->) C. apply app_eq_nil in C as [C _]. rewrite C in L. discriminate. Qed.
Lemma LEnum_ne n v b : LEnum (S n) v b -> b <> [].
Proof. intros H C. apply LEnum_length in H. subst. discriminate. Qed.
Lemma EncOut_ne o b : EncOut o b -> b <> [].
Proof. intros (v & sc & V & _ & ->) C. apply app_eq_nil in C as [C _]. exact (LEnum_ne _ _ _ V C). Qed.

(** ** Legacy message *)
Lemma blank_except_skel j code l : map in_skel (blank_except j code l) = map in_skel l.
Proof.
  revert j. induction l as [|i l IH]; intros j; auto. destruct j; cbn [blank_except map].
  - rewrite map_map. reflexivity.
  - rewrite IH. reflexivity.
Qed.
Lemma blank_except_nth j code l i : nth_error l j = Some i ->
  nth_error (blank_except j code l) j = Some (Tin (i_txid i) (i_vout i) code (i_seq i) []).
Proof.
  revert j. induction l as [|a l IH]; intros [|j] H; try discriminate; cbn in *; [injection H as ->; auto|auto].
Qed.
Lemma blank_except_other j k code l i : j <> k -> nth_error (blank_except j code l) k = Some i -> i_script i = [].
Proof.
  revert j k. induction l as [|a l IH]; intros j k N H; [destruct k, j; discriminate|].
  destruct j as [|j]; cbn [blank_except] in H; destruct k as [|k]; cbn [nth_error] in H; try contradiction.
  - rewrite nth_error_map in H. destruct (nth_error l k); [|discriminate]. injection H as <-. reflexivity.
  - injection H as <-. reflexivity.
  - eapply IH; [|exact H]. lia.
Qed.
Lemma blank_except_length j code l : length (blank_except j code l) = length l.
Proof. rewrite <- (map_length in_skel), blank_except_skel, map_length. reflexivity. Qed.

Lemma blank_except_skel_fun l l' j code : map in_skel l = map in_skel l' -> blank_except j code l = blank_except j code l'.
Proof.
  revert l' j. induction l as [|a l IH]; intros [|a' l'] j E; try discriminate; auto.
  cbn [map] in E. injection E as E1 E2 E3 E. destruct j; cbn [blank_except]; rewrite E1, E2, E3; f_equal; auto.
  clear -E. revert l' E. induction l as [|a l IH]; intros [|b l'] E; try discriminate; auto.
  cbn [map] in *. injection E as E1 E2 E3 E. rewrite E1, E2, E3. f_equal. auto.
Qed.
Lemma no_wit_script i i' : no_wit i = no_wit i' -> in_skel i = in_skel i' /\ i_script i = i_script i'.
Proof. unfold no_wit, in_skel. intros E. injection E as -> -> -> ->. auto. Qed.
Lemma map_no_wit_skel l l' : map no_wit l = map no_wit l' -> map in_skel l = map in_skel l'.
Proof.
  revert l'. induction l as [|a l IH]; intros [|b l'] E; try discriminate; auto.
  cbn [map] in *. injection E as E1 E2 E3 E4 E. unfold in_skel at 1 3. rewrite E1, E2, E4. f_equal. auto.
Qed.

Lemma LegacyMsg_fun x j code m m' : LegacyMsg x j code m -> LegacyMsg x j code m' -> m = m'.
Proof.
  intros (_ & e & h & E & H & ->) (_ & e' & h' & E' & H' & ->).
  rewrite (EncLegacy_fun _ _ _ E E'), (LEnum_fun _ _ _ _ H H'). reflexivity.
Qed.
Lemma LegacyMsg_skel x y j code m : same_skeleton x y -> LegacyMsg x j code m -> LegacyMsg y j code m.
Proof.
  intros (E1 & E2 & E3 & E4) (L & e & h & E & H). split.
  - rewrite <- (map_length in_skel), <- E4, map_length. auto.
  - exists e, h. rewrite <- E1, <- E2, <- E3, <- (blank_except_skel_fun _ _ j code E4). auto.
Qed.
Lemma LegacyMsg_inj x x' j j' code code' m : LegacyMsg x j code m -> LegacyMsg x' j' code' m ->
  same_skeleton x x' /\ (code <> [] -> code' <> [] -> j = j') /\ (j = j' -> code = code').
Proof.
  intros (L & e & h & E & H & ->) (L' & e' & h' & E' & H' & Q).
  destruct (EncLegacy_prefix _ _ _ _ _ _ E E' Q) as (P & _ & _). cbn [t_ver t_ins t_outs t_lock] in P.
  injection P as P1 P2 P3 P4. split; [|split].
  - split; auto. split; auto. split; auto. apply map_no_wit_skel in P2. rewrite !blank_except_skel in P2. auto.
  - intros C C'. destruct (Nat.eq_dec j j') as [|N]; auto. exfalso.
    destruct (nth_error (t_ins x) j) as [i|] eqn:Ei; [|apply nth_error_None in Ei; lia].
    apply (blank_except_nth _ code) in Ei. apply (f_equal (fun l => nth_error l j)) in P2.
    rewrite !nth_error_map, Ei in P2. cbn [option_map] in P2.
    destruct (nth_error (blank_except j' code' (t_ins x')) j) as [i'|] eqn:Ei'; [|discriminate].
    apply blank_except_other in Ei'; [|auto]. cbn [option_map] in P2. unfold no_wit in P2. cbn in P2.
    injection P2 as _ _ P2 _. congruence.
  - intros <-. destruct (nth_error (t_ins x) j) as [i|] eqn:Ei; [|apply nth_error_None in Ei; lia].
    destruct (nth_error (t_ins x') j) as [i'|] eqn:Ei'; [|apply nth_error_None in Ei'; lia].
    apply (blank_except_nth _ code) in Ei. apply (blank_except_nth _ code') in Ei'.
    apply (f_equal (fun l => nth_error l j)) in P2. rewrite !nth_error_map, Ei, Ei' in P2. cbn in P2.
    injection P2 as _ _ P2 _. auto.
Qed.

(** ** BIP143 message *)
Section WithCrypto.
Context {CR : Crypto}.

Lemma EncOutpoint_fun i b b' : EncOutpoint i b -> EncOutpoint i b' -> b = b'.
Proof. intros (vo & _ & V & ->) (vo' & _ & V' & ->). rewrite (LEnum_fun _ _ _ _ V V'). reflexivity. Qed.
Lemma EncSequence_fun i b b' : EncSequence i b -> EncSequence i b' -> b = b'.
Proof. apply LEnum_fun. Qed.

Lemma BIP143Msg_fun x j code a m m' : BIP143Msg x j code a m -> BIP143Msg x j code a m' -> m = m'.
Proof.
  intros (i & v & pv & sq & op & sc & am & s & o & l & h & H1 & H2 & H3 & H4 & H5 & H6 & H7 & H8 & H9 & H10 & H11 & ->)
    (i' & v' & pv' & sq' & op' & sc' & am' & s' & o' & l' & h' & I1 & I2 & I3 & I4 & I5 & I6 & I7 & I8 & I9 & I10 & I11 & ->).
  rewrite H1 in I1. injection I1 as <-.
  rewrite (LEnum_fun _ _ _ _ H2 I2), (EncSeq_fun _ _ _ _ EncOutpoint_fun H3 I3), (EncSeq_fun _ _ _ _ EncSequence_fun H4 I4),
    (EncOutpoint_fun _ _ _ H5 I5), (VarBytes_fun _ _ _ H6 I6), (LEnum_fun _ _ _ _ H7 I7), (EncSequence_fun _ _ _ H8 I8),
    (EncSeq_fun _ _ _ _ EncOut_fun H9 I9), (LEnum_fun _ _ _ _ H10 I10), (LEnum_fun _ _ _ _ H11 I11). reflexivity.
Qed.

Lemma EncSeq_skel (E : tin -> bytes -> Prop) : (forall i i' b, in_skel i = in_skel i' -> E i b -> E i' b) ->
  forall l l' b, map in_skel l = map in_skel l' -> EncSeq E l b -> EncSeq E l' b.
Proof.
  intros P. induction l as [|a l IH]; intros [|a' l'] b Es S; try discriminate; auto.
  inv S. constructor; [apply (P a)|]; auto; cbn [map] in Es.
  - congruence.
  - apply IH; auto. congruence.
Qed.
Lemma EncOutpoint_skel i i' b : in_skel i = in_skel i' -> EncOutpoint i b -> EncOutpoint i' b.
Proof. unfold in_skel, EncOutpoint. intros E. injection E as -> -> _. auto. Qed.
Lemma EncSequence_skel i i' b : in_skel i = in_skel i' -> EncSequence i b -> EncSequence i' b.
Proof. unfold in_skel, EncSequence. intros E. injection E as _ _ ->. auto. Qed.

Lemma BIP143Msg_skel x y j code a m : same_skeleton x y -> BIP143Msg x j code a m -> BIP143Msg y j code a m.
Proof.
  intros (E1 & E2 & E3 & E4)
    (i & v & pv & sq & op & sc & am & s & o & l & h & H1 & H2 & H3 & H4 & H5 & H6 & H7 & H8 & H9 & H10 & H11 & ->).
  assert (exists i', nth_error (t_ins y) j = Some i' /\ in_skel i = in_skel i') as (i' & I & Es).
  { apply (f_equal (fun l => nth_error l j)) in E4. rewrite !nth_error_map, H1 in E4. cbn [option_map] in E4.
    destruct (nth_error (t_ins y) j) as [i'|]; [|discriminate]. exists i'. split; auto. cbn [option_map] in E4. congruence. }
  exists i', v, pv, sq, op, sc, am, s, o, l, h. rewrite <- E1, <- E2, <- E3. repeat (split; auto).
  - eapply EncSeq_skel; eauto. apply EncOutpoint_skel.
  - eapply EncSeq_skel; eauto. apply EncSequence_skel.
  - eapply EncOutpoint_skel; eauto.
  - eapply EncSequence_skel; eauto.
Qed.

(** Equal messages: everything equal, or two different strings with equal double SHA-256. *)
Definition sha_collision : Prop := exists a b, a <> b /\ sha256 (sha256 a) = sha256 (sha256 b).
Lemma bytes_dec (a b : bytes) : {a = b} + {a <> b}.
Proof. apply list_eq_dec. apply Z.eq_dec. Qed.

Lemma BIP143Msg_inj x x' j j' code code' a a' m : (forall y, length (sha256 y) = 32%nat) ->
  BIP143Msg x j code a m -> BIP143Msg x' j' code' a' m ->
  sha_collision \/ (same_skeleton x x' /\ code = code' /\ a = a' /\
    exists i i', nth_error (t_ins x) j = Some i /\ nth_error (t_ins x') j' = Some i' /\ in_skel i = in_skel i').
Proof.
  intros HL
    (i & v & pv & sq & op & sc & am & s & o & l & h & H1 & H2 & H3 & H4 & H5 & H6 & H7 & H8 & H9 & H10 & H11 & ->)
    (i' & v' & pv' & sq' & op' & sc' & am' & s' & o' & l' & h' & I1 & I2 & I3 & I4 & I5 & I6 & I7 & I8 & I9 & I10 & I11 & Q).
  destruct (LEnum_prefix _ _ _ _ _ _ _ H2 I2 Q) as (E1 & _ & Q1).
  destruct (app_len_inj (sha256 (sha256 pv)) (sha256 (sha256 pv')) _ _ ltac:(rewrite !HL; reflexivity) Q1) as [P1 Q2].
  destruct (app_len_inj (sha256 (sha256 sq)) (sha256 (sha256 sq')) _ _ ltac:(rewrite !HL; reflexivity) Q2) as [P2 Q3].
  destruct (EncOutpoint_prefix _ _ _ _ _ _ H5 I5 Q3) as (E2 & _ & Q4).
  destruct (VarBytes_prefix _ _ _ _ _ _ H6 I6 Q4) as (E3 & _ & Q5).
  destruct (LEnum_prefix _ _ _ _ _ _ _ H7 I7 Q5) as (E4 & _ & Q6).
  destruct (LEnum_prefix _ _ _ _ _ _ _ H8 I8 Q6) as (E5 & _ & Q7).
  destruct (app_len_inj (sha256 (sha256 o)) (sha256 (sha256 o')) _ _ ltac:(rewrite !HL; reflexivity) Q7) as [P3 Q8].
  destruct (LEnum_prefix _ _ _ _ _ _ _ H10 I10 Q8) as (E6 & _ & _).
  destruct (bytes_dec pv pv') as [->|N]; [|left; exists pv, pv'; auto].
  destruct (bytes_dec sq sq') as [->|N]; [|left; exists sq, sq'; auto].
  destruct (bytes_dec o o') as [->|N]; [|left; exists o, o'; auto].
  right. split; [|split; auto; split; auto].
  - split; auto. split; auto. split.
    + pose proof (EncSeq_whole _ _ EncOut_prefix EncOut_ne _ _ _ H9 I9) as M. rewrite !map_id in M. exact M.
    + pose proof (EncSeq_whole _ _ EncOutpoint_prefix EncOutpoint_ne _ _ _ H3 I3) as M1.
      assert (PS : PrefixInj EncSequence i_seq).
      { intros u u' b b' r r' A B C. destruct (LEnum_prefix _ _ _ _ _ _ _ A B C) as (D1 & D2 & D3). auto. }
      pose proof (EncSeq_whole _ _ PS (fun u b => LEnum_ne 3 _ b) _ _ _ H4 I4) as M2.
      clear -M1 M2. revert M1 M2. generalize (t_ins x) as u, (t_ins x') as w.
      induction u as [|a u IH]; intros [|b w] M1 M2; try discriminate; auto. cbn [map] in *.
      injection M1 as A1 A2 M1. injection M2 as B1 M2. unfold in_skel at 1 3. rewrite A1, A2, B1. f_equal. auto.
  - exists i, i'. split; auto. split; auto. unfold in_skel. cbv beta in E2. injection E2 as -> ->. cbv beta in E5. rewrite E5. reflexivity.
Qed.

Lemma SigMsg_fun seg x j code a m m' : SigMsg seg x j code a m -> SigMsg seg x j code a m' -> m = m'.
Proof. destruct seg; cbn; [apply BIP143Msg_fun|apply LegacyMsg_fun]. Qed.
Lemma SigMsg_skel seg x y j code a m : same_skeleton x y -> SigMsg seg x j code a m -> SigMsg seg y j code a m.
Proof. destruct seg; cbn; [apply BIP143Msg_skel|apply LegacyMsg_skel]. Qed.

End WithCrypto.
