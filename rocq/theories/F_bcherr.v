(** Bech32: creation of checksums, detection of up to four errors. *)
From Coq Require Import String.
From Verif Require Export F_polymod.

Local Opaque gf_mul Z.lxor.

(** ** Verification and creation *)
Lemma hrp_expand_spec hrp : bech32_hrp_expand hrp = expand_hrp hrp.
Proof.
  unfold bech32_hrp_expand, expand_hrp. f_equal; [|f_equal]; apply map_ext; intros c.
  - rewrite Z.shiftr_div_pow2 by lia. reflexivity.
  - change 31 with (Z.ones 5). rewrite Z.land_ones by lia. reflexivity.
Qed.

Definition hrp_ok (hrp : pystr) : Prop := Forall (fun c => 0 <= c < 1024) hrp.

Lemma expand_hrp_gf hrp : hrp_ok hrp -> Forall gf (expand_hrp hrp).
Proof.
  intros H. unfold expand_hrp. apply Forall_app. split; [|constructor; [apply gf_0|]];
    induction H; simpl; constructor; auto; unfold gf; zdm; lia.
Qed.

Lemma verify_spec hrp data : hrp_ok hrp -> Forall gf data ->
  bech32_verify_checksum hrp data = true <-> ChecksumOk hrp data.
Proof.
  intros Hh Hd. unfold bech32_verify_checksum, ChecksumOk. rewrite hrp_expand_spec, Z.eqb_eq.
  apply pm_congruent. apply Forall_app. split; auto. apply expand_hrp_gf; auto.
Qed.

Lemma gmask_0 : gmask 0 = 0.
Proof. vm_compute. reflexivity. Qed.

Lemma polymod_step_small c v : 0 <= c < 2 ^ 25 -> gf v -> polymod_step c v = c * 32 + v.
Proof.
  intros Hc Hv. rewrite polymod_step_eq. rewrite Z.shiftr_div_pow2 by lia.
  rewrite Z.div_small by lia. rewrite gmask_0, Z.lxor_0_r. fold (shl c). rewrite shl_eq, Z.mod_small by lia.
  symmetry. apply Z.add_nocarry_lxor. unfold gf in Hv.
  apply Z.bits_inj'. intros n Hn. rewrite Z.land_spec, Z.bits_0.
  destruct (Z_lt_dec n 5).
  - replace (c * 32) with (c * 2 ^ 5) by lia. rewrite Z.mul_pow2_bits_low by lia. reflexivity.
  - replace (Z.testbit v n) with false; [apply andb_false_r|].
    symmetry. rewrite <- (Z.mod_small v (2 ^ 5)) by (simpl; lia). apply Z.mod_pow2_bits_high. lia.
Qed.

Lemma pm_six a b c d e f : gf a -> gf b -> gf c -> gf d -> gf e -> gf f ->
  pm 0 [a; b; c; d; e; f] = ((((a * 32 + b) * 32 + c) * 32 + d) * 32 + e) * 32 + f.
Proof.
  unfold gf. intros. unfold pm. cbn [fold_left].
  rewrite (polymod_step_small 0 a) by (unfold gf; lia).
  rewrite (polymod_step_small _ b) by (unfold gf; lia).
  rewrite (polymod_step_small _ c) by (unfold gf; lia).
  rewrite (polymod_step_small _ d) by (unfold gf; lia).
  rewrite (polymod_step_small _ e) by (unfold gf; lia).
  rewrite (polymod_step_small _ f) by (unfold gf; lia). lia.
Qed.

Definition syms6 (x : Z) : list Z := [sym 5 x; sym 4 x; sym 3 x; sym 2 x; sym 1 x; sym 0 x].

Lemma pm_syms6 x : 0 <= x < 2 ^ 30 -> pm 0 (syms6 x) = x.
Proof.
  intros H. unfold syms6. rewrite pm_six by apply sym_gf. rewrite (sym_all x H) at 7. lia.
Qed.

Lemma create_syms6 hrp data :
  bech32_create_checksum hrp data =
  syms6 (Z.lxor (pm 1 (expand_hrp hrp ++ data ++ [0;0;0;0;0;0])) 1).
Proof.
  unfold bech32_create_checksum, bech32_polymod, pm. rewrite hrp_expand_spec, <- app_assoc. reflexivity.
Qed.

Lemma syms6_gf x : Forall gf (syms6 x).
Proof. unfold syms6. repeat constructor; apply sym_gf. Qed.

Lemma xors_zeros l : xors (repeat 0 (length l)) l = l.
Proof. induction l; simpl; auto. rewrite IHl. reflexivity. Qed.

Lemma pm_split c l : pm c l = Z.lxor (pm c (repeat 0 (length l))) (pm 0 l).
Proof.
  rewrite <- pm_xors by (rewrite repeat_length; auto). rewrite Z.lxor_0_r, xors_zeros. reflexivity.
Qed.

Lemma checksum_exact hrp data chk :
  hrp_ok hrp -> Forall gf data -> Forall gf chk -> length chk = 6%nat ->
  (ChecksumOk hrp (data ++ chk) <-> chk = bech32_create_checksum hrp data).
Proof.
  intros Hh Hd Hc Hl. rewrite <- verify_spec by (auto; apply Forall_app; auto).
  unfold bech32_verify_checksum, bech32_polymod. rewrite hrp_expand_spec, Z.eqb_eq.
  fold (pm 1 (expand_hrp hrp ++ data ++ chk)).
  rewrite create_syms6. rewrite !app_assoc.
  rewrite (pm_app 1 (expand_hrp hrp ++ data) chk), (pm_app 1 (expand_hrp hrp ++ data) [0;0;0;0;0;0]). set (c := pm 1 (expand_hrp hrp ++ data)).
  assert (Hcr : 0 <= c < 2 ^ 30).
  { apply pm_range; [lia|]. apply Forall_app. split; auto. apply expand_hrp_gf; auto. }
  rewrite (pm_split c chk), Hl. change (repeat 0 6) with [0;0;0;0;0;0].
  set (Q := pm c [0;0;0;0;0;0]).
  assert (HQ : 0 <= Q < 2 ^ 30) by (apply pm_range; auto; repeat constructor; unfold gf; lia).
  assert (HQ1 : 0 <= Z.lxor Q 1 < 2 ^ 30) by (apply lxor_bound; lia).
  split.
  - intros H.
    assert (E : pm 0 chk = Z.lxor Q 1).
    { apply (lxor_cancel_l Q). rewrite H, <- Z.lxor_assoc, Z.lxor_nilpotent, Z.lxor_0_l. reflexivity. }
    destruct chk as [|a5 [|a4 [|a3 [|a2 [|a1 [|a0 [|]]]]]]]; try discriminate.
    repeat match goal with H : Forall gf (_ :: _) |- _ => inv H end.
    rewrite pm_six in E by auto. rewrite <- E. unfold syms6. rewrite !sym_div.
    cbn [Z.of_nat Pos.of_succ_nat Pos.succ]. simpl Z.pow. unfold gf in *.
    repeat f_equal; Z.div_mod_to_equations; lia.
  - intros ->. rewrite pm_syms6 by auto. rewrite <- Z.lxor_assoc, Z.lxor_nilpotent, Z.lxor_0_l. reflexivity.
Qed.

(** ** Error patterns *)
(** x^p modulo the generator. *)
Definition X (p : nat) : Z := pm 0 (1 :: repeat 0 p).

Lemma Forall_zeros n : Forall gf (repeat 0 n).
Proof. induction n; simpl; constructor; auto. apply gf_0. Qed.

Lemma sym_0 i : sym i 0 = 0.
Proof. unfold sym. rewrite Z.shiftr_0_l. reflexivity. Qed.

Lemma pm_scale u vs : gf u -> Forall gf vs ->
  forall i, (i < 6)%nat -> sym i (pm 0 (map (gf_mul u) vs)) = gf_mul u (sym i (pm 0 vs)).
Proof.
  intros Hu. induction vs as [|v vs IH] using rev_ind; intros H i Hi.
  - unfold pm; cbn [map fold_left]. rewrite sym_0, gf_mul_0_r; auto.
  - apply Forall_app in H as [Hvs Hv]. inv Hv. rewrite map_app, !pm_app. cbn [map].
    unfold pm at 1 3. cbn [fold_left].
    assert (Hm : Forall gf (map (gf_mul u) vs)).
    { clear - Hu Hvs. induction Hvs; simpl; constructor; auto. apply gf_mul_gf; auto. }
    assert (R1 : 0 <= pm 0 (map (gf_mul u) vs) < 2 ^ 30) by (apply pm_range; auto; lia).
    assert (R2 : 0 <= pm 0 vs < 2 ^ 30) by (apply pm_range; auto; lia).
    destruct i as [|i].
    + rewrite !polymod_step_0 by (auto using gf_mul_gf). rewrite IH by (auto; lia).
      rewrite gf_mul_xor_r by (auto using gf_mul_gf, sym_gf, gcoef_gf).
      rewrite <- gf_mul_assoc by (auto using sym_gf, gcoef_gf). reflexivity.
    + rewrite !polymod_step_S by (auto using gf_mul_gf; lia). rewrite !IH by (auto; lia).
      rewrite gf_mul_xor_r by (auto using gf_mul_gf, sym_gf, gcoef_gf).
      rewrite <- gf_mul_assoc by (auto using sym_gf, gcoef_gf). reflexivity.
Qed.

Lemma pm_single v p i : gf v -> (i < 6)%nat -> sym i (pm 0 (v :: repeat 0 p)) = gf_mul v (sym i (X p)).
Proof.
  intros Hv Hi. unfold X. rewrite <- (pm_scale v (1 :: repeat 0 p) Hv (Forall_cons _ gf_1 (Forall_zeros p)) i Hi).
  cbn [map]. rewrite gf_mul_1_r by auto. f_equal. f_equal. f_equal.
  induction p; simpl; auto. rewrite gf_mul_0_r by auto. f_equal. auto.
Qed.

Fixpoint err_sum (i : nat) (e : list Z) : Z :=
  match e with
  | [] => 0
  | v :: r => Z.lxor (gf_mul v (sym i (X (length r)))) (err_sum i r)
  end.

Lemma pm_err_sum e : Forall gf e -> forall i, (i < 6)%nat -> sym i (pm 0 e) = err_sum i e.
Proof.
  induction 1 as [|v e Hv He IH]; intros i Hi; cbn [err_sum].
  - apply sym_0.
  - rewrite <- IH by auto. rewrite <- pm_single by auto. rewrite <- sym_lxor. f_equal.
    change (pm 0 (v :: e)) with (pm (polymod_step 0 v) e).
    change (pm 0 (v :: repeat 0 (length e))) with (pm (polymod_step 0 v) (repeat 0 (length e))).
    apply pm_split.
Qed.

(** Shifting by x is invertible. *)
Lemma step_zero_inj c : 0 <= c < 2 ^ 30 -> polymod_step c 0 = 0 -> c = 0.
Proof.
  intros Hc H. assert (T : sym 5 c = 0).
  { pose proof (polymod_step_0 c 0 Hc gf_0) as E. rewrite H, sym_0, Z.lxor_0_l in E. symmetry in E.
    apply gf_mul_eq_0 in E; [|apply sym_gf|apply gcoef_gf]. destruct E as [E|E]; auto. discriminate. }
  apply sym_inj; auto; [lia|]. intros i Hi. rewrite sym_0.
  destruct (Nat.eq_dec i 5) as [->|Ni]; auto.
  pose proof (polymod_step_S i c 0 Hc gf_0 ltac:(lia)) as E.
  rewrite H, sym_0, T, gf_mul_0_l, Z.lxor_0_r in E by apply gcoef_gf. auto.
Qed.

Lemma pm_zeros_inj k c : 0 <= c < 2 ^ 30 -> pm c (repeat 0 k) = 0 -> c = 0.
Proof.
  revert c; induction k as [|k IH]; intros c Hc H; [exact H|].
  change (pm c (repeat 0 (S k))) with (pm (polymod_step c 0) (repeat 0 k)) in H.
  apply step_zero_inj; auto. apply IH; auto. apply polymod_step_range; auto using gf_0.
Qed.

(** ** Vectors over GF(32) *)
(** Coefficients 1 to 5 of x^p. *)
Definition hv (p : nat) : list Z := map (fun i => sym i (X p)) [1; 2; 3; 4; 5]%nat.

Lemma hv_nth p i : (i < 5)%nat -> nth i (hv p) 0 = sym (S i) (X p).
Proof. intros H. do 5 (destruct i as [|i]; [reflexivity|]). lia. Qed.
Lemma hv_gf p i : gf (nth i (hv p) 0).
Proof.
  unfold hv. do 5 (destruct i as [|i]; [apply sym_gf|]). cbn [map nth]. destruct i; apply gf_0.
Qed.

(** Index of the first nonzero entry. *)
Fixpoint lead (l : list Z) : option nat :=
  match l with
  | [] => None
  | x :: r => if x =? 0 then option_map S (lead r) else Some O
  end.

Lemma lead_Some l k : lead l = Some k -> nth k l 0 <> 0 /\ (k < length l)%nat /\ forall i, (i < k)%nat -> nth i l 0 = 0.
Proof.
  revert k; induction l as [|x l IH]; intros k; cbn [lead]; [discriminate|].
  destruct (x =? 0) eqn:E.
  - destruct (lead l) as [j|]; [|discriminate]. intros H. inv H. destruct (IH j eq_refl) as (H1 & H2 & H3).
    cbn [nth length]. repeat split; auto; [lia|]. intros [|i] Hi; [lia|]. apply H3. lia.
  - intros H. inv H. cbn [nth length]. repeat split; [lia|lia|]. intros i Hi. lia.
Qed.

Lemma lead_None l : lead l = None -> forall i, nth i l 0 = 0.
Proof.
  induction l as [|x l IH]; cbn [lead]; intros H i; [destruct i; reflexivity|].
  destruct (x =? 0) eqn:E; [|discriminate]. destruct (lead l); [discriminate|].
  destruct i; cbn [nth]; [lia|]. apply IH; auto.
Qed.

(** Fast versions with the multiplication table. *)
Definition normalise (l : list Z) : option (list Z) :=
  match lead l with
  | None => None
  | Some k => Some (map (mulT (gf_inv (nth k l 0))) l)
  end.

(** Remove the component along [h], using the pivot [k] of [h]. *)
Definition reduce (k : nat) (h w : list Z) : list Z :=
  let c := mulT (gf_inv (nth k h 0)) (nth k w 0) in
  map (fun ab => Z.lxor (snd ab) (mulT c (fst ab))) (combine h w).

Fixpoint all_some {A} (l : list (option A)) : option (list A) :=
  match l with
  | [] => Some []
  | None :: _ => None
  | Some a :: r => option_map (cons a) (all_some r)
  end.

Fixpoint distinct (l : list (list Z)) : bool :=
  match l with
  | [] => true
  | x :: r => negb (existsb (list_eqb x) r) && distinct r
  end.

(** For the first vector of the list: it is nonzero, and modulo it the others
    are nonzero and pairwise not proportional; then the same for the rest. *)
Fixpoint indep_check (hs : list (list Z)) : bool :=
  match hs with
  | [] => true
  | h :: r =>
    match lead h with
    | None => false
    | Some k => match all_some (map (fun w => normalise (reduce k h w)) r) with
                | None => false
                | Some ns => distinct ns
                end
    end && indep_check r
  end.

Definition hvs : list (list Z) := Eval vm_compute in map hv (seq 1 87).
Lemma hvs_eq : hvs = map hv (seq 1 87).
Proof. vm_compute. reflexivity. Qed.

Lemma indep_check_ok : indep_check hvs = true.
Proof. vm_compute. reflexivity. Qed.

(** ** Soundness of the independence check *)
Definition vec5 (l : list Z) : Prop := length l = 5%nat /\ Forall gf l.

Lemma vec5_gf l i : vec5 l -> gf (nth i l 0).
Proof.
  intros [H1 H2]. destruct (Nat.lt_ge_cases i (length l)) as [L|L].
  - rewrite Forall_forall in H2. apply H2, nth_In, L.
  - rewrite nth_overflow by auto. apply gf_0.
Qed.

Lemma lead_ext a b : length a = length b -> (forall i, nth i a 0 = 0 <-> nth i b 0 = 0) -> lead a = lead b.
Proof.
  revert b; induction a as [|x a IH]; intros [|y b] Hl H; try discriminate; auto.
  cbn [lead]. pose proof (H 0%nat) as H0. cbn [nth] in H0.
  rewrite (IH b); [|simpl in Hl; lia|intros i; apply (H (S i))].
  destruct (x =? 0) eqn:E1, (y =? 0) eqn:E2; auto; lia.
Qed.

Lemma gf_inv_mul t b : gf t -> gf b -> t <> 0 -> gf_mul (gf_inv (gf_mul t b)) t = gf_inv b.
Proof.
  intros Ht Hb Nt.
  assert (H : forallb (fun t => forallb (fun b => (t =? 0) || (gf_mul (gf_inv (gf_mul t b)) t =? gf_inv b)) all32) all32 = true)
    by (vm_compute; reflexivity).
  pose proof (forall32 _ (forall32 _ H t Ht) b Hb) as G. cbv beta in G. lia.
Qed.

Lemma nth_map_lt {A B} (f : A -> B) l i d d' : (i < length l)%nat -> nth i (map f l) d = f (nth i l d').
Proof.
  intros H. rewrite nth_indep with (d' := f d') by (rewrite map_length; auto). apply map_nth.
Qed.

Lemma normalise_ext a b u v : vec5 a -> vec5 b -> gf u -> gf v -> u <> 0 -> v <> 0 ->
  (forall i, gf_mul u (nth i a 0) = gf_mul v (nth i b 0)) -> normalise a = normalise b.
Proof.
  intros Ha Hb Hu Hv Nu Nv H.
  destruct (gf_inv_ok u Hu) as [Gu Iu]. specialize (Iu Nu).
  set (t := gf_mul (gf_inv u) v).
  assert (Gt : gf t) by (apply gf_mul_gf; auto).
  assert (Nt : t <> 0).
  { intros E. apply gf_mul_eq_0 in E; auto. destruct E as [E|E]; [|contradiction].
    rewrite E, gf_mul_0_l in Iu by auto. discriminate. }
  assert (E : forall i, nth i a 0 = gf_mul t (nth i b 0)).
  { intros i. pose proof (vec5_gf a i Ha). pose proof (vec5_gf b i Hb).
    unfold t. rewrite <- gf_mul_assoc by auto. rewrite <- H, gf_mul_assoc, Iu by auto.
    rewrite gf_mul_comm, gf_mul_1_r by (auto using gf_1). reflexivity. }
  assert (L : lead a = lead b).
  { apply lead_ext; [destruct Ha, Hb; congruence|]. intros i. rewrite E. split; intros Z0.
    - apply gf_mul_eq_0 in Z0; auto using vec5_gf. tauto.
    - rewrite Z0, gf_mul_0_r; auto. }
  unfold normalise. rewrite L. destruct (lead b) as [k|]; auto. f_equal.
  apply nth_ext with (d := 0) (d' := 0).
  { rewrite !map_length. destruct Ha, Hb; congruence. }
  intros i Hi. rewrite map_length in Hi.
  set (c1 := gf_inv (nth k a 0)). set (c2 := gf_inv (nth k b 0)).
  assert (G1 : gf c1) by (apply gf_inv_ok, vec5_gf; auto).
  assert (G2 : gf c2) by (apply gf_inv_ok, vec5_gf; auto).
  rewrite (nth_map_lt (mulT c1) a i 0 0 Hi).
  rewrite (nth_map_lt (mulT c2) b i 0 0) by (destruct Ha, Hb; congruence).
  pose proof (vec5_gf a i Ha). pose proof (vec5_gf b i Hb). pose proof (vec5_gf b k Hb).
  rewrite <- !mulT_ok by auto. rewrite E, gf_mul_assoc by auto. f_equal.
  unfold c1, c2. rewrite E. apply gf_inv_mul; auto.
Qed.

Lemma reduce_nth k h w i : vec5 h -> vec5 w -> (i < 5)%nat ->
  nth i (reduce k h w) 0 =
  Z.lxor (nth i w 0) (gf_mul (gf_mul (gf_inv (nth k h 0)) (nth k w 0)) (nth i h 0)).
Proof.
  intros Hh Hw Hi. unfold reduce.
  pose proof (vec5_gf h k Hh) as Gk. pose proof (vec5_gf w k Hw) as Gw.
  pose proof (proj1 (gf_inv_ok _ Gk)) as Gi.
  rewrite <- (mulT_ok _ _ Gi Gw). set (c := gf_mul (gf_inv (nth k h 0)) (nth k w 0)).
  assert (Gc : gf c) by (apply gf_mul_gf; auto).
  destruct Hh as [Lh Fh], Hw as [Lw Fw].
  set (f := fun ab : Z * Z => Z.lxor (snd ab) (mulT c (fst ab))).
  rewrite nth_indep with (d' := f (0, 0)) by (rewrite map_length, combine_length; lia).
  rewrite (map_nth f), combine_nth by congruence. unfold f. cbn [fst snd].
  rewrite mulT_ok; auto. apply vec5_gf. split; auto.
Qed.

Lemma reduce_vec5 k h w : vec5 h -> vec5 w -> vec5 (reduce k h w).
Proof.
  intros Hh Hw. pose proof Hh as [Lh Fh]. pose proof Hw as [Lw Fw].
  assert (L : length (reduce k h w) = 5%nat) by (unfold reduce; rewrite map_length, combine_length; lia).
  split; auto. apply Forall_forall. intros x Hx. apply In_nth with (d := 0) in Hx as (i & Hi & <-).
  rewrite L in Hi. rewrite reduce_nth by auto.
  apply gf_xor; [apply vec5_gf; auto|]. apply gf_mul_gf; [|apply vec5_gf; auto].
  apply gf_mul_gf; [|apply vec5_gf; auto]. apply gf_inv_ok, vec5_gf; auto.
Qed.

Lemma vec5_high l i : vec5 l -> (5 <= i)%nat -> nth i l 0 = 0.
Proof. intros [L _] H. apply nth_overflow. lia. Qed.

Lemma all_some_nth {A} (l : list (option A)) ns i d :
  all_some l = Some ns -> (i < length l)%nat -> nth i l None = Some (nth i ns d) /\ length ns = length l.
Proof.
  revert ns i; induction l as [|[a|] l IH]; intros ns i H Hi; cbn [all_some] in H; try discriminate.
  - simpl in Hi; lia.
  - destruct (all_some l) as [m|] eqn:E; [|discriminate]. inv H. cbn [length] in *.
    destruct i as [|i].
    + cbn [nth]. split; auto. destruct l as [|o l]; [inv E; reflexivity|].
      destruct (IH m 0%nat eq_refl ltac:(simpl; lia)) as [_ L]. congruence.
    + cbn [nth]. destruct (IH m i eq_refl ltac:(lia)) as [H L]. split; auto.
Qed.

Lemma distinct_nth l i j : distinct l = true -> (i < j < length l)%nat -> nth i l [] <> nth j l [].
Proof.
  revert i j; induction l as [|x l IH]; intros i j H Hij; [simpl in Hij; lia|].
  cbn [distinct] in H. apply andb_prop in H as [H1 H2]. apply negb_true_iff in H1.
  destruct j as [|j]; [lia|]. destruct i as [|i]; cbn [nth].
  - intros ->. assert (existsb (list_eqb (nth j l [])) l = true); [|congruence].
    apply existsb_exists. exists (nth j l []). split; [apply nth_In; simpl in Hij; lia|apply list_eqb_refl].
  - apply IH; auto. simpl in Hij. lia.
Qed.

Lemma indep_head h r : indep_check (h :: r) = true -> vec5 h -> Forall vec5 r ->
  (forall v, gf v -> (forall i, (i < 5)%nat -> gf_mul v (nth i h 0) = 0) -> v = 0) /\
  (forall b c v1 v2 v3, (b < c < length r)%nat -> gf v1 -> gf v2 -> gf v3 ->
     (forall i, (i < 5)%nat ->
        Z.lxor (gf_mul v1 (nth i h 0)) (Z.lxor (gf_mul v2 (nth i (nth b r []) 0)) (gf_mul v3 (nth i (nth c r []) 0))) = 0) ->
     v1 = 0 /\ v2 = 0 /\ v3 = 0) /\
  (forall b v1 v2, (b < length r)%nat -> gf v1 -> gf v2 ->
     (forall i, (i < 5)%nat -> Z.lxor (gf_mul v1 (nth i h 0)) (gf_mul v2 (nth i (nth b r []) 0)) = 0) ->
     v1 = 0 /\ v2 = 0).
Proof.
  intros H Hh Hr. cbn [indep_check] in H. apply andb_prop in H as [H _].
  destruct (lead h) as [k|] eqn:Ek; [|discriminate].
  destruct (all_some _) as [ns|] eqn:En; [|discriminate].
  apply lead_Some in Ek as (Nk & Lk & _). pose proof Hh as [Lh _]. rewrite Lh in Lk.
  assert (Single : forall v, gf v -> (forall i, (i < 5)%nat -> gf_mul v (nth i h 0) = 0) -> v = 0).
  { intros v Hv Hz. specialize (Hz k Lk). apply gf_mul_eq_0 in Hz; auto using vec5_gf. tauto. }
  assert (Hrn : forall b, (b < length r)%nat -> vec5 (nth b r [])).
  { intros b Hb. rewrite Forall_forall in Hr. apply Hr, nth_In, Hb. }
  assert (Hnz : forall b, (b < length r)%nat -> normalise (reduce k h (nth b r [])) = Some (nth b ns []) /\ length ns = length r).
  { intros b Hb. destruct (all_some_nth _ ns b [] En ltac:(rewrite map_length; auto)) as [E L].
    rewrite map_length in L. split; auto. rewrite <- E.
    rewrite nth_indep with (d' := normalise (reduce k h [])) by (rewrite map_length; auto).
    rewrite (map_nth (fun w => normalise (reduce k h w))). reflexivity. }
  (* the component along h *)
  pose proof (vec5_gf h k Hh) as Ghk. destruct (gf_inv_ok _ Ghk) as [Gi Ii]. specialize (Ii Nk).
  set (iv := gf_inv (nth k h 0)) in *.
  assert (Triple : forall b c v1 v2 v3, (b < length r)%nat -> (c < length r)%nat -> gf v1 -> gf v2 -> gf v3 ->
     (forall i, (i < 5)%nat ->
        Z.lxor (gf_mul v1 (nth i h 0)) (Z.lxor (gf_mul v2 (nth i (nth b r []) 0)) (gf_mul v3 (nth i (nth c r []) 0))) = 0) ->
     forall i, gf_mul v2 (nth i (reduce k h (nth b r [])) 0) = gf_mul v3 (nth i (reduce k h (nth c r [])) 0)).
  { intros b c v1 v2 v3 Hb Hc G1 G2 G3 Hz i.
    pose proof (Hrn b Hb) as Vb. pose proof (Hrn c Hc) as Vc.
    set (x := nth b r []) in *. set (y := nth c r []) in *.
    destruct (Nat.lt_ge_cases i 5) as [Li|Li].
    2:{ rewrite !vec5_high by (auto using reduce_vec5). rewrite !gf_mul_0_r; auto. }
    rewrite !reduce_nth by auto. fold iv.
    pose proof (vec5_gf x k Vb) as Gxk. pose proof (vec5_gf y k Vc) as Gyk.
    pose proof (vec5_gf x i Vb) as Gxi. pose proof (vec5_gf y i Vc) as Gyi.
    pose proof (vec5_gf h i Hh) as Ghi.
    assert (Gc2 : gf (gf_mul iv (nth k x 0))) by (apply gf_mul_gf; auto).
    assert (Gc3 : gf (gf_mul iv (nth k y 0))) by (apply gf_mul_gf; auto).
    rewrite !gf_mul_xor_r by (auto using gf_mul_gf).
    (* v1 = v2 * c2 + v3 * c3 *)
    assert (Ev1 : v1 = Z.lxor (gf_mul v2 (gf_mul iv (nth k x 0))) (gf_mul v3 (gf_mul iv (nth k y 0)))).
    { pose proof (Hz k Lk) as Z0. apply lxor_cancel in Z0.
      assert (E : gf_mul iv (gf_mul v1 (nth k h 0)) = v1).
      { rewrite (gf_mul_comm v1), gf_mul_assoc, Ii by auto. rewrite gf_mul_comm, gf_mul_1_r by (auto using gf_1). reflexivity. }
      rewrite <- E, Z0, gf_mul_xor_r by (auto using gf_mul_gf).
      f_equal; rewrite !gf_mul_assoc by auto; f_equal; apply gf_mul_comm; auto. }
    pose proof (Hz i Li) as Zi. rewrite Ev1 in Zi.
    rewrite gf_mul_xor_l in Zi by (auto using gf_mul_gf).
    rewrite (gf_mul_assoc v2 _ (nth i h 0)), (gf_mul_assoc v3 _ (nth i h 0)) by auto.
    set (A := gf_mul (gf_mul v2 (gf_mul iv (nth k x 0))) (nth i h 0)) in *.
    set (B := gf_mul (gf_mul v3 (gf_mul iv (nth k y 0))) (nth i h 0)) in *.
    set (C := gf_mul v2 (nth i x 0)) in *. set (D := gf_mul v3 (nth i y 0)) in *.
    apply lxor_cancel. rewrite <- Zi. rewrite (Z.lxor_comm C A), (Z.lxor_comm D B), lxor_swap. reflexivity. }
  (* a reduced vector is not zero *)
  assert (Nonzero : forall b v, (b < length r)%nat -> gf v ->
            (forall i, gf_mul v (nth i (reduce k h (nth b r [])) 0) = 0) -> v = 0).
  { intros b v Hb Gv Hz. destruct (Hnz b Hb) as [E _]. unfold normalise in E.
    destruct (lead (reduce k h (nth b r []))) as [j|] eqn:Ej; [|discriminate].
    apply lead_Some in Ej as (Nj & _). specialize (Hz j).
    apply gf_mul_eq_0 in Hz; auto; [tauto|]. apply vec5_gf. apply reduce_vec5; auto. }
  split; [exact Single|]. split.
  - intros b c v1 v2 v3 Hbc G1 G2 G3 Hz.
    pose proof (Triple b c v1 v2 v3 ltac:(lia) ltac:(lia) G1 G2 G3 Hz) as T.
    assert (H23 : v2 = 0 /\ v3 = 0).
    { destruct (Z.eq_dec v2 0) as [->|N2].
      - split; auto. apply (Nonzero c); auto; [lia|]. intros i. rewrite <- T. apply gf_mul_0_l.
        apply vec5_gf, reduce_vec5; auto. apply Hrn; lia.
      - destruct (Z.eq_dec v3 0) as [->|N3].
        + exfalso. apply N2. apply (Nonzero b); auto; [lia|]. intros i. rewrite T. apply gf_mul_0_l.
          apply vec5_gf, reduce_vec5; auto. apply Hrn; lia.
        + exfalso. destruct (Hnz b ltac:(lia)) as [Eb Ln]. destruct (Hnz c ltac:(lia)) as [Ec _].
          apply (distinct_nth ns b c H); [lia|].
          assert (E : normalise (reduce k h (nth b r [])) = normalise (reduce k h (nth c r []))).
          { apply (normalise_ext _ _ v2 v3); auto; apply reduce_vec5; auto; apply Hrn; lia. }
          congruence. }
    destruct H23 as [-> ->]. split; auto. apply Single; auto. intros i Hi. specialize (Hz i Hi).
    rewrite !gf_mul_0_l in Hz by (apply vec5_gf, Hrn; lia). rewrite !Z.lxor_0_r in Hz. auto.
  - intros b v1 v2 Hb G1 G2 Hz.
    assert (H2 : v2 = 0).
    { assert (T : forall i, gf_mul v2 (nth i (reduce k h (nth b r [])) 0) = gf_mul 0 (nth i (reduce k h (nth b r [])) 0)).
      { apply (Triple b b v1 v2 0); auto using gf_0. intros i Hi.
        rewrite (gf_mul_0_l (nth i (nth b r []) 0)) by (apply vec5_gf, Hrn; lia). rewrite Z.lxor_0_r. auto. }
      apply (Nonzero b); auto. intros i. rewrite T. apply gf_mul_0_l. apply vec5_gf, reduce_vec5; auto. }
    subst v2. split; auto. apply Single; auto. intros i Hi. specialize (Hz i Hi).
    rewrite !gf_mul_0_l in Hz by (apply vec5_gf, Hrn; lia). rewrite !Z.lxor_0_r in Hz. auto.
Qed.

Lemma indep_check_skipn a hs : indep_check hs = true -> indep_check (skipn a hs) = true.
Proof.
  revert hs; induction a as [|a IH]; intros [|h r] H; auto.
  cbn [skipn]. apply IH. cbn [indep_check] in H. apply andb_prop in H. tauto.
Qed.

Lemma hv_vec5 p : vec5 (hv p).
Proof. split; [reflexivity|]. unfold hv. repeat constructor; apply sym_gf. Qed.

Lemma hvs_skipn p : (1 <= p <= 87)%nat -> skipn (p - 1) hvs = hv p :: map hv (seq (S p) (87 - p)).
Proof.
  intros H. rewrite hvs_eq.
  assert (E : seq 1 87 = seq 1 (p - 1) ++ seq p (88 - p)).
  { replace 87%nat with ((p - 1) + (88 - p))%nat at 1 by lia. rewrite seq_app. f_equal. f_equal. lia. }
  rewrite E, map_app, skipn_app, skipn_all2 by (rewrite map_length, seq_length; lia).
  rewrite map_length, seq_length, Nat.sub_diag. cbn [skipn app].
  replace (88 - p)%nat with (S (87 - p)) by lia. reflexivity.
Qed.

Lemma hv_map_nth p n b : (b < n)%nat -> nth b (map hv (seq p n)) [] = hv (p + b).
Proof.
  intros H. rewrite nth_indep with (d' := hv 0) by (rewrite map_length, seq_length; auto).
  rewrite map_nth, seq_nth by auto. reflexivity.
Qed.

(** Coefficients 1..5 of x^p for at most three different exponents 1..87 are
    linearly independent over GF(32). *)
Lemma indep1 p v : (1 <= p <= 87)%nat -> gf v ->
  (forall i, (1 <= i <= 5)%nat -> gf_mul v (sym i (X p)) = 0) -> v = 0.
Proof.
  intros Hp Hv Hz. pose proof (indep_check_skipn (p - 1) hvs indep_check_ok) as C.
  rewrite hvs_skipn in C by auto.
  destruct (indep_head _ _ C (hv_vec5 p)) as (S1 & _).
  { apply Forall_forall. intros x Hx. apply in_map_iff in Hx as (q & <- & _). apply hv_vec5. }
  apply S1; auto. intros i Hi. rewrite hv_nth by auto. apply Hz. lia.
Qed.

Lemma indep2 p q v w : (1 <= p < q)%nat -> (q <= 87)%nat -> gf v -> gf w ->
  (forall i, (1 <= i <= 5)%nat -> Z.lxor (gf_mul v (sym i (X p))) (gf_mul w (sym i (X q))) = 0) -> v = 0 /\ w = 0.
Proof.
  intros Hp Hq Hv Hw Hz. pose proof (indep_check_skipn (p - 1) hvs indep_check_ok) as C.
  rewrite hvs_skipn in C by lia.
  destruct (indep_head _ _ C (hv_vec5 p)) as (_ & _ & S2).
  { apply Forall_forall. intros x Hx. apply in_map_iff in Hx as (q' & <- & _). apply hv_vec5. }
  apply (S2 (q - S p)%nat); auto.
  - rewrite map_length, seq_length. lia.
  - intros i Hi. rewrite hv_map_nth by lia. rewrite !hv_nth by auto.
    replace (S p + (q - S p))%nat with q by lia. apply Hz. lia.
Qed.

Lemma indep3 p q r u v w : (1 <= p < q)%nat -> (q < r <= 87)%nat -> gf u -> gf v -> gf w ->
  (forall i, (1 <= i <= 5)%nat ->
     Z.lxor (gf_mul u (sym i (X p))) (Z.lxor (gf_mul v (sym i (X q))) (gf_mul w (sym i (X r)))) = 0) ->
  u = 0 /\ v = 0 /\ w = 0.
Proof.
  intros Hp Hq Hu Hv Hw Hz. pose proof (indep_check_skipn (p - 1) hvs indep_check_ok) as C.
  rewrite hvs_skipn in C by lia.
  destruct (indep_head _ _ C (hv_vec5 p)) as (_ & S3 & _).
  { apply Forall_forall. intros x Hx. apply in_map_iff in Hx as (q' & <- & _). apply hv_vec5. }
  apply (S3 (q - S p)%nat (r - S p)%nat); auto.
  - rewrite map_length, seq_length. lia.
  - intros i Hi. rewrite !hv_map_nth by lia. rewrite !hv_nth by auto.
    replace (S p + (q - S p))%nat with q by lia. replace (S p + (r - S p))%nat with r by lia. apply Hz. lia.
Qed.

(** ** At most four errors are detected *)
Definition weight (e : list Z) : nat := length (filter (fun v => negb (v =? 0)) e).

Lemma weight_app a b : weight (a ++ b) = (weight a + weight b)%nat.
Proof. unfold weight. rewrite filter_app, app_length. reflexivity. Qed.

(** Positions (from the end) and values of the nonzero entries, highest first. *)
Fixpoint nz (e : list Z) : list (nat * Z) :=
  match e with
  | [] => []
  | v :: r => if v =? 0 then nz r else (length r, v) :: nz r
  end.

Lemma nz_weight e : length (nz e) = weight e.
Proof. unfold weight. induction e as [|v e IH]; auto. cbn [nz filter]. destruct (v =? 0); simpl; auto. Qed.

Lemma nz_sum i e : (i < 6)%nat -> Forall gf e ->
  err_sum i e = fold_right (fun pv s => Z.lxor (gf_mul (snd pv) (sym i (X (fst pv)))) s) 0 (nz e).
Proof.
  intros Hi. induction 1 as [|v e Hv He IH]; auto. cbn [err_sum nz]. destruct (v =? 0) eqn:E.
  - apply Z.eqb_eq in E. subst. rewrite gf_mul_0_l by apply sym_gf. rewrite Z.lxor_0_l. exact IH.
  - cbn [fold_right fst snd]. rewrite IH. reflexivity.
Qed.

Lemma nz_bound e p v : Forall gf e -> In (p, v) (nz e) -> (p < length e)%nat /\ gf v /\ v <> 0.
Proof.
  induction 1 as [|x e Hx He IH]; intros H; [contradiction|]. cbn [nz] in H. cbn [length].
  destruct (x =? 0) eqn:E.
  - destruct (IH H) as (H1 & H2). split; [lia|auto].
  - destruct H as [H|H].
    + inv H. repeat split; auto; try lia; apply Hx.
    + destruct (IH H) as (H1 & H2). split; [lia|auto].
Qed.

Lemma nz_sorted e : forall p v r, nz e = (p, v) :: r -> Forall (fun qw => (fst qw < p)%nat) r.
Proof.
  induction e as [|x e IH]; intros p v r H; [discriminate|]. cbn [nz] in H.
  destruct (x =? 0) eqn:E; [eauto|]. inv H.
  apply Forall_forall. intros [q w] Hq. cbn [fst].
  clear - Hq. revert Hq. induction e as [|y e IH]; [contradiction|]. cbn [nz length].
  destruct (y =? 0); intros H; [specialize (IH H); lia|]. destruct H as [H|H]; [inv H; lia|specialize (IH H); lia].
Qed.

Lemma nz_suffix_sorted e p v q w r :
  nz e = (p, v) :: (q, w) :: r -> Forall (fun z => (fst z < q)%nat) r.
Proof.
  revert p v; induction e as [|x e IH]; intros p v H; [discriminate|]. cbn [nz] in H.
  destruct (x =? 0) eqn:E; [eauto|]. injection H as _ _ H. eapply nz_sorted; eauto.
Qed.

Lemma X_0 i : (1 <= i)%nat -> sym i (X 0) = 0.
Proof.
  intros H. change (X 0) with (polymod_step 0 1). rewrite polymod_step_small by (unfold gf; lia).
  destruct i as [|i]; [lia|]. apply sym_small_S. unfold gf; lia.
Qed.

Lemma err_sum_app_0 i e x : gf x -> (1 <= i < 6)%nat -> Forall gf e ->
  err_sum i (e ++ [x]) = fold_right (fun pv s => Z.lxor (gf_mul (snd pv) (sym i (X (S (fst pv))))) s) 0 (nz e).
Proof.
  intros Hx Hi. induction 1 as [|v e Hv He IH].
  - cbn [app err_sum nz fold_right length]. rewrite X_0 by lia. rewrite gf_mul_0_r by auto. reflexivity.
  - cbn [app err_sum nz]. rewrite IH, app_length. cbn [length]. rewrite Nat.add_1_r.
    destruct (v =? 0) eqn:E.
    + apply Z.eqb_eq in E. subst. rewrite gf_mul_0_l by apply sym_gf. rewrite Z.lxor_0_l. reflexivity.
    + reflexivity.
Qed.

Lemma strip_zeros e : (1 <= weight e)%nat -> exists e1 x k, e = e1 ++ [x] ++ repeat 0 k /\ x <> 0.
Proof.
  induction e as [|v e IH] using rev_ind; intros H; [simpl in H; unfold weight in H; simpl in H; lia|].
  destruct (Z.eq_dec v 0) as [->|N].
  - rewrite weight_app in H. unfold weight in H at 2. simpl in H.
    destruct IH as (e1 & x & k & -> & Hx); [lia|]. exists e1, x, (S k). split; auto.
    rewrite <- !app_assoc. f_equal. f_equal. symmetry. apply repeat_cons.
  - exists e, v, 0%nat. split; auto.
Qed.

Theorem errors_detected e : Forall gf e -> (length e <= 88)%nat -> (1 <= weight e <= 4)%nat -> pm 0 e <> 0.
Proof.
  intros He Hl [Hw1 Hw4] H0.
  destruct (strip_zeros e Hw1) as (e1 & x & k & -> & Nx).
  apply Forall_app in He as [H1 He]. apply Forall_app in He as [Hx _]. inv Hx.
  rename H3 into Gx. clear H4.
  rewrite app_assoc, pm_app in H0. apply pm_zeros_inj in H0; [|apply pm_range; [lia|apply Forall_app; auto]].
  assert (Hw : (weight e1 <= 3)%nat).
  { rewrite !weight_app in Hw4. unfold weight at 2 in Hw4. simpl in Hw4.
    replace (x =? 0) with false in Hw4 by lia. simpl in Hw4. lia. }
  rewrite !app_length in Hl. cbn [length] in Hl.
  assert (Hs : forall i, (i < 6)%nat -> err_sum i (e1 ++ [x]) = 0).
  { intros i Hi. rewrite <- pm_err_sum by (auto; apply Forall_app; auto). rewrite H0. apply sym_0. }
  assert (Hz : forall i, (1 <= i <= 5)%nat ->
    fold_right (fun pv s => Z.lxor (gf_mul (snd pv) (sym i (X (S (fst pv))))) s) 0 (nz e1) = 0).
  { intros i Hi. rewrite <- (err_sum_app_0 i e1 x) by (auto; lia). apply Hs. lia. }
  pose proof (nz_weight e1) as Hn. rewrite <- Hn in Hw.
  destruct (nz e1) as [|[p1 v1] l1] eqn:E1.
  { (* a single error *)
    assert (Ez : e1 = repeat 0 (length e1)).
    { clear - E1. induction e1 as [|y e IH]; auto. cbn [nz] in E1. destruct (y =? 0) eqn:E; [|discriminate].
      apply Z.eqb_eq in E. subst. simpl. f_equal. auto. }
    pose proof (Hs 0%nat ltac:(lia)) as Z0. rewrite <- pm_err_sum in Z0 by (try lia; apply Forall_app; auto).
    rewrite Ez, pm_app in Z0.
    assert (Zz : forall n, pm 0 (repeat 0 n) = 0).
    { induction n as [|n IH]; [reflexivity|].
      change (pm 0 (repeat 0 (S n))) with (pm (polymod_step 0 0) (repeat 0 n)).
      rewrite polymod_step_small by (unfold gf; lia). exact IH. }
    rewrite Zz in Z0. unfold pm in Z0. cbn [fold_left] in Z0.
    rewrite polymod_step_small, sym_small_0 in Z0 by (auto; lia). lia. }
  assert (B : forall p v, In (p, v) (nz e1) -> (p < length e1)%nat /\ gf v /\ v <> 0) by (intros; apply nz_bound; auto).
  rewrite E1 in B. pose proof (nz_sorted e1 _ _ _ E1) as So1.
  destruct (B p1 v1 (or_introl eq_refl)) as (Bp1 & Gv1 & Nv1).
  destruct l1 as [|[p2 v2] l2].
  { apply Nv1. apply (indep1 (S p1)); auto; [lia|]. intros i Hi. specialize (Hz i Hi).
    cbn [fold_right fst snd] in Hz. rewrite Z.lxor_0_r in Hz. auto. }
  destruct (B p2 v2 (or_intror (or_introl eq_refl))) as (Bp2 & Gv2 & Nv2).
  pose proof (nz_suffix_sorted e1 _ _ _ _ _ E1) as So2. inv So1. cbn [fst] in *.
  destruct l2 as [|[p3 v3] l3].
  { destruct (indep2 (S p2) (S p1) v2 v1) as [A _]; auto; try lia.
    intros i Hi. specialize (Hz i Hi). cbn [fold_right fst snd] in Hz. rewrite Z.lxor_0_r in Hz.
    rewrite Z.lxor_comm. auto. }
  destruct (B p3 v3 (or_intror (or_intror (or_introl eq_refl)))) as (Bp3 & Gv3 & Nv3).
  inv So2. cbn [fst] in *.
  destruct l3; [|simpl in Hw; lia].
  destruct (indep3 (S p3) (S p2) (S p1) v3 v2 v1) as [A _]; auto; try lia.
  intros i Hi. specialize (Hz i Hi). cbn [fold_right fst snd] in Hz. rewrite Z.lxor_0_r in Hz.
  rewrite <- Hz, Z.lxor_comm, (Z.lxor_comm (gf_mul v2 _)), Z.lxor_assoc. reflexivity.
Qed.
