(** C89: coin selection and Python's recursion limit. *)
From Coq Require Import String Permutation.
From Verif Require Import F_select P_select M_depth.

Lemma bnb_enough bits overhead target fee rest : forall room selected ev s, (length rest < room)%nat ->
  branch_and_bound_in room bits overhead target fee rest selected ev s = Some (branch_and_bound bits overhead target fee rest selected ev s).
Proof.
  induction rest as [|u rest IH]; intros [|room] selected ev s L; cbn [length] in L; try lia; cbn [branch_and_bound_in branch_and_bound]; cbv zeta.
  - destruct (_ >? _); auto. destruct (_ >=? _); auto. destruct (_ <=? _); auto.
  - destruct (_ >? _); auto. destruct (_ >=? _); auto. destruct (_ <=? _); auto. destruct (bits _); rewrite IH by lia.
    + destruct (branch_and_bound _ _ _ _ rest (selected ++ [u]) _ _) as [[|v w] s']; [apply IH; lia|reflexivity].
    + destruct (branch_and_bound _ _ _ _ rest selected _ _) as [[|v w] s']; [apply IH; lia|reflexivity].
Qed.
(** All bits zero: the coins are left out one after the other. *)
Lemma bnb_deep overhead target fee : 0 < target + overhead -> 0 <= fee -> forall room rest s selected, (room <= length rest)%nat -> Z.of_nat room < tries s ->
  branch_and_bound_in room (fun _ => false) overhead target fee rest selected 0 s = None.
Proof.
  intros T F. induction room as [|room IH]; intros rest s selected L TR; [reflexivity|]. destruct rest as [|u rest]; [cbn in L; lia|].
  cbn [branch_and_bound_in]. cbv zeta. cbn [tries drawn].
  replace (0 >? 4 * (target + overhead + (148 * fee + 34 * fee))) with false by (symmetry; rewrite Z.gtb_ltb; apply Z.ltb_ge; lia).
  replace (0 >=? 4 * (target + overhead)) with false by (symmetry; rewrite Z.geb_leb; apply Z.leb_gt; lia).
  replace (tries s - 1 <=? 0) with false by lia. rewrite IH; auto; cbn [length tries] in *; lia.
Qed.
(** If all coins together are worth less than what is needed, no path is cut. *)
Definition worth (fee : Z) (l : list Unspent) : Z := total (map (fun u => 4 * u_amount u - fee * u_vsize u) l).
Lemma bnb_poor bits overhead target fee : 0 <= fee -> forall room rest s selected ev, (room <= length rest)%nat -> Z.of_nat room < tries s ->
  Forall (fun u => 0 <= 4 * u_amount u - fee * u_vsize u) rest -> ev + worth fee rest < 4 * (target + overhead) ->
  branch_and_bound_in room bits overhead target fee rest selected ev s = None.
Proof.
  intros F. induction room as [|room IH]; intros rest s selected ev L TR N P; [reflexivity|]. destruct rest as [|u rest]; [cbn in L; lia|].
  apply Forall_cons_iff in N as [N1 N2]. unfold worth in *. cbn [map total] in P.
  assert (0 <= total (map (fun u => 4 * u_amount u - fee * u_vsize u) rest)).
  { clear -N2. induction N2; cbn [map total]; lia. }
  cbn [branch_and_bound_in]. cbv zeta. cbn [tries drawn].
  replace (ev >? 4 * (target + overhead + (148 * fee + 34 * fee))) with false by (symmetry; rewrite Z.gtb_ltb; apply Z.ltb_ge; lia).
  replace (ev >=? 4 * (target + overhead)) with false by (symmetry; rewrite Z.geb_leb; apply Z.leb_gt; lia).
  replace (tries s - 1 <=? 0) with false by lia. cbn [length] in L. destruct (bits (drawn s)); rewrite IH; auto; cbn [tries] in *; lia.
Qed.

(** With room for one more call than there are coins, and always when the fee is
    absolute or all coins are combined, the limit plays no role: all theorems
    about select_coins hold. *)
Theorem C89_room room bits shuffle target fee outs min_change absolute consolidate unspents :
  (length unspents < room)%nat \/ absolute = true \/ consolidate = true ->
  select_coins_in room bits shuffle target fee outs min_change absolute consolidate unspents =
  Some (select_coins bits shuffle target fee outs min_change absolute consolidate unspents).
Proof.
  intros H. unfold select_coins_in, select_coins. cbv zeta. destruct (negb consolidate && negb absolute) eqn:B; [|reflexivity].
  rewrite bnb_enough.
  - cbn [option_map]. destruct (fst _); reflexivity.
  - rewrite sort_length. destruct H as [H|[H|H]]; [exact H| |]; rewrite H, ?andb_false_r in B; discriminate.
Qed.
(** With more coins, sending any amount at a rate fails if random bits fall so,
    however much the coins hold. *)
Definition RateOk (target fee : Z) (outs : list Z) : Prop := 0 < target /\ 0 <= fee /\ Forall (fun z => 0 <= z) outs.
Lemma overhead_pos outs : Forall (fun z => 0 <= z) outs -> 0 <= zsum (removelast outs).
Proof.
  intros F. rewrite zsum_total. induction F as [|z outs Z F IH]; cbn; [lia|]. destruct outs; [cbn; lia|]. change (0 <= z + total (removelast (z0 :: outs))). lia.
Qed.
Theorem C89_many_coins room shuffle target fee outs min_change unspents :
  RateOk target fee outs -> (room <= length unspents)%nat -> Z.of_nat room < 1000000 ->
  exists bits, select_coins_in room bits shuffle target fee outs min_change false false unspents = None.
Proof.
  intros (T & F & O) L R. exists (fun _ => false). unfold select_coins_in. cbn [negb andb]. cbv zeta. rewrite bnb_deep; auto.
  - assert (0 <= (8 + zsum (removelast outs) + 1) * fee) by (pose proof (overhead_pos _ O); apply Z.mul_nonneg_nonneg; lia). lia.
  - rewrite sort_length. exact L.
Qed.
(** If the coins do not suffice it fails so for all random bits, and not with
    InsufficientFunds. *)
Theorem C89_poor room bits shuffle target fee outs min_change unspents :
  RateOk target fee outs -> (room <= length unspents)%nat -> Z.of_nat room < 1000000 ->
  Forall (fun u => fee * u_vsize u <= 4 * u_amount u) unspents -> amounts unspents < target ->
  Forall (fun u => 0 <= u_vsize u) unspents ->
  select_coins_in room bits shuffle target fee outs min_change false false unspents = None.
Proof.
  intros (T & F & O) L R N P V. unfold select_coins_in. cbn [negb andb]. cbv zeta. rewrite bnb_poor; auto.
  - rewrite sort_length. exact L.
  - apply Forall_forall. intros u Hu. apply (Permutation_in _ (sort_perm _)) in Hu. rewrite Forall_forall in N. specialize (N u Hu). lia.
  - assert (0 <= (8 + zsum (removelast outs) + 1) * fee) by (pose proof (overhead_pos _ O); apply Z.mul_nonneg_nonneg; lia).
    assert (W : worth fee (sort_coins unspents) <= 4 * amounts unspents).
    { assert (Q : worth fee (sort_coins unspents) = worth fee unspents).
      { unfold worth. pose proof (Permutation_map (fun u => 4 * u_amount u - fee * u_vsize u) (sort_perm unspents)) as PM. clear -PM. induction PM; cbn; lia. }
      rewrite Q. unfold worth, amounts. clear -V F. induction V as [|u l Hu V IH]; cbn [map total]; [lia|]. pose proof (Z.mul_nonneg_nonneg _ _ F Hu). lia. }
    lia.
Qed.
(** So one cannot rely on it that enough coins are enough (C39). *)
Definition full_purse (n : nat) : list Unspent := map (fun i => new_unspent 100000 1 [] [] (Z.of_nat i) (str "p2pkh") None None 4294967295) (seq 0 n).
Theorem C89_refuted : ~ (forall bits shuffle unspents, Shuffle shuffle ->
  amounts unspents >= 90000000 -> select_coins_in 1000 bits shuffle 1000000 1 [34; 34] 0 false false unspents <> None).
Proof.
  intros H. destruct (C89_many_coins 1000 (fun l => l) 1000000 1 [34; 34] 0 (full_purse 1000)) as (bits & E).
  - split; [lia|]. split; [lia|]. repeat constructor; lia.
  - unfold full_purse. rewrite map_length, seq_length. apply le_n.
  - reflexivity.
  - apply (H bits (fun l => l) (full_purse 1000)); auto.
    + intros l. apply Permutation_refl.
    + unfold amounts. assert (Q : forall n, total (map u_amount (full_purse n)) = 100000 * Z.of_nat n).
      { intros n. unfold full_purse. rewrite map_map. cbn [u_amount new_unspent]. generalize 0%nat. induction n as [|n IH]; intros a; [reflexivity|]. cbn [seq map total]. rewrite IH. lia. }
      rewrite Q. lia.
Qed.
Print Assumptions C89_room.
Print Assumptions C89_many_coins.
Print Assumptions C89_poor.
Print Assumptions C89_refuted.

(** ** Examples *)
Example C89_room_case : exists sel r, select_coins_in 4 (fun _ => true) (fun l => l) 150000 1 [34; 34] 0 false false (full_purse 3) = Some (Ok (sel, r)) /\ length sel = 2%nat.
Proof. eexists _, _. vm_compute. split; reflexivity. Qed.
Example C89_many_case : select_coins_in 3 (fun _ => false) (fun l => l) 150000 1 [34; 34] 0 false false (full_purse 3) = None /\
  exists sel r, select_coins (fun _ => false) (fun l => l) 150000 1 [34; 34] 0 false false (full_purse 3) = Ok (sel, r).
Proof. split; [vm_compute; reflexivity|]. eexists _, _. vm_compute. reflexivity. Qed.
Example C89_poor_hypotheses : RateOk 400000 1 [34; 34] /\ Forall (fun u => 1 * u_vsize u <= 4 * u_amount u) (full_purse 3) /\ amounts (full_purse 3) < 400000 /\
  Forall (fun u => 0 <= u_vsize u) (full_purse 3).
Proof. split; [split; [lia|]; split; [lia|]; repeat constructor; lia|]. split; [repeat constructor; vm_compute; discriminate|]. split; [vm_compute; reflexivity|]. repeat constructor; vm_compute; discriminate. Qed.
