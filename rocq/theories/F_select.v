(** Fee estimation and coin selection. *)
From Coq Require Import Permutation.
From Verif Require Export F_utils M_select S_Fee.

Lemma zsum_acc l a : fold_left Z.add l a = a + total l.
Proof. revert a. induction l as [|x l IH]; intros a; cbn [fold_left total]; [lia|]. rewrite IH. lia. Qed.
Lemma zsum_total l : zsum l = total l.
Proof. unfold zsum. rewrite zsum_acc. lia. Qed.
Lemma total_app a b : total (a ++ b) = total a + total b.
Proof. induction a as [|x a IH]; cbn [app total]; lia. Qed.
Lemma total_perm a b : Permutation a b -> total a = total b.
Proof. induction 1; cbn [total]; lia. Qed.

Lemma ceil4_spec x : x <= 4 * ceil4 x /\ 4 * (ceil4 x - 1) < x.
Proof. unfold ceil4. zdm. lia. Qed.
Lemma ceil4_unique x s : x <= 4 * s -> 4 * (s - 1) < x -> s = ceil4 x.
Proof. intros. pose proof (ceil4_spec x). lia. Qed.
Lemma ceil4_mono x y : x <= y -> ceil4 x <= ceil4 y.
Proof. intros. pose proof (ceil4_spec x). pose proof (ceil4_spec y). lia. Qed.

Lemma count_bytes n : 0 <= n -> CountBytes n (Z.of_nat (unknown_len n)).
Proof.
  intros H. split; [pose proof (unknown_len_pos n); lia|]. split; [apply unknown_len_upper; auto|].
  destruct (Z.eq_dec n 0) as [->|Hn]; [left; reflexivity|]. right. apply unknown_len_lower. lia.
Qed.
Lemma CountBytes_fun n k k' : 0 <= n -> CountBytes n k -> CountBytes n k' -> k = k'.
Proof.
  intros Hn (A & B & C) (A' & B' & C').
  assert (G : forall k k', 1 <= k -> n < 256 ^ k -> (k' = 1 \/ 256 ^ (k' - 1) <= n) -> k' <= k \/ k' = 1).
  { intros p q Hp Hlt [->|Hq]; auto. left. destruct (Z_le_gt_dec q p); auto.
    pose proof (Z.pow_le_mono_r 256 p (q - 1) ltac:(lia) ltac:(lia)). lia. }
  destruct (G k k' A B C'), (G k' k A' B' C); lia.
Qed.
Lemma CountBytes_mono n n' k k' : n <= n' -> CountBytes n k -> CountBytes n' k' -> k <= k'.
Proof.
  intros Hn (A & B & C) (A' & B' & C'). destruct C as [->|C]; [lia|].
  destruct (Z_le_gt_dec k k'); auto. pose proof (Z.pow_le_mono_r 256 k' (k - 1) ltac:(lia) ltac:(lia)). lia.
Qed.

Lemma estimate_ok in4 n_in out n_out rate sw : 0 <= n_in -> 0 <= n_out ->
  estimate_tx_fee in4 n_in out n_out rate sw =
  Ok (rate * ceil4 (in4 + 4 * (Z.of_nat (unknown_len n_in) + out + Z.of_nat (unknown_len n_out) + 8) + (if sw then 2 else 0))).
Proof.
  intros Hi Ho. unfold estimate_tx_fee. dif E; [f_equal; lia|].
  rewrite !int_to_unknown_bytes_le_ok by auto. cbn [bind]. unfold zlen. rewrite !le_bytes_length. f_equal.
  rewrite Z.mul_comm. do 2 f_equal. lia.
Qed.

Definition est_fee (ins4 outs : list Z) (rate : Z) (sw : bool) : Z :=
  rate * ceil4 (total ins4 + 4 * (Z.of_nat (unknown_len (zlen ins4)) + total outs + Z.of_nat (unknown_len (zlen outs)) + 8)
                + (if sw then 2 else 0)).
Lemma est_fee_size ins4 outs rate sw : exists s, EstimatedSize ins4 outs sw s /\ est_fee ins4 outs rate sw = rate * s.
Proof.
  eexists. split; [|reflexivity]. exists (Z.of_nat (unknown_len (zlen ins4))), (Z.of_nat (unknown_len (zlen outs))).
  split; [apply count_bytes; unfold zlen; lia|]. split; [apply count_bytes; unfold zlen; lia|].
  apply ceil4_spec.
Qed.
Lemma EstimatedSize_fun ins4 outs sw s s' : EstimatedSize ins4 outs sw s -> EstimatedSize ins4 outs sw s' -> s = s'.
Proof.
  intros (ki & ko & A & B & C & D) (ki' & ko' & A' & B' & C' & D').
  rewrite (CountBytes_fun _ _ _ (Zle_0_nat _) A A') in *. rewrite (CountBytes_fun _ _ _ (Zle_0_nat _) B B') in *.
  cbv zeta in *. lia.
Qed.

(** ** Sorting *)
Lemma insert_perm u l : Permutation (insert_coin u l) (u :: l).
Proof.
  induction l as [|v l IH]; cbn [insert_coin]; auto. destruct (_ <=? _); auto.
  rewrite IH. apply perm_swap.
Qed.
Lemma sort_perm l : Permutation (sort_coins l) l.
Proof. induction l as [|u l IH]; cbn [sort_coins fold_right]; auto. rewrite insert_perm. constructor. exact IH. Qed.
Lemma sort_length l : length (sort_coins l) = length l.
Proof. apply Permutation_length, sort_perm. Qed.

(** ** Branch and bound *)
Inductive Sublist {A} : list A -> list A -> Prop :=
| sub_nil : Sublist [] []
| sub_take a l m : Sublist l m -> Sublist (a :: l) (a :: m)
| sub_skip a l m : Sublist l m -> Sublist l (a :: m).
Lemma Sublist_nil {A} (l : list A) : Sublist [] l.
Proof. induction l; constructor; auto. Qed.
Lemma Sublist_perm {A} (l m : list A) : Sublist l m -> exists r, Permutation (l ++ r) m.
Proof.
  induction 1 as [|a l m S (r & P)|a l m S (r & P)]; [exists []; auto| |].
  - exists r. cbn. constructor. auto.
  - exists (a :: r). rewrite <- P. symmetry. apply Permutation_middle.
Qed.
Lemma Sublist_of_perm {A} (l r m : list A) : Permutation (l ++ r) m -> exists l', Sublist l' m /\ Permutation l l'.
Proof.
  revert l r. induction m as [|a m IH]; intros l r P.
  - apply Permutation_sym, Permutation_nil in P. apply app_eq_nil in P as [-> ->]. exists []. split; constructor.
  - assert (Hin : In a (l ++ r)) by (eapply Permutation_in; [symmetry; exact P|left; auto]).
    apply in_app_or in Hin as [H|H]; apply in_split in H as (p & q & ->).
    + assert (Q : Permutation ((p ++ q) ++ r) m).
      { apply Permutation_cons_inv with a. rewrite <- P, <- !app_assoc. cbn. apply Permutation_middle. }
      destruct (IH _ _ Q) as (l' & S & PL). exists (a :: l'). split; [constructor; auto|].
      rewrite <- PL. symmetry. apply Permutation_middle.
    + assert (Q : Permutation (l ++ p ++ q) m).
      { apply Permutation_cons_inv with a. rewrite <- P. rewrite !app_assoc. apply Permutation_middle. }
      destruct (IH _ _ Q) as (l' & S & PL). exists l'. split; auto. constructor; auto.
Qed.

Definition eff (fee : Z) (u : Unspent) : Z := 4 * u_amount u - fee * u_vsize u.
Definition effs (fee : Z) (l : list Unspent) : Z := total (map (eff fee) l).
Lemma effs_app fee a b : effs fee (a ++ b) = effs fee a + effs fee b.
Proof. unfold effs. rewrite map_app, total_app. reflexivity. Qed.
Lemma effs_split fee l : effs fee l = 4 * total (map u_amount l) - fee * total (map u_vsize l).
Proof. unfold effs. induction l as [|u l IH]; cbn [map total]; [lia|]. rewrite IH. unfold eff. lia. Qed.

Definition window (overhead target fee e : Z) : Prop :=
  4 * (target + overhead) <= e <= 4 * (target + overhead + (148 * fee + 34 * fee)).

Lemma bnb_sound bits overhead target fee rest : forall selected e s sel s',
  branch_and_bound bits overhead target fee rest selected e s = (sel, s') -> sel <> [] ->
  exists l, Sublist l rest /\ sel = selected ++ l /\ window overhead target fee (e + effs fee l).
Proof.
  induction rest as [|u rest IH]; intros selected e s sel s' H NE; cbn [branch_and_bound] in H.
  - destruct (e >? _) eqn:E1; [inversion H; subst; contradiction|].
    destruct (e >=? _) eqn:E2.
    + inversion H; subst. exists []. split; [constructor|]. rewrite app_nil_r. split; auto. unfold window, effs. cbn [map total]. lia.
    + destruct (tries _ <=? 0); inversion H; subst; contradiction.
  - destruct (e >? _) eqn:E1; [inversion H; subst; contradiction|].
    destruct (e >=? _) eqn:E2.
    { inversion H; subst. exists []. split; [apply Sublist_nil|]. rewrite app_nil_r. split; auto. unfold window, effs. cbn [map total]. lia. }
    destruct (tries _ <=? 0); [inversion H; subst; contradiction|].
    assert (A : forall x y z, branch_and_bound bits overhead target fee rest (selected ++ [u]) (e + 4 * u_amount u - fee * u_vsize u) x = (y, z) ->
      y <> [] -> exists l, Sublist l (u :: rest) /\ y = selected ++ l /\ window overhead target fee (e + effs fee l)).
    { intros x y z Hb Hy. destruct (IH _ _ _ _ _ Hb Hy) as (l & S & E & W). exists (u :: l). split; [constructor; auto|].
      split; [rewrite E, <- app_assoc; reflexivity|]. unfold effs in *. cbn [map total]. unfold eff at 1.
      replace (e + _) with (e + 4 * u_amount u - fee * u_vsize u + total (map (eff fee) l)) by lia. exact W. }
    assert (B : forall x y z, branch_and_bound bits overhead target fee rest selected e x = (y, z) ->
      y <> [] -> exists l, Sublist l (u :: rest) /\ y = selected ++ l /\ window overhead target fee (e + effs fee l)).
    { intros x y z Hb Hy. destruct (IH _ _ _ _ _ Hb Hy) as (l & S & E & W). exists l. split; [constructor; auto|]. auto. }
    destruct (bits _).
    + destruct (branch_and_bound _ _ _ _ _ (selected ++ [u]) _ _) as [w s1] eqn:Ew. destruct w as [|w0 w].
      * eapply B; eauto.
      * inversion H; subst. eapply A; eauto.
    + destruct (branch_and_bound _ _ _ _ _ selected _ _) as [w s1] eqn:Ew. destruct w as [|w0 w].
      * eapply A; eauto.
      * inversion H; subst. eapply B; eauto.
Qed.

(** Tries used are bounded by the size of the tree. *)
Lemma bnb_tries bits overhead target fee rest : forall selected e s sel s',
  branch_and_bound bits overhead target fee rest selected e s = (sel, s') ->
  tries s - (2 ^ (zlen rest + 1) - 1) <= tries s'.
Proof.
  induction rest as [|u rest IH]; intros selected e s sel s' H; cbn [branch_and_bound] in H.
  - change (2 ^ (zlen (@nil Unspent) + 1)) with 2.
    destruct (e >? _); [inversion H; subst; cbn [tries]; lia|]. destruct (e >=? _); [inversion H; subst; cbn [tries]; lia|].
    destruct (tries _ <=? 0); inversion H; subst; cbn [tries]; lia.
  - assert (P : 2 ^ (zlen (u :: rest) + 1) = 2 * 2 ^ (zlen rest + 1)).
    { unfold zlen. cbn [length]. rewrite <- Z.pow_succ_r by lia. f_equal. lia. }
    assert (Q : 1 <= 2 ^ (zlen rest + 1)) by (pose proof (Z.pow_pos_nonneg 2 (zlen rest + 1) ltac:(lia) ltac:(unfold zlen; lia)); lia).
    rewrite P. destruct (e >? _); [inversion H; subst; cbn [tries]; lia|]. destruct (e >=? _); [inversion H; subst; cbn [tries]; lia|].
    destruct (tries _ <=? 0); [inversion H; subst; cbn [tries]; lia|].
    destruct (bits _).
    + destruct (branch_and_bound _ _ _ _ _ (selected ++ [u]) _ _) as [w s1] eqn:Ew. pose proof (IH _ _ _ _ _ Ew) as I1. cbn [tries] in I1.
      destruct w as [|w0 w].
      * pose proof (IH _ _ _ _ _ H). lia.
      * inversion H; subst. lia.
    + destruct (branch_and_bound _ _ _ _ _ selected _ _) as [w s1] eqn:Ew. pose proof (IH _ _ _ _ _ Ew) as I1. cbn [tries] in I1.
      destruct w as [|w0 w].
      * pose proof (IH _ _ _ _ _ H). lia.
      * inversion H; subst. lia.
Qed.

Lemma effs_nonneg fee l : (forall u, In u l -> 0 <= eff fee u) -> 0 <= effs fee l.
Proof.
  unfold effs. induction l as [|u l IH]; intros H; cbn [map total]; [lia|].
  pose proof (H u (or_introl eq_refl)). assert (0 <= total (map (eff fee) l)) by (apply IH; intros; apply H; right; auto). lia.
Qed.
Lemma Sublist_in {A} (l m : list A) x : Sublist l m -> In x l -> In x m.
Proof. induction 1 as [|a l m S IH|a l m S IH]; intros Hx; auto. - destruct Hx; [left|right]; auto. - right; auto. Qed.

Lemma bnb_complete bits overhead target fee rest : 0 < target + overhead -> 
  forall selected e s l,
  (forall u, In u rest -> 0 <= eff fee u) ->
  Sublist l rest -> window overhead target fee (e + effs fee l) ->
  (selected = [] -> e = 0) ->
  2 ^ (zlen rest + 1) - 1 < tries s ->
  exists c r s', branch_and_bound bits overhead target fee rest selected e s = (c :: r, s').
Proof.
  intros TP. induction rest as [|u rest IH]; intros selected e s l NN SUB W SE TR; cbn [branch_and_bound].
  - inversion SUB; subst. unfold effs in W. cbn [map total] in W. unfold window in W.
    destruct (e >? _) eqn:E1; [lia|]. destruct (e >=? _) eqn:E2; [|lia].
    destruct selected as [|c r]; [specialize (SE eq_refl); lia|eauto].
  - assert (EL : 0 <= effs fee l) by (apply effs_nonneg; intros v Hv; apply NN; eapply Sublist_in; eauto).
    destruct (e >? _) eqn:E1; [unfold window in W; lia|].
    destruct (e >=? _) eqn:E2. { destruct selected as [|c r]; [specialize (SE eq_refl); lia|eauto]. }
    assert (P : 2 ^ (zlen (u :: rest) + 1) = 2 * 2 ^ (zlen rest + 1)).
    { unfold zlen. cbn [length]. rewrite <- Z.pow_succ_r by lia. f_equal. lia. }
    assert (Q : 1 <= 2 ^ (zlen rest + 1)) by (pose proof (Z.pow_pos_nonneg 2 (zlen rest + 1) ltac:(lia) ltac:(unfold zlen; lia)); lia).
    rewrite P in TR. destruct (tries _ <=? 0) eqn:E3; [cbn [tries] in E3; lia|].
    assert (NN' : forall v, In v rest -> 0 <= eff fee v) by (intros; apply NN; right; auto).
    assert (CASES : (exists l', Sublist l' rest /\ window overhead target fee (e + 4 * u_amount u - fee * u_vsize u + effs fee l'))
                 \/ Sublist l rest).
    { inversion SUB as [|? l' ? S'|? ? ? S']; subst; [left|right; auto]. exists l'. split; auto.
      unfold effs in *. cbn [map total] in W. unfold eff in W at 1.
      replace (e + 4 * u_amount u - fee * u_vsize u + total (map (eff fee) l')) with (e + (4 * u_amount u - fee * u_vsize u + total (map (eff fee) l'))) by lia. exact W. }
    assert (NS : selected ++ [u] = [] -> e + 4 * u_amount u - fee * u_vsize u = 0) by (intros C; apply app_eq_nil in C as [_ C]; discriminate).
    destruct (bits _).
    + destruct (branch_and_bound _ _ _ _ _ (selected ++ [u]) _ _) as [w s1] eqn:Ew.
      pose proof (bnb_tries _ _ _ _ _ _ _ _ _ _ Ew) as T1. cbn [tries] in T1.
      destruct w as [|w0 w]; [|eauto].
      destruct CASES as [(l' & S' & W')|S'].
      * destruct (IH (selected ++ [u]) _ (mkB (tries (mkB (tries s - 1) (drawn s))) (Datatypes.S (drawn (mkB (tries s - 1) (drawn s))))) l' NN' S' W' NS) as (c & r & s' & E); [cbn [tries]; lia|].
        rewrite Ew in E. discriminate.
      * apply (IH selected e s1 l); auto. lia.
    + destruct (branch_and_bound _ _ _ _ _ selected _ _) as [w s1] eqn:Ew.
      pose proof (bnb_tries _ _ _ _ _ _ _ _ _ _ Ew) as T1. cbn [tries] in T1.
      destruct w as [|w0 w]; [|eauto].
      destruct CASES as [(l' & S' & W')|S'].
      * apply (IH (selected ++ [u]) _ s1 l'); auto. lia.
      * destruct (IH selected e (mkB (tries (mkB (tries s - 1) (drawn s))) (Datatypes.S (drawn (mkB (tries s - 1) (drawn s))))) l NN' S' W SE) as (c & r & s' & E); [cbn [tries]; lia|].
        rewrite Ew in E. discriminate.
Qed.

(** ** Drawing coins *)
Definition coin_fee (absolute : bool) (fee : Z) (outs : list Z) (sel : list Unspent) : Z :=
  if absolute then fee else est_fee (map u_vsize sel) outs fee (existsb u_is_segwit sel).

Lemma draw_step target fee outs mc ab cons u rest sel ef :
  draw target fee outs mc ab cons (u :: rest) sel ef =
  (let sel := sel ++ [u] in
   let remaining := total (map u_amount sel) - target - coin_fee ab fee outs sel in
   if (remaining >=? mc) && (negb cons || (zlen rest =? 0)) then Ok (sel, remaining)
   else draw target fee outs mc ab cons rest sel (Some (coin_fee ab fee outs sel))).
Proof.
  cbn [draw]. rewrite estimate_ok by (unfold zlen; lia). cbn [bind]. rewrite !zsum_total.
  unfold coin_fee, est_fee. replace (zlen (map u_vsize (sel ++ [u]))) with (zlen (sel ++ [u])) by (unfold zlen; rewrite map_length; reflexivity).
  reflexivity.
Qed.

Lemma draw_spec target fee outs mc ab cons l : forall sel ef res,
  draw target fee outs mc ab cons l sel ef = res ->
  match res with
  | Ok (s, rem) => exists p q, l = p ++ q /\ p <> [] /\ s = sel ++ p /\ (cons = true -> q = []) /\
      total (map u_amount s) = target + coin_fee ab fee outs s + rem /\ mc <= rem
  | Raise e => (e = InsufficientFunds \/ (e = UnboundLocalError /\ l = [] /\ ef = None)) /\
      (l <> [] -> total (map u_amount (sel ++ l)) < target + coin_fee ab fee outs (sel ++ l) + mc)
  end.
Proof.
  induction l as [|u l IH]; intros sel ef res H.
  - cbn [draw] in H. subst res. destruct ef; split; try contradiction; auto.
  - rewrite draw_step in H. cbv zeta in H.
    destruct (_ >=? mc) eqn:E1; cbn [andb] in H.
    + destruct (negb cons || (zlen l =? 0)) eqn:E2.
      * subst res. exists [u], l. split; auto. split; [discriminate|]. split; auto. split; [|lia].
        intros ->. cbn in E2. destruct l; [auto|]. unfold zlen in E2. simpl in E2. lia.
      * pose proof (IH _ _ _ H) as I. destruct res as [[s rem]|e].
        -- destruct I as (p & q & -> & Hp & -> & Hq & Hs). exists (u :: p), q. split; auto. split; [discriminate|].
           split; [rewrite <- app_assoc; reflexivity|]. split; auto.
        -- destruct I as [I1 I2]. split; [destruct I1 as [I1|(_ & _ & C)]; [auto|discriminate]|].
           intros _. rewrite <- app_assoc in I2. cbn [app] in I2. apply I2. intros ->.
           apply orb_false_elim in E2 as [_ E2]. discriminate.
    + pose proof (IH _ _ _ H) as I. destruct res as [[s rem]|e].
      * destruct I as (p & q & -> & Hp & -> & Hq & Hs). exists (u :: p), q. split; auto. split; [discriminate|].
        split; [rewrite <- app_assoc; reflexivity|]. split; auto.
      * destruct I as [I1 I2]. split; [destruct I1 as [I1|(_ & _ & C)]; [auto|discriminate]|].
        intros _. rewrite <- app_assoc in I2. cbn [app] in I2. destruct l as [|v l]; [lia|]. apply I2. discriminate.
Qed.

(** The outcome of select_coins. *)
Lemma select_spec bits shuffle target fee outs mc ab cons unspents :
  (forall l, Permutation (shuffle l) l) ->
  let ov := (8 + total (removelast outs) + 1) * fee in
  (exists c r, select_coins bits shuffle target fee outs mc ab cons unspents = Ok (c :: r, 0) /\
     cons = false /\ ab = false /\ Sublist (c :: r) (sort_coins unspents) /\ window ov target fee (effs fee (c :: r)))
  \/ (exists l, select_coins bits shuffle target fee outs mc ab cons unspents = draw target fee outs mc ab cons l [] None /\
        (cons = true -> l = unspents) /\ Permutation l unspents /\
        (cons = false -> ab = false -> fst (branch_and_bound bits ov target fee (sort_coins unspents) [] 0 (mkB BNB_TRIES 0)) = [])).
Proof.
  intros HS ov. unfold select_coins. rewrite zsum_total. fold ov.
  destruct (negb cons && negb ab) eqn:E.
  - apply andb_true_iff in E as [E1 E2]. apply negb_true_iff in E1, E2. subst.
    destruct (branch_and_bound bits ov target fee (sort_coins unspents) [] 0 (mkB BNB_TRIES 0)) as [sel s'] eqn:B.
    cbn [fst]. destruct sel as [|c r].
    + right. exists (shuffle unspents). repeat split; auto; discriminate.
    + left. exists c, r. split; auto. split; auto. split; auto.
      destruct (bnb_sound _ _ _ _ _ _ _ _ _ _ B ltac:(discriminate)) as (l & S & El & W). cbn [app] in El. subst l.
      split; auto.
  - right. exists (if cons then unspents else shuffle unspents). split; auto.
    split; [intros ->; auto|]. split; [destruct cons; auto|]. intros -> ->. discriminate.
Qed.

Lemma removelast_firstn {A} (l : list A) : removelast l = firstn (length l - 1) l.
Proof. rewrite removelast_firstn_len. f_equal. lia. Qed.

Lemma window_changeless target fee outs l :
  window ((8 + total (removelast outs) + 1) * fee) target fee (effs fee l) <->
  Changeless target fee outs (map (fun u => (u_amount u, u_vsize u)) l).
Proof.
  unfold window, Changeless, all_but_last. rewrite effs_split, <- removelast_firstn, !map_map. cbn [fst snd].
  change (map (fun x => u_amount x) l) with (map u_amount l). change (map (fun x => u_vsize x) l) with (map u_vsize l).
  generalize (total (map u_amount l)) as A, (total (map u_vsize l)) as V, (total (removelast outs)) as O.
  intros. split; intros; nia.
Qed.

Lemma existsb_perm {A} (f : A -> bool) l m : Permutation l m -> existsb f l = existsb f m.
Proof.
  induction 1; cbn [existsb]; auto; try congruence. destruct (f x), (f y); auto.
Qed.
Lemma coin_fee_perm ab fee outs l m : Permutation l m -> coin_fee ab fee outs l = coin_fee ab fee outs m.
Proof.
  intros P. unfold coin_fee, est_fee. rewrite (existsb_perm _ _ _ P), (total_perm _ _ (Permutation_map u_vsize P)).
  unfold zlen. rewrite !map_length, (Permutation_length P). reflexivity.
Qed.
Lemma coin_fee_spec ab fee outs sel : exists s,
  EstimatedSize (map u_vsize sel) outs (existsb u_is_segwit sel) s /\
  coin_fee ab fee outs sel = if ab then fee else fee * s.
Proof.
  destruct (est_fee_size (map u_vsize sel) outs fee (existsb u_is_segwit sel)) as (s & H & E).
  exists s. split; auto. unfold coin_fee. destruct ab; auto.
Qed.

(** ** Exhausting the search *)
Lemma bnb_exhaust overhead target fee rest : forall selected e s,
  (forall u, In u rest -> 0 <= eff fee u) -> 0 <= fee ->
  e + effs fee rest < 4 * (target + overhead) ->
  exists s', branch_and_bound (fun _ => false) overhead target fee rest selected e s = ([], s') /\
    tries s' <= Z.max (tries s - (2 ^ (zlen rest + 1) - 1)) 0.
Proof.
  induction rest as [|u rest IH]; intros selected e s NN F W; cbn [branch_and_bound].
  - unfold effs in W. cbn [map total] in W. change (2 ^ (zlen (@nil Unspent) + 1)) with 2.
    destruct (e >? _) eqn:E1; [lia|]. destruct (e >=? _) eqn:E2; [lia|].
    destruct (tries _ <=? 0); eexists; (split; [reflexivity|]); cbn [tries]; lia.
  - assert (P : 2 ^ (zlen (u :: rest) + 1) = 2 * 2 ^ (zlen rest + 1)).
    { unfold zlen. cbn [length]. rewrite <- Z.pow_succ_r by lia. f_equal. lia. }
    assert (Q : 1 <= 2 ^ (zlen rest + 1)) by (pose proof (Z.pow_pos_nonneg 2 (zlen rest + 1) ltac:(lia) ltac:(unfold zlen; lia)); lia).
    rewrite P. pose proof (effs_nonneg fee (u :: rest) NN) as N0.
    assert (NN' : forall v, In v rest -> 0 <= eff fee v) by (intros; apply NN; right; auto).
    pose proof (effs_nonneg fee rest NN') as N1. pose proof (NN u (or_introl eq_refl)) as N2.
    unfold effs in W, N0. cbn [map total] in W, N0. fold (effs fee rest) in W, N0. unfold eff in W at 1, N2.
    destruct (e >? _) eqn:E1; [lia|]. destruct (e >=? _) eqn:E2; [lia|].
    destruct (tries _ <=? 0) eqn:E3; [eexists; split; [reflexivity|]; cbn [tries] in *; lia|].
    destruct (IH selected e (mkB (tries (mkB (tries s - 1) (drawn s))) (Datatypes.S (drawn (mkB (tries s - 1) (drawn s))))) NN' F ltac:(lia)) as (s1 & B1 & T1).
    rewrite B1. cbn [tries] in T1.
    destruct (IH (selected ++ [u]) (e + 4 * u_amount u - fee * u_vsize u) s1 NN' F ltac:(lia)) as (s2 & B2 & T2).
    rewrite B2. eexists. split; [reflexivity|]. lia.
Qed.

(** When only taking every coin matches and omission is always tried first, the
    search gives up if it has no more than 2^(n+1) - 3 tries. *)
Lemma bnb_gives_up overhead target fee rest : forall selected e s,
  rest <> [] -> (forall u, In u rest -> 0 < eff fee u) -> 0 <= fee ->
  e + effs fee rest = 4 * (target + overhead) -> tries s <= 2 ^ (zlen rest + 1) - 3 ->
  fst (branch_and_bound (fun _ => false) overhead target fee rest selected e s) = [].
Proof.
  induction rest as [|u rest IH]; intros selected e s NE NN F W T; [contradiction|]. cbn [branch_and_bound].
  assert (P : 2 ^ (zlen (u :: rest) + 1) = 2 * 2 ^ (zlen rest + 1)).
  { unfold zlen. cbn [length]. rewrite <- Z.pow_succ_r by lia. f_equal. lia. }
  rewrite P in T.
  assert (NN' : forall v, In v rest -> 0 < eff fee v) by (intros; apply NN; right; auto).
  assert (NN'' : forall v, In v rest -> 0 <= eff fee v) by (intros v Hv; specialize (NN' v Hv); lia).
  pose proof (effs_nonneg fee rest NN'') as N1. pose proof (NN u (or_introl eq_refl)) as N2.
  unfold effs in W. cbn [map total] in W. fold (effs fee rest) in W. unfold eff in W at 1. unfold eff in N2.
  destruct (e >? _) eqn:E1; [reflexivity|]. destruct (e >=? _) eqn:E2; [lia|].
  destruct (tries _ <=? 0) eqn:E3; [reflexivity|]. cbn [tries] in E3.
  destruct rest as [|v rest].
  { change (2 ^ (zlen (@nil Unspent) + 1)) with 2 in T. lia. }
  destruct (bnb_exhaust overhead target fee (v :: rest) selected e (mkB (tries (mkB (tries s - 1) (drawn s))) (Datatypes.S (drawn (mkB (tries s - 1) (drawn s))))) NN'' F ltac:(lia)) as (s1 & B1 & T1).
  rewrite B1. cbn [tries] in T1. apply IH; auto; try discriminate; [lia|].
  assert (4 <= 2 ^ (zlen (v :: rest) + 1)).
  { change 4 with (2 ^ 2). apply Z.pow_le_mono_r; [lia|]. unfold zlen. cbn [length]. lia. }
  lia.
Qed.
