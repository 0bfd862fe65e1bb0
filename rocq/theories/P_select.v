(** C35-C42: fee estimation and coin selection. *)
From Coq Require Import String Permutation.
From Verif Require Import F_select.

(** What the theorems say about a coin: amount in satoshis, size in quarter bytes. *)
Definition coin (u : Unspent) : Z * Z := (u_amount u, u_vsize u).
Definition amounts (l : list Unspent) : Z := total (map u_amount l).
(** Fee the code has to reserve for spending [sel]: the given fee if absolute,
    else the rate times the estimated size. *)
Definition FeeFor (absolute : bool) (fee : Z) (outs : list Z) (sel : list Unspent) (f : Z) : Prop :=
  exists s, EstimatedSize (map u_vsize sel) outs (existsb u_is_segwit sel) s /\
    f = if absolute then fee else fee * s.
(** random.shuffle permutes *)
Definition Shuffle (shuffle : list Unspent -> list Unspent) : Prop := forall l, Permutation (shuffle l) l.

Lemma coin_fee_For ab fee outs sel f : FeeFor ab fee outs sel f <-> f = coin_fee ab fee outs sel.
Proof.
  destruct (coin_fee_spec ab fee outs sel) as (s & H & E). split.
  - intros (s' & H' & ->). rewrite E, (EstimatedSize_fun _ _ _ _ _ H H'). reflexivity.
  - intros ->. exists s. auto.
Qed.

(** ** C35, C40: every result is balanced or a changeless match *)
Theorem C35_books bits shuffle target fee outs min_change absolute consolidate unspents sel remaining :
  Shuffle shuffle ->
  select_coins bits shuffle target fee outs min_change absolute consolidate unspents = Ok (sel, remaining) ->
  (remaining = 0 /\ absolute = false /\ consolidate = false /\ Changeless target fee outs (map coin sel)) \/
  (exists f, FeeFor absolute fee outs sel f /\ amounts sel = target + f + remaining /\ min_change <= remaining).
Proof.
  intros HS H. destruct (select_spec bits shuffle target fee outs min_change absolute consolidate unspents HS)
    as [(c & r & E & HC & HA & S & W)|(l & E & HC & P & _)]; rewrite E in H.
  - inv H. left. repeat split; auto; apply window_changeless; auto.
  - right. pose proof (draw_spec _ _ _ _ _ _ _ _ _ _ H) as (p & q & -> & Hp & -> & Hq & Hs & Hm).
    exists (coin_fee absolute fee outs ([] ++ p)). split; [apply coin_fee_For; auto|]. auto.
Qed.
Print Assumptions C35_books.

(** With an absolute fee or when consolidating there is no changeless match. *)
Theorem C35_books_no_match bits shuffle target fee outs min_change absolute consolidate unspents sel remaining :
  Shuffle shuffle -> absolute = true \/ consolidate = true ->
  select_coins bits shuffle target fee outs min_change absolute consolidate unspents = Ok (sel, remaining) ->
  exists f, FeeFor absolute fee outs sel f /\ amounts sel = target + f + remaining /\ min_change <= remaining.
Proof.
  intros HS HO H. destruct (C35_books _ _ _ _ _ _ _ _ _ _ _ HS H) as [(_ & A & B & _)|R]; auto.
  destruct HO; congruence.
Qed.
Print Assumptions C35_books_no_match.

(** ** C36 *)
Theorem C36_submultiset bits shuffle target fee outs min_change absolute consolidate unspents sel remaining :
  Shuffle shuffle ->
  select_coins bits shuffle target fee outs min_change absolute consolidate unspents = Ok (sel, remaining) ->
  sel <> [] /\ exists unused, Permutation (sel ++ unused) unspents.
Proof.
  intros HS H. destruct (select_spec bits shuffle target fee outs min_change absolute consolidate unspents HS)
    as [(c & r & E & HC & HA & S & W)|(l & E & HC & P & _)]; rewrite E in H.
  - inv H. split; [discriminate|]. destruct (Sublist_perm _ _ S) as (u & Pu). exists u. rewrite Pu. apply sort_perm.
  - pose proof (draw_spec _ _ _ _ _ _ _ _ _ _ H) as (p & q & -> & Hp & -> & Hq & Hs & Hm). split; auto. exists q. auto.
Qed.
Print Assumptions C36_submultiset.

(** ** C37 *)
Theorem C37_consolidate_all bits shuffle target fee outs min_change absolute unspents sel remaining :
  Shuffle shuffle ->
  select_coins bits shuffle target fee outs min_change absolute true unspents = Ok (sel, remaining) ->
  sel = unspents.
Proof.
  intros HS H. destruct (select_spec bits shuffle target fee outs min_change absolute true unspents HS)
    as [(c & r & E & HC & _)|(l & E & HC & P & _)]; [discriminate|]. rewrite E in H.
  pose proof (draw_spec _ _ _ _ _ _ _ _ _ _ H) as (p & q & El & Hp & -> & Hq & _).
  rewrite (Hq eq_refl), app_nil_r in El. rewrite (HC eq_refl) in El. auto.
Qed.
Print Assumptions C37_consolidate_all.

(** ** C38 *)
Theorem C38_absolute_exact bits shuffle target fee outs min_change consolidate unspents sel remaining :
  Shuffle shuffle ->
  select_coins bits shuffle target fee outs min_change true consolidate unspents = Ok (sel, remaining) ->
  amounts sel = target + fee + remaining /\ min_change <= remaining.
Proof.
  intros HS H. destruct (C35_books_no_match _ _ _ _ _ _ _ _ _ _ _ HS (or_introl eq_refl) H) as (f & (s & _ & ->) & A & B). auto.
Qed.
Print Assumptions C38_absolute_exact.

(** ** C39 *)
Theorem C39_sufficient_not_refused bits shuffle target fee outs min_change absolute consolidate unspents f :
  Shuffle shuffle -> unspents <> [] ->
  FeeFor absolute fee outs unspents f -> target + f + min_change <= amounts unspents ->
  exists sel remaining,
    select_coins bits shuffle target fee outs min_change absolute consolidate unspents = Ok (sel, remaining).
Proof.
  intros HS NE HF Suf. apply coin_fee_For in HF. subst f.
  destruct (select_spec bits shuffle target fee outs min_change absolute consolidate unspents HS)
    as [(c & r & E & HC & _)|(l & E & HC & P & _)]; [eauto|].
  destruct (draw target fee outs min_change absolute consolidate l [] None) as [[sel rem]|e] eqn:D; [rewrite E; eauto|].
  pose proof (draw_spec _ _ _ _ _ _ _ _ _ _ D) as [_ I]. exfalso.
  assert (l <> []) as NL by (intros ->; apply Permutation_nil in P; auto).
  specialize (I NL). cbn [app] in I. rewrite (coin_fee_perm _ _ _ _ _ P), (total_perm _ _ (Permutation_map u_amount P)) in I.
  unfold amounts in Suf. lia.
Qed.
Print Assumptions C39_sufficient_not_refused.

(** Consolidation succeeds exactly if all coins cover everything; the only other
    outcomes are InsufficientFunds and, for no coins at all, UnboundLocalError. *)
Theorem C39_consolidate_iff bits shuffle target fee outs min_change absolute unspents f :
  Shuffle shuffle -> unspents <> [] -> FeeFor absolute fee outs unspents f ->
  (target + f + min_change <= amounts unspents ->
     select_coins bits shuffle target fee outs min_change absolute true unspents
     = Ok (unspents, amounts unspents - target - f)) /\
  (amounts unspents < target + f + min_change ->
     select_coins bits shuffle target fee outs min_change absolute true unspents = Raise InsufficientFunds).
Proof.
  intros HS NE HF. pose proof HF as HF'. apply coin_fee_For in HF'. split; intros Suf.
  - destruct (C39_sufficient_not_refused bits shuffle target fee outs min_change absolute true unspents f HS NE HF Suf) as (sel & rem & E).
    pose proof (C37_consolidate_all _ _ _ _ _ _ _ _ _ _ HS E) as ->.
    destruct (C35_books_no_match _ _ _ _ _ _ _ _ _ _ _ HS (or_intror eq_refl) E) as (f' & F' & A & _).
    apply coin_fee_For in F'. rewrite E. do 2 f_equal. lia.
  - destruct (select_coins bits shuffle target fee outs min_change absolute true unspents) as [[sel rem]|e] eqn:E.
    + pose proof (C37_consolidate_all _ _ _ _ _ _ _ _ _ _ HS E) as ->.
      destruct (C35_books_no_match _ _ _ _ _ _ _ _ _ _ _ HS (or_intror eq_refl) E) as (f' & F' & A & B).
      apply coin_fee_For in F'. exfalso. lia.
    + f_equal. destruct (select_spec bits shuffle target fee outs min_change absolute true unspents HS)
        as [(c & r & E' & _)|(l & E' & HC & P & _)]; rewrite E' in E; [discriminate|].
      pose proof (draw_spec _ _ _ _ _ _ _ _ _ _ E) as [[->|(_ & -> & _)] _]; auto.
      apply Permutation_nil in P. contradiction.
Qed.
Print Assumptions C39_consolidate_iff.

Theorem C39_no_coins bits shuffle target fee outs min_change absolute consolidate :
  Shuffle shuffle ->
  select_coins bits shuffle target fee outs min_change absolute consolidate [] = Raise UnboundLocalError.
Proof.
  intros HS. destruct (select_coins _ _ _ _ _ _ _ _ _) as [[sel rem]|e] eqn:E.
  - destruct (C36_submultiset _ _ _ _ _ _ _ _ _ _ _ HS E) as (NE & u & P).
    apply Permutation_sym, Permutation_nil, app_eq_nil in P as [P _]. contradiction.
  - f_equal. destruct (select_spec bits shuffle target fee outs min_change absolute consolidate [] HS)
        as [(c & r & E' & _)|(l & E' & HC & P & _)]; rewrite E' in E; [discriminate|].
    apply Permutation_sym, Permutation_nil in P. subst l. cbn in E. congruence.
Qed.
Print Assumptions C39_no_coins.

(** Short of that, whether the payment goes through may depend on luck: the same
    coins, target and fee succeed or raise depending on the shuffle. *)
Definition plain (amount : Z) (type : string) : Unspent :=
  new_unspent amount 1 [] [] 0 (str type) None None 0xffffffff.
Theorem C39_depends_on_luck :
  exists unspents target fee outs min_change sh1 sh2,
    Shuffle sh1 /\ Shuffle sh2 /\
    forall bits, (exists r, select_coins bits sh1 target fee outs min_change false false unspents = Ok r) /\
                 select_coins bits sh2 target fee outs min_change false false unspents = Raise InsufficientFunds.
Proof.
  exists [plain 11435 "p2pkh"; plain 1 "p2sh"], 7700, 10, [34; 34], 0, (fun l => l), (@rev Unspent).
  split; [intros l; reflexivity|]. split; [intros l; symmetry; apply Permutation_rev|].
  assert (B : forall bits, fst (branch_and_bound bits ((8 + 34 + 1) * 10) 7700 10
     (sort_coins [plain 11435 "p2pkh"; plain 1 "p2sh"]) [] 0 (mkB BNB_TRIES 0)) = []).
  { intros bits. vm_compute. destruct (bits 0%nat); vm_compute; destruct (bits 1%nat); reflexivity. }
  intros bits. unfold select_coins. cbn [negb andb]. change (zsum (removelast [34; 34])) with 34. rewrite B. split.
  - eexists. vm_compute. reflexivity.
  - vm_compute. reflexivity.
Qed.
Print Assumptions C39_depends_on_luck.

(** ** C40 *)
Theorem C40_changeless_bounds bits shuffle target fee outs min_change absolute consolidate unspents sel remaining :
  Shuffle shuffle ->
  select_coins bits shuffle target fee outs min_change absolute consolidate unspents = Ok (sel, remaining) ->
  ~ (exists f, FeeFor absolute fee outs sel f /\ amounts sel = target + f + remaining /\ min_change <= remaining) ->
  remaining = 0 /\
  let needed4 := fee * (total (map u_vsize sel) + 4 * (9 + total (all_but_last outs))) in
  needed4 <= 4 * (amounts sel - target) <= needed4 + 4 * (fee * 182).
Proof.
  intros HS H N. destruct (C35_books _ _ _ _ _ _ _ _ _ _ _ HS H) as [(-> & _ & _ & C)|R]; [|contradiction].
  split; auto. unfold Changeless, coin, amounts in *. rewrite !map_map in C. cbn [fst snd] in C.
  cbv zeta in *. change (map (fun x => u_amount x) sel) with (map u_amount sel) in C.
  change (map (fun x => u_vsize x) sel) with (map u_vsize sel) in C. lia.
Qed.
Print Assumptions C40_changeless_bounds.

(** ** C41 *)
Theorem C41_match_found bits shuffle target fee outs min_change unspents sel unused :
  Shuffle shuffle -> (length unspents <= 18)%nat ->
  0 < target -> 0 <= fee -> (forall o, In o outs -> 0 <= o) ->
  (forall u, In u unspents -> fee * u_vsize u <= 4 * u_amount u) ->
  Permutation (sel ++ unused) unspents -> Changeless target fee outs (map coin sel) ->
  exists sel', select_coins bits shuffle target fee outs min_change false false unspents = Ok (sel', 0) /\
    Changeless target fee outs (map coin sel').
Proof.
  intros HS L T F HO W P C.
  destruct (select_spec bits shuffle target fee outs min_change false false unspents HS)
    as [(c & r & E & HC & HA & S & WI)|(l & E & HC & Pl & B)].
  - exists (c :: r). split; auto. apply window_changeless; auto.
  - exfalso. specialize (B eq_refl eq_refl).
    assert (P' : Permutation (sel ++ unused) (sort_coins unspents)) by (rewrite P; symmetry; apply sort_perm).
    destruct (Sublist_of_perm _ _ _ P') as (sel' & S' & PS).
    assert (C' : window ((8 + total (removelast outs) + 1) * fee) target fee (effs fee sel')).
    { replace (effs fee sel') with (effs fee sel). 2:{ apply total_perm, Permutation_map; auto. }
      apply window_changeless; auto. }
    assert (OV : 0 <= total (removelast outs)).
    { clear -HO. assert (G : forall l, (forall o, In o l -> 0 <= o) -> 0 <= total (removelast l)).
      { induction l as [|x l IH]; intros H; [cbn; lia|]. cbn [removelast]. destruct l; [cbn; lia|].
        cbn [total]. pose proof (H x (or_introl eq_refl)). assert (0 <= total (removelast (z :: l))) by (apply IH; intros; apply H; right; auto). lia. }
      auto. }
    destruct (bnb_complete bits ((8 + total (removelast outs) + 1) * fee) target fee (sort_coins unspents) ltac:(nia)
      [] 0 (mkB BNB_TRIES 0) sel') as (c & r & s' & Eb); auto.
    + intros u Hu. unfold eff. apply (Permutation_in _ (sort_perm unspents)) in Hu. specialize (W u Hu). lia.
    + unfold zlen. rewrite sort_length. cbn [tries]. unfold BNB_TRIES.
      assert (2 ^ (Z.of_nat (length unspents) + 1) <= 2 ^ 19) by (apply Z.pow_le_mono_r; lia). change (2 ^ 19) with 524288 in *. lia.
    + rewrite Eb in B. discriminate.
Qed.
Print Assumptions C41_match_found.

(** Example: three coins, the first and the last match. *)
Definition ex_coins : list Unspent := [plain 50000 "p2pkh"; plain 7000 "np2wkh"; plain 30000 "p2pkh"].
Example C41_hypotheses : exists sel unused,
  Permutation (sel ++ unused) ex_coins /\ Changeless 79000 2 [34; 34] (map coin sel) /\
  (forall u, In u ex_coins -> 2 * u_vsize u <= 4 * u_amount u).
Proof.
  exists [plain 50000 "p2pkh"; plain 30000 "p2pkh"], [plain 7000 "np2wkh"].
  split; [unfold ex_coins; constructor; apply perm_swap|].
  split; [vm_compute; split; discriminate|].
  intros u [<-|[<-|[<-|[]]]]; vm_compute; discriminate.
Qed.
(** With 19 coins the search may run out of tries although a match exists, and
    the payment is then refused. *)
Theorem C41_nineteen_coins_refuted :
  exists unspents target fee outs bits shuffle,
    length unspents = 19%nat /\ Shuffle shuffle /\ 0 < target /\ 0 <= fee /\
    (forall u, In u unspents -> fee * u_vsize u <= 4 * u_amount u) /\
    Changeless target fee outs (map coin unspents) /\
    select_coins bits shuffle target fee outs 0 false false unspents = Raise InsufficientFunds.
Proof.
  exists (repeat (plain 1148 "p2pkh") 19), 18957, 1, [34; 34], (fun _ => false), (fun l => l).
  assert (IN : forall u, In u (repeat (plain 1148 "p2pkh") 19) -> u = plain 1148 "p2pkh") by (intros u Hu; apply repeat_spec in Hu; auto).
  split; [reflexivity|]. split; [intros l; reflexivity|]. split; [lia|]. split; [lia|].
  split; [intros u Hu; rewrite (IN u Hu); vm_compute; discriminate|].
  split; [vm_compute; split; discriminate|].
  unfold select_coins. cbn [negb andb]. change (zsum (removelast [34; 34])) with 34.
  rewrite bnb_gives_up.
  - vm_compute. reflexivity.
  - vm_compute. discriminate.
  - intros u Hu. apply (Permutation_in _ (sort_perm _)) in Hu. rewrite (IN u Hu). vm_compute. reflexivity.
  - lia.
  - vm_compute. reflexivity.
  - unfold zlen. rewrite sort_length. vm_compute. discriminate.
Qed.
Print Assumptions C41_nineteen_coins_refuted.

(** ** C42 *)
Theorem C42_formula in4 n_in out_size n_out rate (segwit : bool) :
  0 <= n_in -> 0 <= n_out ->
  exists ki ko s, CountBytes n_in ki /\ CountBytes n_out ko /\
    (let t := in4 + 4 * (ki + out_size + ko + 8) + (if segwit then 2 else 0) in t <= 4 * s /\ 4 * (s - 1) < t) /\
    estimate_tx_fee in4 n_in out_size n_out rate segwit = Ok (rate * s).
Proof.
  intros Hi Ho. exists (Z.of_nat (unknown_len n_in)), (Z.of_nat (unknown_len n_out)). eexists.
  split; [apply count_bytes; auto|]. split; [apply count_bytes; auto|]. split; [apply ceil4_spec|].
  apply estimate_ok; auto.
Qed.
Print Assumptions C42_formula.

Theorem C42_zero_rate in4 n_in out_size n_out segwit : estimate_tx_fee in4 n_in out_size n_out 0 segwit = Ok 0.
Proof. reflexivity. Qed.
Print Assumptions C42_zero_rate.

Theorem C42_monotone a n b m a' n' b' m' rate sw sw' f f' :
  0 <= rate -> 0 <= n -> 0 <= m -> a <= a' -> n <= n' -> b <= b' -> m <= m' -> (sw = true -> sw' = true) ->
  estimate_tx_fee a n b m rate sw = Ok f -> estimate_tx_fee a' n' b' m' rate sw' = Ok f' -> f <= f'.
Proof.
  intros R N M A NN B MM S. rewrite !estimate_ok by lia. intros E E'.
  apply (f_equal (fun r => match r with Ok z => z | Raise _ => 0 end)) in E, E'. cbv beta iota in E, E'. subst f f'.
  apply Z.mul_le_mono_nonneg_l; auto. apply ceil4_mono.
  pose proof (CountBytes_mono n n' _ _ NN (count_bytes n N) (count_bytes n' ltac:(lia))).
  pose proof (CountBytes_mono m m' _ _ MM (count_bytes m M) (count_bytes m' ltac:(lia))).
  assert ((if sw then 2 else 0) <= (if sw' then 2 else 0)) by (destruct sw, sw'; try lia; discriminate (S eq_refl)).
  lia.
Qed.
Print Assumptions C42_monotone.

Theorem C42_negative_counts in4 n_in out_size n_out rate (segwit : bool) :
  rate <> 0 -> n_in < 0 \/ n_out < 0 -> estimate_tx_fee in4 n_in out_size n_out rate segwit = Raise OverflowError.
Proof.
  intros R H. unfold estimate_tx_fee. replace (rate =? 0) with false by lia. unfold int_to_unknown_bytes_le.
  destruct (Z.ltb_spec n_in 0); [reflexivity|].
  rewrite to_bytes_le_ok' by (pose proof (unknown_len_upper n_in ltac:(lia)); lia). cbn [bind].
  replace (n_out <? 0) with true by lia. reflexivity.
Qed.
Print Assumptions C42_negative_counts.

(* repo: tests/test_transaction.py TestEstimateTxFee *)
Example estimate_1 : estimate_tx_fee (4 * 148) 1 (2 * 34) 2 70 false = Ok 15820. Proof. reflexivity. Qed.
Example estimate_2 : estimate_tx_fee (4 * 180) 1 (2 * 34) 2 70 false = Ok 18060. Proof. reflexivity. Qed.
Example estimate_0 : estimate_tx_fee 4 2 3 4 0 false = Ok 0. Proof. reflexivity. Qed.

(** Examples: results of both kinds *)
Example draw_example : select_coins (fun _ => true) (fun l => l) 20000 2 [34; 34] 546 false false ex_coins
  = Ok ([plain 50000 "p2pkh"], 50000 - 20000 - 2 * 226).
Proof. vm_compute. reflexivity. Qed.
Example match_example : select_coins (fun _ => true) (fun l => l) 79000 2 [34; 34] 546 false false ex_coins
  = Ok ([plain 50000 "p2pkh"; plain 30000 "p2pkh"], 0).
Proof. vm_compute. reflexivity. Qed.
