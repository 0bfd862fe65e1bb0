(** C110: coins and lists that are shared. *)
From Coq Require Import String Permutation.
From Verif Require Import F_cosign F_cosigntx F_signtx F_wallet F_utf8 F_spend F_wire F_build P_outputs P_select P_sign P_multi P_wallet P_create P_state P_send P_size X_world X_server.
From Verif Require Import M_app F_app S_Decimal S_History S_Servers S_Failover S_After S_Size S_Replace F_decimal F_network F_servers P_rates P_network P_services P_failover P_anyservice P_app P_after P_live S_Consensus P_consensus P_lies.
From Verif Require Import P_again M_heap.

(** random.shuffle does not look at the elements, and loses none. *)
Definition Blind {W Amt} (WD : World W Amt) : Prop := forall w rnd w', w_random w = (Ok rnd, w') ->
  forall f l, r_shuffle rnd (map f l) = map f (r_shuffle rnd l) /\ Permutation (r_shuffle rnd l) l.

(** ** Selection *)
Section Select.
Context {C : Type} (get : C -> Unspent).
Lemma insert_at u l : map get (insert_coin_at get u l) = insert_coin (get u) (map get l).
Proof. induction l as [|v r IH]; [reflexivity|]. cbn [insert_coin_at insert_coin map]. destruct (_ <=? _); cbn [map]; congruence. Qed.
Lemma sort_at l : map get (sort_coins_at get l) = sort_coins (map get l).
Proof. induction l as [|v r IH]; [reflexivity|]. cbn [sort_coins_at sort_coins fold_right map]. rewrite insert_at. unfold sort_coins_at, sort_coins in IH. congruence. Qed.
Lemma bnb_at bits overhead target fee rest : forall selected ev s,
  branch_and_bound bits overhead target fee (map get rest) (map get selected) ev s =
  (map get (fst (branch_and_bound_at get bits overhead target fee rest selected ev s)), snd (branch_and_bound_at get bits overhead target fee rest selected ev s)).
Proof.
  induction rest as [|u rest IH]; intros selected ev s; cbn [branch_and_bound branch_and_bound_at map].
  - destruct (_ >? _); [reflexivity|]. destruct (_ >=? _); [reflexivity|]. destruct (_ <=? _); reflexivity.
  - destruct (_ >? _); [reflexivity|]. destruct (_ >=? _); [reflexivity|]. destruct (_ <=? _); [reflexivity|]. cbn [drawn tries].
    assert (E : map get selected ++ [get u] = map get (selected ++ [u])) by (rewrite map_app; reflexivity). rewrite E.
    destruct (bits (drawn s)).
    + rewrite IH. destruct (branch_and_bound_at _ _ _ _ _ rest (selected ++ [u]) _ _) as [[|c l] s1]; cbn [fst snd map]; [|reflexivity]. rewrite IH. reflexivity.
    + rewrite IH. destruct (branch_and_bound_at _ _ _ _ _ rest selected _ _) as [[|c l] s1]; cbn [fst snd map]; [|reflexivity]. rewrite IH. reflexivity.
Qed.
Lemma draw_same target fee sizes mc ab cons us : forall selected est,
  draw target fee sizes mc ab cons (map get us) (map get selected) est = rmap (fun p => (map get (fst p), snd p)) (draw_at get target fee sizes mc ab cons us selected est).
Proof.
  induction us as [|u us IH]; intros selected est; cbn [draw draw_at map]; [destruct est; reflexivity|].
  assert (E : map get selected ++ [get u] = map get (selected ++ [u])) by (rewrite map_app; reflexivity). rewrite E. rewrite !map_map.
  assert (X : existsb u_is_segwit (map get (selected ++ [u])) = existsb (fun u => u_is_segwit (get u)) (selected ++ [u])).
  { generalize (selected ++ [u]). intros l. induction l as [|a l IHl]; [reflexivity|]. cbn. congruence. }
  assert (L : zlen (map get (selected ++ [u])) = zlen (selected ++ [u])) by (unfold zlen; rewrite map_length; auto).
  rewrite X, L. destruct (estimate_tx_fee _ _ _ _ _ _) as [e|]; [|reflexivity]. cbn [bind].
  assert (L2 : zlen (map get us) = zlen us) by (unfold zlen; rewrite map_length; auto). rewrite L2.
  destruct (_ && _)%bool; [reflexivity|]. apply IH.
Qed.
Lemma select_at bits sh sh' target fee sizes mc ab cons us : sh (map get us) = map get (sh' us) ->
  select_coins bits sh target fee sizes mc ab cons (map get us) = rmap (fun p => (map get (fst p), snd p)) (select_coins_at get bits sh' target fee sizes mc ab cons us).
Proof.
  intros S. unfold select_coins, select_coins_at. rewrite <- sort_at.
  assert (D : forall us', draw target fee sizes mc ab cons (map get us') [] None = rmap (fun p => (map get (fst p), snd p)) (draw_at get target fee sizes mc ab cons us' [] None)) by (intros; apply (draw_same target fee sizes mc ab cons us' [] None)).
  assert (F : draw target fee sizes mc ab cons (if cons then map get us else sh (map get us)) [] None = rmap (fun p => (map get (fst p), snd p)) (draw_at get target fee sizes mc ab cons (if cons then us else sh' us) [] None)).
  { destruct cons; [apply D|]. rewrite S. apply D. }
  destruct (negb cons && negb ab)%bool; [|exact F].
  pose proof (bnb_at bits ((8 + zsum (removelast sizes) + 1) * fee) target fee (sort_coins_at get us) [] 0 (mkB BNB_TRIES 0)) as B. cbn [map] in B. rewrite B. cbn [fst].
  destruct (fst (branch_and_bound_at _ _ _ _ _ _ _ _ _)) as [|c l]; [exact F|reflexivity].
Qed.
(** Only what was given is selected. *)
Lemma insert_incl u l : incl (insert_coin_at get u l) (u :: l).
Proof. induction l as [|v r IH]; cbn [insert_coin_at]; [apply incl_refl|]. destruct (_ <=? _); [apply incl_refl|]. intros x [<-|I]; [right; left; auto|]. apply IH in I as [<-|I]; [left|right; right]; auto. Qed.
Lemma sort_incl l : incl (sort_coins_at get l) l.
Proof. induction l as [|v r IH]; [apply incl_refl|]. cbn. intros x I. apply insert_incl in I as [<-|I]; [left; auto|right; auto]. Qed.
Lemma bnb_incl bits overhead target fee rest : forall selected ev s, incl (fst (branch_and_bound_at get bits overhead target fee rest selected ev s)) (selected ++ rest).
Proof.
  induction rest as [|u rest IH]; intros selected ev s; cbn [branch_and_bound_at].
  - rewrite app_nil_r. destruct (_ >? _); [apply incl_nil_l|]. destruct (_ >=? _); [apply incl_refl|]. destruct (_ <=? _); apply incl_nil_l.
  - destruct (_ >? _); [apply incl_nil_l|]. destruct (_ >=? _); [apply incl_appl, incl_refl|]. destruct (_ <=? _); [apply incl_nil_l|]. cbn [drawn tries].
    assert (A1 : forall ev s, incl (fst (branch_and_bound_at get bits overhead target fee rest (selected ++ [u]) ev s)) (selected ++ u :: rest)).
    { intros ev' s'. replace (selected ++ u :: rest) with ((selected ++ [u]) ++ rest) by (rewrite <- app_assoc; reflexivity). apply IH. }
    assert (A2 : forall ev s, incl (fst (branch_and_bound_at get bits overhead target fee rest selected ev s)) (selected ++ u :: rest)).
    { intros ev' s' x I. apply IH in I. apply in_app_iff in I as [I|I]; apply in_app_iff; [left|right; right]; auto. }
    destruct (bits (drawn s)).
    + pose proof (A1 (ev + 4 * u_amount (get u) - fee * u_vsize (get u)) (mkB (tries s - 1) (S (drawn s)))) as H. destruct (branch_and_bound_at _ _ _ _ _ rest (selected ++ [u]) _ _) as [[|c l] s1]; [apply A2|exact H].
    + pose proof (A2 ev (mkB (tries s - 1) (S (drawn s)))) as H. destruct (branch_and_bound_at _ _ _ _ _ rest selected _ _) as [[|c l] s1]; [apply A1|exact H].
Qed.
Lemma draw_incl target fee sizes mc ab cons us : forall selected est sel rem,
  draw_at get target fee sizes mc ab cons us selected est = Ok (sel, rem) -> incl sel (selected ++ us).
Proof.
  induction us as [|u us IH]; intros selected est sel rem; cbn [draw_at]; [destruct est; discriminate|]. intros H. apply bind_ok in H as (e & _ & H).
  replace (selected ++ u :: us) with ((selected ++ [u]) ++ us) by (rewrite <- app_assoc; reflexivity).
  destruct (_ && _)%bool; [injection H as <- _; apply incl_appl, incl_refl|]. eapply IH; eauto.
Qed.
Lemma select_incl bits sh' target fee sizes mc ab cons us sel rem : incl (sh' us) us ->
  select_coins_at get bits sh' target fee sizes mc ab cons us = Ok (sel, rem) -> incl sel us.
Proof.
  intros S H. unfold select_coins_at in H.
  assert (F : draw_at get target fee sizes mc ab cons (if cons then us else sh' us) [] None = Ok (sel, rem) -> incl sel us).
  { intros D. apply draw_incl in D. cbn [app] in D. destruct cons; auto. eapply incl_tran; eauto. }
  destruct (negb cons && negb ab)%bool; [|auto].
  pose proof (bnb_incl bits ((8 + zsum (removelast sizes) + 1) * fee) target fee (sort_coins_at get us) [] 0 (mkB BNB_TRIES 0)) as B.
  destruct (fst (branch_and_bound_at _ _ _ _ _ _ _ _ _)) as [|c l]; [auto|]. injection H as <- _. eapply incl_tran; [exact B|]. apply sort_incl.
Qed.
End Select.

Lemma opt_in_twice u : opt_in_for_RBF (opt_in_for_RBF u) = opt_in_for_RBF u.
Proof. destruct u. unfold opt_in_for_RBF. cbn. destruct (u_sequence >? 4294967293) eqn:E; cbn; [reflexivity|rewrite E; reflexivity]. Qed.
Lemma opt_in_seq u : u_sequence (opt_in_for_RBF u) <= 0xfffffffd.
Proof. destruct u. unfold opt_in_for_RBF. cbn. destruct (Z.gtb_spec u_sequence 4294967293); cbn; lia. Qed.
Lemma upd_all sel : forall c j, fold_left (fun c i => M_heap.upd i (opt_in_for_RBF (c i)) c) sel c j =
  if in_dec Nat.eq_dec j sel then opt_in_for_RBF (c j) else c j.
Proof.
  induction sel as [|i sel IH]; intros c j; [reflexivity|]. cbn [fold_left]. rewrite IH. unfold M_heap.upd. destruct (Nat.eqb_spec j i) as [->|N].
  - destruct (in_dec _ i (i :: sel)) as [_|N]; [|exfalso; apply N; left; auto]. destruct (in_dec _ i sel); auto using opt_in_twice.
  - destruct (in_dec _ j sel) as [I|I], (in_dec _ j (i :: sel)) as [I'|I']; auto; exfalso; [apply I'; right; auto|]. destruct I'; [congruence|contradiction].
Qed.

Section Heap.
Context {CR : Crypto} {W Amt : Type} {WD : World W Amt}.
Notation Mem := (@Mem W).

(** What a call may change: the list [lst]; coins only by the signal, and only
    those that are in the list afterwards; it holds nothing that it did not hold. *)
Definition Within (lst : nat) (rbf : bool) (m m' : Mem) : Prop :=
  (forall i, i <> lst -> m_lists m' i = m_lists m i) /\ incl (m_lists m' lst) (m_lists m lst) /\
  (forall i, m_balance m' i = m_balance m i) /\ m_next m' = m_next m /\
  forall j, m_coins m' j = m_coins m j \/ (rbf = true /\ In j (m_lists m' lst) /\ m_coins m' j = opt_in_for_RBF (m_coins m j)).
Lemma within_refl lst rbf m : Within lst rbf m m.
Proof. unfold Within. repeat split; auto using incl_refl. Qed.
Lemma within_world lst rbf m m' w : Within lst rbf m m' -> Within lst rbf m (with_world w m').
Proof. intros H. exact H. Qed.

Definition conv1 (x : pystr * Amt * pystr) : IO W (pystr * Z) := let '(a, amount, currency) := x in sat <~ w_convert amount currency ;; iret (a, sat).
Lemma conv_zoom {S} (g : S -> W) (p : W -> S -> S) (PG : forall s, p (g s) s = s) (GP : forall w s, g (p w s) = w) (PP : forall w v s, p w (p v s) = p w s) l : forall s,
  imapM (fun '(a, amount, currency) => sat <~ zoom g p (w_convert amount currency) ;; iret (a, sat)) l s =
  (fst (imapM conv1 l (g s)), p (snd (imapM conv1 l (g s))) s).
Proof.
  induction l as [|[[a x] c] l IH]; intros s; cbn [imapM]; [cbn; rewrite PG; reflexivity|].
  unfold ibind, zoom, iret, conv1 at 1 3. unfold ibind, iret. destruct (w_convert x c (g s)) as [[z|e] w]; cbn [fst snd]; [|reflexivity].
  unfold ibind, zoom, iret in IH. rewrite IH, GP, PP. fold conv1. destruct (imapM conv1 l w) as [[zs|e] w']; reflexivity.
Qed.

Lemma refs_blind (B : Blind WD) w rnd w' (get : nat -> Unspent) l : w_random w = (Ok rnd, w') ->
  r_shuffle rnd (map get l) = map get (shuffle_refs (r_shuffle rnd) l) /\ incl (shuffle_refs (r_shuffle rnd) l) l.
Proof.
  intros E. pose (tag := fun i => mkU 0 0 [] [] (Z.of_nat i) Unknown 0 None 0). pose (untag := fun u => Z.to_nat (u_txindex u)).
  assert (UT : forall i, untag (tag i) = i) by (intros i; unfold untag, tag; cbn; apply Nat2Z.id). unfold shuffle_refs. fold tag untag. split.
  - rewrite map_map. destruct (B _ _ _ E (fun u => get (untag u)) (map tag l)) as [N _]. rewrite <- N, map_map. f_equal. apply map_ext. intros i. rewrite UT. auto.
  - intros x I. apply in_map_iff in I as (u & <- & I). destruct (B _ _ _ E (fun u => u) (map tag l)) as [_ P]. apply (Permutation_in _ P) in I. apply in_map_iff in I as (i & <- & I). rewrite UT. auto.
Qed.

Definition Same (lst : nat) (rbf : bool) (m : Mem) (x : result (list (dest * Z)) * Mem) (y : result (list Unspent * list (dest * Z)) * (list Unspent * W)) : Prop :=
  let '(r, m') := x in
  y = (rmap (fun outs => (contents m' lst, outs)) r, (contents m' lst, m_world m')) /\ Within lst rbf m m' /\
  (forall outs, r = Ok outs -> rbf = true -> forall j, In j (m_lists m' lst) -> m_coins m' j = opt_in_for_RBF (m_coins m j)).

Lemma sanitize_same (B : Blind WD) lst outputs fee leftover mc v o m :
  Same lst (o_replace_by_fee o) m (sanitize_in lst outputs fee leftover mc v o m) (sanitize_tx_data outputs fee leftover mc v o (contents m lst, m_world m)).
Proof.
  unfold sanitize_in, sanitize_tx_data.
  pose proof (conv_zoom (@snd (list Unspent) W) (fun w s => (fst s, w)) ltac:(intros []; reflexivity) ltac:(reflexivity) ltac:(reflexivity) outputs (contents m lst, m_world m)) as C1.
  pose proof (conv_zoom (@m_world W) (@with_world W) ltac:(intros []; reflexivity) ltac:(reflexivity) ltac:(reflexivity) outputs m) as C2.
  unfold outside. cbn [fst snd] in C1.
  match goal with |- Same _ _ _ (ibind ?a ?k m) (ibind ?b ?l _) => set (K := k); set (L := l); change (ibind a K m) with (match a m with (Ok x, s') => K x s' | (Raise e, s') => (Raise e, s') end);
    change (ibind b L (contents m lst, m_world m)) with (match b (contents m lst, m_world m) with (Ok x, s') => L x s' | (Raise e, s') => (Raise e, s') end) end.
  rewrite C1, C2. clear C1 C2. destruct (imapM conv1 outputs (m_world m)) as [[outs|e] w]; cbn [fst snd].
  2:{ split; [reflexivity|]. split; [apply within_world, within_refl|discriminate]. }
  subst K L. cbv beta. unfold ibind at 1, iget at 1. unfold ibind at 9, iget at 2. cbn [fst snd]. change (m_lists (with_world w m) lst) with (m_lists m lst).
  assert (WR : forall (e : exc) w', Same lst (o_replace_by_fee o) m (Raise e, with_world w' m) (Raise e, (contents m lst, w'))).
  { intros e w'. split; [reflexivity|]. split; [apply within_world, within_refl|discriminate]. }
  unfold contents at 1. destruct (m_lists m lst) as [|i0 is0] eqn:EL; [cbn [map]|cbn [map]].
  { unfold contents in WR. rewrite EL in WR. apply WR. }
  assert (CM : contents m lst = m_coins m i0 :: map (m_coins m) is0) by (unfold contents; rewrite EL; reflexivity).
  unfold ibind, ilift, zoom, change, iget, iput, iret. cbn [fst snd]. rewrite <- CM. rewrite <- EL.
  destruct (message_outputs _ _) as [msgs|e]; [|apply WR]. destruct (mapM _ outs) as [sizes|e]; [|apply WR]. destruct (output_size_of leftover) as [cs|e]; [|apply WR].
  cbn [m_world with_world snd fst]. destruct (w_random w) as [[rnd|e] w'] eqn:ER; [|apply WR].
  change (m_coins (with_world w m)) with (m_coins m). change (m_lists (with_world w m)) with (m_lists m).
  destruct (refs_blind B w rnd w' (m_coins m) (m_lists m lst) ER) as [RB RI].
  cbn [fst snd]. unfold contents at 1. rewrite (select_at (m_coins m) (r_bits rnd) _ _ (zsum (map snd outs)) fee (sizes ++ [zlen msgs * (Z.of_nat MESSAGE_LIMIT + 9)] ++ [cs]) mc (o_absolute_fee o) (o_combine o) (m_lists m lst) RB).
  destruct (select_coins_at _ _ _ _ _ _ _ _ _ _) as [[sel rem]|e] eqn:SC; cbn [rmap fst snd]; [|apply WR].
  apply (select_incl _ _ _ _ _ _ _ _ _ _ _ _ RI) in SC.
  set (mf := if o_replace_by_fee o then with_coins (fold_left (fun c i => M_heap.upd i (opt_in_for_RBF (c i)) c) sel (m_coins m)) (with_list lst sel (with_world w' m)) else with_list lst sel (with_world w' m)).
  assert (LF : m_lists mf lst = sel) by (unfold mf; destruct (o_replace_by_fee o); cbn; unfold M_heap.upd; rewrite Nat.eqb_refl; reflexivity).
  assert (LO : forall i, i <> lst -> m_lists mf i = m_lists m i) by (intros i N; apply Nat.eqb_neq in N; unfold mf; destruct (o_replace_by_fee o); cbn; unfold M_heap.upd; rewrite N; reflexivity).
  assert (MC : forall j, m_coins mf j = if o_replace_by_fee o then (if in_dec Nat.eq_dec j sel then opt_in_for_RBF (m_coins m j) else m_coins m j) else m_coins m j).
  { intros j. unfold mf. destruct (o_replace_by_fee o); [|reflexivity]. cbn [m_coins with_coins]. apply upd_all. }
  assert (CF : contents mf lst = if o_replace_by_fee o then map opt_in_for_RBF (map (m_coins m) sel) else map (m_coins m) sel).
  { unfold contents. rewrite LF. destruct (o_replace_by_fee o); [rewrite map_map|]; apply map_ext_in; intros j I; rewrite MC; [destruct (in_dec _ j sel); [reflexivity|contradiction]|reflexivity]. }
  assert (WF : Within lst (o_replace_by_fee o) m mf).
  { split; [exact LO|]. rewrite LF. split; auto. split; [intros i; unfold mf; destruct (o_replace_by_fee o); reflexivity|]. split; [unfold mf; destruct (o_replace_by_fee o); reflexivity|].
    intros j. rewrite MC. destruct (o_replace_by_fee o); auto. destruct (in_dec _ j sel); auto. }
  assert (OF : o_replace_by_fee o = true -> forall j, In j (m_lists mf lst) -> m_coins mf j = opt_in_for_RBF (m_coins m j)).
  { intros R j I. rewrite LF in I. rewrite MC, R. destruct (in_dec _ j sel); [reflexivity|contradiction]. }
  assert (WM : m_world mf = w') by (unfold mf; destruct (o_replace_by_fee o); reflexivity).
  assert (End : Same lst (o_replace_by_fee o) m
    (let '(r, m') := ((if rem >? 0 then match leftover with Some l => iret (outs ++ [(l, rem)]) | None => ilift (Raise TypeError) end else iret outs) mf) in
     match r with Ok a => match check_version v a with Ok _ => (Ok (map (fun '(a, n) => (Addr a, n)) a ++ msgs), m') | Raise e => (Raise e, m') end | Raise e => (Raise e, m') end)
    (let '(r, m') := ((if rem >? 0 then match leftover with Some l => iret (outs ++ [(l, rem)]) | None => ilift (Raise TypeError) end else iret outs) (contents mf lst, w')) in
     match r with Ok a => match check_version v a with Ok _ => (Ok (contents mf lst, map (fun '(a, n) => (Addr a, n)) a ++ msgs), m') | Raise e => (Raise e, m') end | Raise e => (Raise e, m') end)).
  { assert (G : forall r : result (list (pystr * Z)), Same lst (o_replace_by_fee o) m
      (match r with Ok a => match check_version v a with Ok _ => (Ok (map (fun '(a, n) => (Addr a, n)) a ++ msgs), mf) | Raise e => (Raise e, mf) end | Raise e => (Raise e, mf) end)
      (match r with Ok a => match check_version v a with Ok _ => (Ok (contents mf lst, map (fun '(a, n) => (Addr a, n)) a ++ msgs), (contents mf lst, w')) | Raise e => (Raise e, (contents mf lst, w')) end | Raise e => (Raise e, (contents mf lst, w')) end)).
    { intros [a|e]; [destruct (check_version v a)|]; (split; [rewrite WM; reflexivity|]; split; [exact WF|]); intros outs' EO; try discriminate; auto. }
    destruct (rem >? 0); [destruct leftover|]; [apply (G (Ok _))|apply (G (Raise _))|apply (G (Ok _))]. }
  rewrite <- CF. unfold iret, ilift in End. revert End. unfold mf. destruct (o_replace_by_fee o); intros End; exact End.
Qed.

(** ** The wallet methods *)
(** The wallet of M_wallet.v that shows what the object [self] shows *)
Definition View (self : nat) (m : Mem) (s : @Wallet W) : Prop :=
  wl_world s = m_world m /\ wl_balance s = m_balance m self /\ wl_unspents s = contents m self.

(** Of what there was before, a call that fetches coins changes only the list and
    the balance of the wallet. *)
Definition OldKept (self : nat) (m m' : Mem) : Prop :=
  (forall i, i <> self -> m_lists m' i = m_lists m i /\ m_balance m' i = m_balance m i) /\
  (m_next m <= m_next m')%nat /\ (forall j, (j < m_next m)%nat -> m_coins m' j = m_coins m j).

Lemma new_coins_same us (m : Mem) : exists m' : Mem, new_coins us m = (Ok (seq (m_next m) (length us)), m') /\
  map (m_coins m') (seq (m_next m) (length us)) = us /\ m_world m' = m_world m /\ m_lists m' = m_lists m /\ m_balance m' = m_balance m /\
  m_next m' = (m_next m + length us)%nat /\ forall j, (j < m_next m)%nat -> m_coins m' j = m_coins m j.
Proof.
  unfold new_coins, ibind, iget, iput, iret. cbv zeta. eexists. split; [reflexivity|]. cbn [m_coins m_world m_lists m_balance m_next]. split; [|repeat split; auto].
  - generalize (m_next m), (m_coins m). intros n c. apply nth_error_ext. intros k. rewrite nth_error_map.
    destruct (Nat.lt_ge_cases k (length us)) as [L|L].
    + rewrite (nth_error_nth' (seq n (length us)) 0%nat) by (rewrite seq_length; auto). cbn [option_map]. rewrite seq_nth by auto.
      replace (n <=? n + k)%nat with true by (symmetry; apply Nat.leb_le; lia). replace (n + k <? n + length us)%nat with true by (symmetry; apply Nat.ltb_lt; lia). cbn [andb].
      replace (n + k - n)%nat with k by lia. symmetry. apply nth_error_nth'. auto.
    + assert (E1 : nth_error (seq n (length us)) k = None) by (apply nth_error_None; rewrite seq_length; auto). assert (E2 : nth_error us k = None) by (apply nth_error_None; auto). rewrite E1, E2. reflexivity.
  - intros j L. replace (m_next m <=? j)%nat with false by (symmetry; apply Nat.leb_gt; auto). reflexivity.
Qed.

Lemma get_same sg self m s : View self m s ->
  let '(r, m') := get_unspents_in sg self m in let '(r0, s') := get_unspents sg s in
  r0 = rmap (contents m') r /\ (forall l, r = Ok l -> l = self /\ forall j, In j (m_lists m' self) -> (m_next m <= j)%nat) /\ View self m' s' /\ OldKept self m m'.
Proof.
  intros (VW & VB & VU). unfold get_unspents_in, get_unspents.
  assert (K0 : forall w, OldKept self m (with_world w m)) by (intros w; repeat split; auto).
  unfold change, modify, outside, world. unfold ibind, ilift, zoom, iret, iget, iput.
  destruct (coin_types sg) as [[[t1 v1] [t2 v2]]|e]; [|split; [reflexivity|]; split; [discriminate|]; split; [repeat split; auto|repeat split; auto]].
  destruct (sg_address sg) as [a|e]; [|split; [reflexivity|]; split; [discriminate|]; split; [repeat split; auto|repeat split; auto]].
  rewrite VW. destruct (w_unspent (sg_version sg) a (m_world m)) as [[l1|e] w1]; [|split; [reflexivity|]; split; [discriminate|]; split; [repeat split; auto|apply K0]].
  destruct (new_coins_same (map (fun u => set_type u t1 v1) l1) (with_world w1 m)) as (m1 & -> & C1 & W1 & L1 & B1 & N1 & O1).
  set (r1 := seq (m_next (with_world w1 m)) (length (map (fun u => set_type u t1 v1) l1))) in *.
  set (m2 := with_list self r1 m1). assert (L2 : m_lists m2 self = r1) by (cbn; unfold M_heap.upd; rewrite Nat.eqb_refl; reflexivity).
  assert (X2 : contents m2 self = map (fun u => set_type u t1 v1) l1) by (unfold contents; rewrite L2; exact C1).
  assert (K2 : OldKept self m m2).
  { split; [|split].
    - intros i N. apply Nat.eqb_neq in N. cbn. unfold M_heap.upd. rewrite N, L1, B1. auto.
    - cbn. rewrite N1. cbn. lia.
    - intros j J. cbn. rewrite O1; auto. }
  destruct (sg_segwit_address sg) as [[sa|]|e].
  - cbn [wl_world set_unspents set_world wl_unspents]. change (m_world m2) with (m_world m1). rewrite W1. cbn [m_world with_world].
    destruct (w_unspent (sg_version sg) sa w1) as [[l2|e] w2].
    2:{ split; [reflexivity|]. split; [discriminate|]. split; [split; [reflexivity|]; split; [cbn; rewrite B1; exact VB|cbn [wl_unspents set_world set_unspents]; symmetry; exact X2]|exact K2]. }
    destruct (new_coins_same (map (fun u => set_type u t2 v2) l2) (with_world w2 m2)) as (m3 & -> & C3 & W3 & L3 & B3 & N3 & O3).
    set (r2 := seq (m_next (with_world w2 m2)) (length (map (fun u => set_type u t2 v2) l2))) in *.
    set (m4 := with_list self (m_lists m3 self ++ r2) m3).
    assert (X4 : contents m4 self = map (fun u => set_type u t1 v1) l1 ++ map (fun u => set_type u t2 v2) l2).
    { unfold contents, m4. cbn [m_coins m_lists with_list]. unfold M_heap.upd. rewrite Nat.eqb_refl, map_app. f_equal; [|exact C3]. rewrite L3. change (m_lists (with_world w2 m2) self) with (m_lists m2 self).
      rewrite <- X2. unfold contents. apply map_ext_in. intros j J. rewrite L2 in J. apply O3. apply in_seq in J. cbn in *. lia. }
    rewrite X4. cbn [wl_world set_unspents set_world wl_unspents set_balance wl_balance].
    split; [exact (f_equal Ok (eq_sym X4))|]. split.
    { intros l [= <-]. split; auto. intros j J. change (In j (m_lists m4 self)) in J. unfold m4 in J. cbn in J. unfold M_heap.upd in J. rewrite Nat.eqb_refl, L3 in J.
      apply in_app_iff in J as [J|J]; [change (In j (m_lists m2 self)) in J; rewrite L2 in J|]; apply in_seq in J; cbn in *; lia. } split.
    + split; [cbn; rewrite W3; reflexivity|]. split; [cbn; unfold M_heap.upd; rewrite Nat.eqb_refl; reflexivity|]. cbn [wl_unspents set_world set_unspents set_balance]. symmetry. exact X4.
    + destruct K2 as (K21 & K22 & K23). split; [|split].
      * intros i N. destruct (K21 i N) as [Q1 Q2]. apply Nat.eqb_neq in N. cbn. unfold M_heap.upd. rewrite N, L3, B3. auto.
      * cbn. rewrite N3. cbn in *. lia.
      * intros j J. change (m_coins m3 j = m_coins m j). rewrite O3; [|cbn in *; lia]. apply K23. auto.
  - fold m2. rewrite X2. cbn [wl_world set_unspents set_world wl_unspents set_balance wl_balance]. split; [exact (f_equal Ok (eq_sym X2))|]. split.
    { intros l [= <-]. split; auto. intros j J. change (In j (m_lists m2 self)) in J. rewrite L2 in J. apply in_seq in J. cbn in *. lia. } split.
    + split; [cbn; rewrite W1; reflexivity|]. split; [cbn; unfold M_heap.upd; rewrite Nat.eqb_refl; reflexivity|]. symmetry. exact X2.
    + destruct K2 as (K21 & K22 & K23). split; [|split; auto]. intros i N. destruct (K21 i N) as [Q1 Q2]. split; auto. apply Nat.eqb_neq in N. cbn. unfold M_heap.upd. rewrite N. exact Q2.
  - split; [reflexivity|]. split; [discriminate|]. split; [|exact K2]. split; [cbn; rewrite W1; reflexivity|]. split; [cbn; rewrite B1; exact VB|symmetry; exact X2].
Qed.

(** The list that a call works on: the one given, unless it is empty *)
Definition given_list (unspents : option nat) (m : Mem) : option nat :=
  match unspents with Some l => match m_lists m l with [] => None | _ :: _ => Some l end | None => None end.

Definition Does (self : nat) (unspents : option nat) (rbf : bool) (m : Mem) (x : result pystr * Mem) (y : result pystr * @Wallet W) : Prop :=
  let '(r, m') := x in let '(r0, s') := y in
  r0 = r /\ wl_world s' = m_world m' /\
  match given_list unspents m with
  | Some l => wl_caller s' = contents m' l /\ Within l rbf m m' /\ (forall h, r = Ok h -> rbf = true -> forall j, In j (m_lists m' l) -> m_coins m' j = opt_in_for_RBF (m_coins m j))
  | None => View self m' s' /\ OldKept self m m'
  end.

Lemma create_does (B : Blind WD) sg self outputs fee leftover unspents o m s : View self m s ->
  Does self unspents (o_replace_by_fee o) m (create_transaction_in sg self outputs fee leftover unspents o m)
    (create_transaction sg outputs fee leftover (option_map (contents m) unspents) o s).
Proof.
  intros V. unfold create_transaction_in, create_transaction.
  assert (GL : nonempty (option_map (contents m) unspents) = option_map (contents m) (given_list unspents m)).
  { destruct unspents as [l|]; [|reflexivity]. cbn [option_map given_list]. unfold contents. destruct (m_lists m l) as [|i l'] eqn:E; [reflexivity|]. cbn [option_map map nonempty]. rewrite E. reflexivity. }
  rewrite GL. unfold ibind at 1, iget at 1.
  assert (CL : (match unspents with Some l => match m_lists m l with _ :: _ => iret l | [] => get_unspents_in sg self end | None => get_unspents_in sg self end) =
    match given_list unspents m with Some l => iret l | None => get_unspents_in sg self end).
  { destruct unspents as [l|]; [|reflexivity]. cbn [given_list]. destruct (m_lists m l); reflexivity. }
  rewrite CL. unfold Does. destruct (given_list unspents m) as [l|] eqn:EG; cbn [option_map]; clear GL CL.
  - destruct V as (VW & VB & VU). unfold modify. unfold ibind, ilift, iret, iget, iput, outside, world, zoom, run_sanitize.
    destruct (if existsb u_is_segwit (contents m l) then _ else _) as [ra|e].
    2:{ split; [reflexivity|]. split; [exact VW|]. split; [reflexivity|]. split; [apply within_refl|discriminate]. }
    unfold zoom. cbn [wl_world set_caller set_world wl_caller]. rewrite VW. destruct (fee_or_cached fee (m_world m)) as [[f|e] w].
    2:{ split; [reflexivity|]. split; [reflexivity|]. split; [reflexivity|]. split; [apply within_world, within_refl|discriminate]. }
    pose proof (sanitize_same B l outputs f match nonempty leftover with Some l => Some l | None => ra end 0 (sg_version sg) o (with_world w m)) as SS.
    change (contents (with_world w m) l) with (contents m l) in SS. change (m_world (with_world w m)) with w in SS.
    cbn [wl_world set_caller set_world wl_caller].
    destruct (sanitize_in l outputs f _ 0 (sg_version sg) o (with_world w m)) as [r m']. destruct SS as (-> & WI & RB).
    destruct r as [outs|e]; cbn [rmap wl_world wl_caller set_caller set_world].
    + split; [reflexivity|]. split; [reflexivity|]. split; [reflexivity|]. split; [exact WI|]. intros h _ R j J. apply (RB outs eq_refl R j J).
    + split; [reflexivity|]. split; [reflexivity|]. split; [reflexivity|]. split; [exact WI|discriminate].
  - pose proof (get_same sg self m s V) as G. unfold ibind, ilift, iret, iget, iput, outside, world, zoom, run_sanitize.
    destruct (get_unspents_in sg self m) as [r1 m1], (get_unspents sg s) as [r0 s1]. destruct G as (-> & SL & V1 & K1).
    destruct r1 as [l|e]; cbn [rmap]; [|split; [reflexivity|]; split; [apply V1|]; split; auto].
    destruct (SL l eq_refl) as [-> FR]. clear SL.
    destruct (if existsb u_is_segwit (contents m1 self) then _ else _) as [ra|e]; [|split; [reflexivity|]; split; [apply V1|]; split; auto].
    destruct V1 as (VW & VB & VU). unfold zoom. cbn [wl_world set_world wl_unspents set_unspents]. rewrite VW. destruct (fee_or_cached fee (m_world m1)) as [[f|e] w].
    2:{ split; [reflexivity|]. split; [reflexivity|]. split; [split; [reflexivity|]; split; [exact VB|exact VU]|exact K1]. }
    pose proof (sanitize_same B self outputs f match nonempty leftover with Some l => Some l | None => ra end 0 (sg_version sg) o (with_world w m1)) as SS.
    change (contents (with_world w m1) self) with (contents m1 self) in SS. change (m_world (with_world w m1)) with w in SS.
    cbn [wl_world set_world wl_unspents set_unspents]. rewrite VU.
    destruct (sanitize_in self outputs f _ 0 (sg_version sg) o (with_world w m1)) as [r m']. destruct SS as (-> & WI & RB).
    assert (KK : OldKept self m m').
    { destruct K1 as (K11 & K12 & K13). destruct WI as (W1 & W2 & W3 & W4 & W5). split; [|split].
      - intros i N. rewrite (W1 i N), (W3 i). apply K11. auto.
      - rewrite W4. exact K12.
      - intros j J. destruct (W5 j) as [->|(_ & I & _)]; [apply K13; auto|]. apply W2 in I. apply FR in I. lia. }
    assert (BB : m_balance m' self = m_balance m1 self) by apply WI.
    destruct r as [outs|e]; cbn [rmap wl_world wl_caller set_caller set_world]; (split; [reflexivity|]; split; [reflexivity|]; split; [|exact KK]); (split; [reflexivity|]; split; [cbn; congruence|reflexivity]).
Qed.

Lemma send_does (B : Blind WD) sg self outputs fee leftover unspents o m s : View self m s ->
  Does self unspents (o_replace_by_fee o) m (send_in sg self outputs fee leftover unspents o m)
    (send sg outputs fee leftover (option_map (contents m) unspents) o s).
Proof.
  intros V. pose proof (create_does B sg self outputs fee leftover unspents o m s V) as D. unfold send_in, send.
  unfold ibind, ilift, outside, world, zoom.
  destruct (create_transaction_in sg self outputs fee leftover unspents o m) as [r m1], (create_transaction sg outputs fee leftover _ o s) as [r0 s1].
  unfold Does in D |- *. destruct D as (-> & VW & D). destruct r as [h|e].
  2:{ split; [reflexivity|]. split; [exact VW|]. destruct (given_list unspents m); [|exact D]. destruct D as (D1 & D2 & _). split; [exact D1|]. split; [exact D2|]. discriminate. }
  rewrite VW. destruct (w_broadcast (sg_version sg) h (m_world m1)) as [[u|e] w].
  - split; auto. split; [reflexivity|]. destruct (given_list unspents m).
    + destruct D as (D1 & D2 & D3). split; [exact D1|]. split; [apply within_world, D2|]. intros h' _. apply (D3 h eq_refl).
    + destruct D as ((D1 & D2 & D3) & D4). split; [|exact D4]. split; [reflexivity|]. split; [exact D2|exact D3].
  - split; auto. split; [reflexivity|]. destruct (given_list unspents m).
    + destruct D as (D1 & D2 & D3). split; [exact D1|]. split; [apply within_world, D2|]. discriminate.
    + destruct D as ((D1 & D2 & D3) & D4). split; [|exact D4]. split; [reflexivity|]. split; [exact D2|exact D3].
Qed.

(** *** What is said of values holds of objects *)
(** What is seen of the wallet, its list and the caller's list. *)
Definition Seen (self : nat) (unspents : option nat) (m m' : Mem) (s' : @Wallet W) : Prop :=
  wl_world s' = m_world m' /\ match given_list unspents m with Some l => wl_caller s' = contents m' l | None => View self m' s' end.

(** C110: whatever lists and coins the wallets and the caller share, a call gives
    the result, asks the network the questions and leaves in the list it works on
    the coins that it does when nothing is shared. *)
Theorem C110_create (B : Blind WD) sg self outputs fee leftover unspents o m s r m' : View self m s ->
  create_transaction_in sg self outputs fee leftover unspents o m = (r, m') ->
  exists s', create_transaction sg outputs fee leftover (option_map (contents m) unspents) o s = (r, s') /\ Seen self unspents m m' s'.
Proof.
  intros V E. pose proof (create_does B sg self outputs fee leftover unspents o m s V) as D. rewrite E in D. destruct (create_transaction sg outputs fee leftover _ o s) as [r0 s'].
  destruct D as (-> & VW & D). exists s'. split; auto. split; auto. destruct (given_list unspents m); apply D.
Qed.
Theorem C110_send (B : Blind WD) sg self outputs fee leftover unspents o m s r m' : View self m s ->
  send_in sg self outputs fee leftover unspents o m = (r, m') ->
  exists s', send sg outputs fee leftover (option_map (contents m) unspents) o s = (r, s') /\ Seen self unspents m m' s'.
Proof.
  intros V E. pose proof (send_does B sg self outputs fee leftover unspents o m s V) as D. rewrite E in D. destruct (send sg outputs fee leftover _ o s) as [r0 s'].
  destruct D as (-> & VW & D). exists s'. split; auto. split; auto. destruct (given_list unspents m); apply D.
Qed.

(** *** What else is changed *)
(** [v] is [u], marked as replaceable *)
Definition Marked (u v : Unspent) : Prop :=
  v = mkU (u_amount u) (u_confirmations u) (u_script u) (u_txid u) (u_txindex u) (u_type u) (u_vsize u) (u_segwit u) (Z.min (u_sequence u) 0xfffffffd).
Lemma opt_in_marked u : Marked u (opt_in_for_RBF u).
Proof. destruct u. unfold Marked, opt_in_for_RBF. cbn. destruct (Z.gtb_spec u_sequence 4294967293); f_equal; lia. Qed.

(** Lists and balances of others stay; of the objects that there were, a coin is
    changed only if it was asked for, is in the list given, and was selected. *)
Definition ChangesOnly (self : nat) (unspents : option nat) (rbf : bool) (m m' : Mem) : Prop :=
  (forall i, i <> match given_list unspents m with Some l => l | None => self end -> m_lists m' i = m_lists m i) /\
  (forall l, given_list unspents m = Some l -> incl (m_lists m' l) (m_lists m l)) /\
  (forall i, i <> self \/ given_list unspents m <> None -> m_balance m' i = m_balance m i) /\
  (forall j, (j < m_next m)%nat -> m_coins m' j = m_coins m j \/
     rbf = true /\ exists l, given_list unspents m = Some l /\ In j (m_lists m l) /\ In j (m_lists m' l) /\ Marked (m_coins m j) (m_coins m' j)).
Lemma does_changes self unspents rbf m r m' y : Does self unspents rbf m (r, m') y -> ChangesOnly self unspents rbf m m'.
Proof.
  destruct y as [r0 s']. intros (_ & _ & D). unfold ChangesOnly. destruct (given_list unspents m) as [l|].
  - destruct D as (_ & (W1 & W2 & W3 & W4 & W5) & _). split; [exact W1|]. split; [intros ? [= <-]; exact W2|]. split; [intros i _; apply W3|].
    intros j _. destruct (W5 j) as [H|(R & I & H)]; [left; exact H|right; split; auto]. exists l. rewrite H. auto using opt_in_marked.
  - destruct D as (_ & (K1 & K2 & K3)). split; [intros i N; apply (K1 i N)|]. split; [discriminate|]. split; [intros i [N|N]; [apply (K1 i N)|congruence]|]. auto.
Qed.
Theorem C110_changes (B : Blind WD) sg self outputs fee leftover unspents o m r m' :
  create_transaction_in sg self outputs fee leftover unspents o m = (r, m') \/ send_in sg self outputs fee leftover unspents o m = (r, m') ->
  ChangesOnly self unspents (o_replace_by_fee o) m m'.
Proof.
  assert (V : View self m (mkWallet (m_world m) (m_balance m self) (contents m self) [] [])) by (split; [|split]; reflexivity).
  intros [E|E]; [pose proof (create_does B sg self outputs fee leftover unspents o m _ V) as D|pose proof (send_does B sg self outputs fee leftover unspents o m _ V) as D];
    rewrite E in D; eapply does_changes; exact D.
Qed.

(** get_unspents gives the wallet's own list, not a copy. *)
Theorem C110_get sg self m s r m' : View self m s -> get_unspents_in sg self m = (r, m') ->
  exists s', get_unspents sg s = (rmap (contents m') r, s') /\ View self m' s' /\ (forall l, r = Ok l -> l = self) /\ ChangesOnly self None false m m'.
Proof.
  intros V E. pose proof (get_same sg self m s V) as G. rewrite E in G. destruct (get_unspents sg s) as [r0 s']. destruct G as (-> & SL & V1 & (K1 & K2 & K3)).
  exists s'. split; auto. split; auto. split; [intros l H; apply (SL l H)|].
  split; [intros i N; apply (K1 i N)|]. split; [discriminate|]. split; [intros i [N|N]; [apply (K1 i N)|cbn in N; congruence]|auto].
Qed.

(** *** What sharing does *)
(** C110: after a payment with replace_by_fee, every list in which one of its coins
    is shows that coin marked. *)
Theorem C110_marked (B : Blind WD) sg self outputs fee leftover unspents o m h m' l : given_list unspents m = Some l -> o_replace_by_fee o = true ->
  create_transaction_in sg self outputs fee leftover unspents o m = (Ok h, m') \/ send_in sg self outputs fee leftover unspents o m = (Ok h, m') ->
  forall j, In j (m_lists m' l) -> Marked (m_coins m j) (m_coins m' j).
Proof.
  assert (V : View self m (mkWallet (m_world m) (m_balance m self) (contents m self) [] [])) by (split; [|split]; reflexivity).
  intros GL R E j J. assert (X : exists y, Does self unspents (o_replace_by_fee o) m (Ok h, m') y).
  { destruct E as [E|E]; rewrite <- E; eexists; [apply (create_does B); exact V|apply (send_does B); exact V]. }
  destruct X as ([r0 s'] & _ & _ & D). rewrite GL in D. destruct D as (_ & _ & D). rewrite (D h eq_refl R j J). apply opt_in_marked.
Qed.

(** C110: and so a later payment from such a list signals that it can be replaced,
    although that was not asked for. *)
Theorem C110_sticky (HO : HashOk CR) (RO : RandomOk WD) (B : Blind WD) k self outputs fee leftover a o m h m' self' outputs' fee' leftover' b o' h' m'' :
  m_lists m a <> [] -> o_replace_by_fee o = true ->
  create_transaction_in (Single k) self outputs fee leftover (Some a) o m = (Ok h, m') ->
  b <> a -> m_lists m b <> [] -> incl (m_lists m b) (m_lists m' a) ->
  KeyOk k -> MsgOk o' -> Forall TxidOk (contents m b) -> Distinct (contents m b) -> Forall (SingleCoin k) (contents m b) ->
  create_transaction_in (Single k) self' outputs' fee' leftover' (Some b) o' m' = (Ok h', m'') ->
  exists x f w, Asked (Single k) outputs' f leftover' o' (contents m' b) (contents m'' b) w h' x /\ Signals x.
Proof.
  intros NA R E NB NE I K M T D SC E'.
  assert (GA : given_list (Some a) m = Some a) by (cbn; destruct (m_lists m a); [congruence|reflexivity]).
  destruct (C110_changes B _ _ _ _ _ _ _ _ _ _ (or_introl E)) as (L & _ & _ & _). rewrite GA in L. specialize (L b NB).
  pose proof (C110_marked B _ _ _ _ _ _ _ _ _ _ _ GA R (or_introl E)) as MK.
  assert (GB : given_list (Some b) m' = Some b) by (cbn; rewrite L; destruct (m_lists m b); [congruence|reflexivity]).
  destruct (C110_create B _ _ _ _ _ _ _ _ (mkWallet (m_world m') (m_balance m' self') (contents m' self') [] []) _ _ ltac:(split; [|split]; reflexivity) E') as (s'' & E2 & _ & S2).
  rewrite GB in S2. cbn [option_map] in E2.
  assert (CB : contents m' b = map opt_in_for_RBF (contents m b)).
  { unfold contents. rewrite L, map_map. apply map_ext_in. intros j J. specialize (MK j (I j J)). unfold Marked in MK. rewrite MK. symmetry. apply opt_in_marked. }
  assert (NC : contents m' b <> []) by (rewrite CB; unfold contents; destruct (m_lists m b); [congruence|discriminate]).
  destruct (create_caller HO RO _ _ _ _ _ _ _ _ _ NC K M E2) as (x & f & w & _ & A & _).
  - rewrite CB. apply Forall_map. eapply Forall_impl; [|exact T]. intros u H. unfold TxidOk in *. destruct (rbf_keep u) as (-> & _). exact H.
  - rewrite CB. unfold Distinct in *. rewrite map_map. erewrite map_ext; [exact D|]. intros u. cbn. destruct (rbf_keep u) as (-> & -> & _). reflexivity.
  - rewrite CB. apply Forall_map. eapply Forall_impl; [|exact SC]. intros u H. unfold SingleCoin in *. destruct (rbf_keep u) as (_ & _ & -> & -> & _). exact H.
  - rewrite S2 in A. exists x, f, w. split; auto. destruct A as (outs & sats & w1 & change & msgs & back & (_ & _ & _ & FI & _) & _ & _ & _ & _ & _ & _ & (taken & unused & Pm & NT & _ & Hs) & _).
    eapply in_signals; [exact FI|rewrite Hs; destruct (o_replace_by_fee o'); auto; destruct taken; [contradiction|discriminate]|].
    assert (FT : Forall (fun u => u_sequence u <= 0xfffffffd) taken).
    { apply Forall_forall. intros u U. assert (In u (contents m' b)) as U2 by (eapply Permutation_in; [exact Pm|apply in_or_app; auto]).
      rewrite CB in U2. apply in_map_iff in U2 as (v & <- & _). apply opt_in_seq. }
    rewrite Hs. destruct (o_replace_by_fee o'); [|exact FT]. apply Forall_map. apply Forall_forall. intros u _. apply opt_in_seq.
Qed.
End Heap.

(** ** Examples *)
Lemma toy_blind : Blind toy_world.
Proof. intros w rnd w' [= <- _] f l. cbn [r_shuffle]. split; [symmetry; apply map_rev|apply Permutation_sym, Permutation_rev]. Qed.

(** Two coins; the lists 1 and 2, of which one is a copy of the other, hold both.
    The wallet, whose list is 0, has fetched nothing yet. *)
Definition shared_mem : @Mem (list pystr) :=
  mkMem [] (fun j => nth j legacy_coins (wcoin [] "p2pkh" 9 9 9)) 2 (fun i => match i with 1%nat | 2%nat => [0%nat; 1%nat] | _ => [] end) (fun _ => 0).
Definition plain_opts : Options := mkOptions true None false false false.
Definition first_shared := @create_transaction_in toy _ _ toy_world (Single wkey) 0 one_out (Some 10) None (Some 1%nat) again_opts shared_mem.
Definition second_shared m := @create_transaction_in toy _ _ toy_world (Single wkey) 0 one_out (Some 10) None (Some 2%nat) plain_opts m.

Lemma shared_coins b : b = 1%nat \/ b = 2%nat -> contents shared_mem b = legacy_coins.
Proof. intros [->| ->]; reflexivity. Qed.
Lemma shared_runs : exists h m' h' m'', first_shared = (Ok h, m') /\ second_shared m' = (Ok h', m'') /\ m_lists m' 1%nat = [0%nat; 1%nat].
Proof.
  assert (G : match first_shared with (Ok _, m') => match second_shared m' with (Ok _, _) => if list_eq_dec Nat.eq_dec (m_lists m' 1%nat) [0%nat; 1%nat] then true else false | _ => false end | _ => false end = true) by (vm_compute; reflexivity).
  revert G. generalize first_shared. intros [[h|e] m'] G; [|discriminate G]. exists h, m'. revert G. generalize (second_shared m'). intros [[h'|e] m''] G; [|discriminate G].
  exists h', m''. split; [reflexivity|]. split; [reflexivity|]. destruct (list_eq_dec Nat.eq_dec (m_lists m' 1%nat) [0%nat; 1%nat]) as [Q|Q]; [exact Q|discriminate G].
Qed.
Local Opaque create_transaction_in get_unspents_in send_in.
Example C110_case : exists h m' h' m'' x f w, first_shared = (Ok h, m') /\ second_shared m' = (Ok h', m'') /\
  @Asked toy _ _ toy_world (Single wkey) one_out f None plain_opts (contents m' 2%nat) (contents m'' 2%nat) w h' x /\ Signals x.
Proof.
  destruct shared_runs as (h & m' & h' & m'' & E & E' & L). destruct C43_single_hypotheses as (K & _ & _ & _ & _ & _ & T & D & SC & _).
  destruct (@C110_sticky toy _ _ toy_world toy_ok toy_random_ok toy_blind wkey 0 one_out (Some 10) None 1 again_opts shared_mem h m' 0 one_out (Some 10) None 2 plain_opts h' m''
    ltac:(discriminate) eq_refl E ltac:(discriminate) ltac:(discriminate) ltac:(rewrite L; apply incl_refl) K I T D SC E') as (x & f & w & A & S1).
  exists h, m', h', m'', x, f, w. split; [exact E|]. split; [exact E'|]. split; [exact A|exact S1].
Qed.

(** C110: that a payment which does not ask for it, from a list of coins none of
    which is marked, cannot be replaced, is false once coins are shared: an earlier
    payment from a copy of the list marks them. *)
Theorem C110_plain_refuted : ~ (forall CR W Amt (WD : World W Amt) (HO : HashOk CR) (RO : RandomOk WD) (B : Blind WD) k self (outputs : list (pystr * Amt * pystr)) fee a b o o' m h m' h' m'' sel f w x,
  a <> b -> Forall (fun u => u_sequence u = 0xffffffff) (contents m b) -> o_replace_by_fee o' = false ->
  create_transaction_in (Single k) self outputs fee None (Some a) o m = (Ok h, m') ->
  create_transaction_in (Single k) self outputs fee None (Some b) o' m' = (Ok h', m'') ->
  Asked (Single k) outputs f None o' (contents m' b) sel w h' x -> ~ Signals x).
Proof.
  intros H. destruct C110_case as (h & m' & h' & m'' & x & f & w & E & E' & A & S1).
  refine (H toy _ _ toy_world toy_ok toy_random_ok toy_blind wkey 0%nat one_out (Some 10) 1%nat 2%nat again_opts plain_opts shared_mem h m' h' m'' _ f w x ltac:(discriminate) _ eq_refl E E' A S1).
  rewrite (shared_coins 2); auto. unfold legacy_coins. repeat constructor.
Qed.

(** C110: nor does a list that get_unspents has returned keep its coins until the
    next call of get_unspents: a payment leaves in it those that it spends. *)
Theorem C110_returned_refuted : ~ (forall CR W Amt (WD : World W Amt) (HO : HashOk CR) (RO : RandomOk WD) (B : Blind WD) k self (outputs : list (pystr * Amt * pystr)) fee o m l m' h m'',
  get_unspents_in (Single k) self m = (Ok l, m') -> create_transaction_in (Single k) self outputs fee None None o m' = (Ok h, m'') ->
  length (contents m'' l) = length (contents m' l)).
Proof.
  intros H. set (g := @get_unspents_in toy _ _ toy_world (Single wkey) 0 shared_mem).
  assert (G : match g with (Ok l, m') => match @create_transaction_in toy _ _ toy_world (Single wkey) 0 one_out (Some 10) None None (mkOptions false None false false false) m' with
    (Ok _, m'') => negb (length (contents m'' l) =? length (contents m' l))%nat | _ => false end | _ => false end = true) by (vm_compute; reflexivity).
  destruct g as [[l|e] m'] eqn:E; [|discriminate]. destruct (create_transaction_in _ _ _ _ _ _ _ m') as [[h|e] m''] eqn:E'; [|discriminate].
  rewrite (H toy _ _ toy_world toy_ok toy_random_ok toy_blind wkey 0%nat one_out (Some 10) _ shared_mem l m' h m'' E E'), Nat.eqb_refl in G. discriminate.
Qed.

(** The wallet's view of the memory above; a payment from its own list. *)
Example C110_view_case : View 0 shared_mem wallet0 /\
  (exists h m', @send_in toy _ _ toy_world (Single wkey) 0 one_out (Some 10) None None again_opts shared_mem = (Ok h, m') /\ m_lists m' 2%nat = [0%nat; 1%nat] /\ m_coins m' 0%nat = m_coins shared_mem 0%nat) /\
  (exists l m', @get_unspents_in toy _ _ toy_world (Single wkey) 0 shared_mem = (Ok l, m') /\ length (contents m' l) = 3%nat).
Proof.
  split; [split; [|split]; reflexivity|]. split.
  - set (r := @send_in toy _ _ toy_world (Single wkey) 0 one_out (Some 10) None None again_opts shared_mem).
    assert (G : match r with (Ok _, _) => true | _ => false end = true) by (vm_compute; reflexivity). destruct r as [[h|e] m'] eqn:E; [|discriminate]. exists h, m'.
    destruct (C110_changes toy_blind _ _ _ _ _ _ _ _ _ _ (or_intror E)) as (L & _ & _ & C). split; auto. split; [rewrite L; [reflexivity|discriminate]|].
    destruct (C 0%nat ltac:(cbn; lia)) as [Q|(_ & l & Q & _)]; [exact Q|discriminate].
  - set (r := @get_unspents_in toy _ _ toy_world (Single wkey) 0 shared_mem).
    assert (G : match r with (Ok l, m') => (length (contents m' l) =? 3)%nat | _ => false end = true) by (vm_compute; reflexivity). destruct r as [[l|e] m'] eqn:E; [|discriminate].
    exists l, m'. split; auto. apply Nat.eqb_eq. exact G.
Qed.

Print Assumptions C110_create.
Print Assumptions C110_send.
Print Assumptions C110_changes.
Print Assumptions C110_get.
Print Assumptions C110_marked.
Print Assumptions C110_sticky.
Print Assumptions C110_plain_refuted.
Print Assumptions C110_returned_refuted.
