(** C63: vanity addresses in every schedule; C64: the key returned. *)
From Coq Require Import String.
From Verif Require Import F_base F_utils F_hex F_base58 F_wif P_base58 P_format M_keygen S_Keygen P_keys X_toy.
From Coq Require Import List ZArith Lia.
Import ListNotations.
Open Scope Z_scope.

Section WithCrypto.
Context {CR : Crypto} (HO : HashOk CR) (EO : EcOk CR).

Lemma startswith_iff p s : startswith p s = true <-> exists r, s = p ++ r.
Proof.
  revert s. induction p as [|c p IH]; intros s; cbn; [split; eauto|]. destruct s as [|d s].
  - split; [discriminate|]. intros (r & H). discriminate.
  - rewrite andb_true_iff, Z.eqb_eq, IH. split; [intros (-> & r & ->); eauto|]. intros (r & H). injection H as -> ->. eauto.
Qed.

Lemma upd_len l i w : length (upd l i w) = length l.
Proof. revert i. induction l as [|a l IH]; intros [|i]; cbn; auto. Qed.
Lemma upd_same l i w v : nth_error l i = Some v -> nth_error (upd l i w) i = Some w.
Proof. revert i. induction l as [|a l IH]; intros [|i]; cbn; try discriminate; auto. Qed.
Lemma upd_other l i j w : i <> j -> nth_error (upd l i w) j = nth_error l j.
Proof. revert i j. induction l as [|a l IH]; intros [|i] [|j] H; cbn; auto; try congruence. Qed.
Lemma upd_cases l i w j v : nth_error (upd l i w) j = Some v -> (i = j /\ v = w /\ nth_error l i <> None) \/ (i <> j /\ nth_error l j = Some v).
Proof.
  destruct (Nat.eq_dec i j) as [->|N].
  - intros H. left. destruct (nth_error l j) eqn:Q.
    + rewrite (upd_same _ _ _ _ Q) in H. repeat split; congruence.
    + exfalso. apply nth_error_None in Q. assert (X : nth_error (upd l j w) j <> None) by congruence. apply nth_error_Some in X. rewrite upd_len in X. lia.
  - rewrite upd_other by auto. auto.
Qed.

(** Workers that have counted a key but not made it yet. *)
Definition pending (w : worker) : Z := match w with Unlocking | Generating => 1 | _ => 0 end.
Fixpoint pend (l : list worker) : Z := match l with [] => 0 | w :: r => pending w + pend r end.
Lemma pend_upd l i w v : nth_error l i = Some v -> pend (upd l i w) = pend l - pending v + pending w.
Proof.
  revert i. induction l as [|a l IH]; intros [|i]; cbn; try discriminate; intros H.
  - injection H as ->. lia.
  - rewrite (IH i H). lia.
Qed.
Lemma pend_range l : 0 <= pend l <= Z.of_nat (length l).
Proof. induction l as [|w l IH]; cbn [pend length]; [lia|]. assert (0 <= pending w <= 1) by (destruct w; cbn; lia). lia. Qed.
Lemma c_int_succ z : c_int (c_int z + 1) = c_int (z + 1).
Proof.
  unfold c_int. f_equal. set (m := 2 ^ 32). replace ((z + 2 ^ 31) mod m - 2 ^ 31 + 1 + 2 ^ 31) with ((z + 2 ^ 31) mod m + 1) by lia.
  rewrite Zplus_mod_idemp_l. f_equal. lia.
Qed.
Lemma c_int_counts z : Counts z (c_int z).
Proof.
  unfold Counts, c_int. change (2 ^ 32) with 4294967296. change (2 ^ 31) with 2147483648. pose proof (Z.mod_pos_bound (z + 2147483648) 4294967296).
  split; [lia|]. exists (- ((z + 2147483648) / 4294967296)). rewrite Z.mod_eq; lia.
Qed.
Lemma made_app t u : made (t ++ u) = made t + made u.
Proof. induction t as [|[] t IH]; cbn [app made]; lia. Qed.
Lemma made_by_app i t u : made_by i (t ++ u) = made_by i t + made_by i u.
Proof. induction t as [|[] t IH]; cbn [app made_by]; lia. Qed.
Lemma made_nonneg t : 0 <= made t.
Proof. induction t as [|[] t IH]; cbn [made]; lia. Qed.

Definition holds (w : worker) : bool := match w with Reading | Writing _ | Unlocking => true | _ => false end.
Section Search.
Variable prefix : pystr.
Variable n : nat.

(** A pair made earlier in [t] with a fitting address. *)
Definition Good (t : list event) (s : bytes) (a : pystr) : Prop :=
  NewSecret s /\ (exists i, In (Generated i s) t) /\ a = pair_address s /\ startswith prefix a = true.
Definition WorkerOk (c : Z) (e : bool) (t : list event) (w : worker) : Prop :=
  match w with
  | Writing m => m = c
  | Trying s => NewSecret s /\ exists i, In (Generated i s) t
  | Setting s a => Good t s a
  | Putting s a | Feeding s a => Good t s a /\ e = true
  | Exited => e = true
  | _ => True
  end.
Definition HasItem (st : kstate) : Prop :=
  queue st <> [] \/ (exists i s a, nth_error (workers st) i = Some (Putting s a) \/ nth_error (workers st) i = Some (Feeding s a))
  \/ match main st with Got _ _ | Finished => True | _ => False end.
Definition MainOk (st : kstate) : Prop :=
  match main st with
  | Starting i => (i <= n)%nat /\ forall j w, nth_error (workers st) j = Some w -> w = Waiting <-> (i <= j)%nat
  | _ => forall j, nth_error (workers st) j <> Some Waiting
  end.
(** The result is printed at most once, when the main process ends. *)
Fixpoint prints (t : list event) : nat := match t with [] => 0 | Printed _ _ :: r => S (prints r) | _ :: r => prints r end.
Lemma prints_app t u : prints (t ++ u) = (prints t + prints u)%nat.
Proof. induction t as [|[] t IH]; cbn [app prints]; lia. Qed.
Definition Events (t : list event) : Prop :=
  (forall t1 t2 w a, t = t1 ++ Printed w a :: t2 -> exists s, Good t1 s a /\ w = bytes_to_wif s Main false) /\
  (forall t1 t2 k, t = t1 ++ Shown k :: t2 -> exists b, 0 <= b <= Z.of_nat n /\ Counts (made t1 + b) k).
Record Inv (t : list event) (st : kstate) : Prop := {
  v_len : length (workers st) = n;
  v_lock : forall i w, nth_error (workers st) i = Some w -> holds w = true -> lock st = Some i;
  v_held : forall i, lock st = Some i -> exists w, nth_error (workers st) i = Some w /\ holds w = true;
  v_count : counter st = c_int (made t + pend (workers st));
  v_worker : forall i w, nth_error (workers st) i = Some w -> WorkerOk (counter st) (is_set st) t w;
  v_queue : forall s a, In (s, a) (queue st) -> Good t s a;
  v_got : match main st with Got s a => Good t s a | _ => True end;
  v_set : is_set st = true <-> exists i, In (Matched i) t;
  v_item : is_set st = true -> HasItem st;
  v_main : MainOk st;
  v_once : prints t = match main st with Finished => 1%nat | _ => 0%nat end;
  v_events : Events t
}.
Lemma Good_app t u s a : Good t s a -> Good (t ++ u) s a.
Proof. intros (H1 & (i & H2) & H3). split; auto. split; auto. exists i. apply in_or_app. auto. Qed.
Lemma WorkerOk_app c e t u w : WorkerOk c e t w -> WorkerOk c e (t ++ u) w.
Proof.
  destruct w; cbn; auto.
  - intros [H (i & Hi)]. split; auto. exists i. apply in_or_app. auto.
  - apply Good_app.
  - intros [H ?]. split; auto. apply Good_app. auto.
  - intros [H ?]. split; auto. apply Good_app. auto.
Qed.

Lemma inv_init : Inv [] (search n).
Proof.
  assert (R : forall j w, nth_error (repeat Waiting n) j = Some w -> w = Waiting) by (intros j w H; apply nth_error_In in H; apply repeat_spec in H; auto).
  constructor; cbn.
  - apply repeat_length.
  - intros i w H. rewrite (R _ _ H). discriminate.
  - discriminate.
  - replace (pend (repeat Waiting n)) with 0; [reflexivity|]. clear. induction n; cbn; auto.
  - intros i w H. rewrite (R _ _ H). exact I.
  - contradiction.
  - exact I.
  - split; [discriminate|]. intros (i & []).
  - discriminate.
  - split; [lia|]. intros j w H. split; [lia|]. intros _. eauto.
  - reflexivity.
  - split; intros [|] ? ?; [intros ?| | |]; discriminate.
Qed.

Ltac wk := match goal with H : nth_error (upd _ _ _) _ = Some _ |- _ => apply upd_cases in H as [(-> & -> & _)|(? & H)] end.
Lemma keep_held ws i v v' (l : option nat) : nth_error ws i = Some v -> holds v = holds v' ->
  (forall j, l = Some j -> exists w, nth_error ws j = Some w /\ holds w = true) ->
  forall j, l = Some j -> exists w, nth_error (upd ws i v') j = Some w /\ holds w = true.
Proof.
  intros H E B j Hj. destruct (B j Hj) as (w & Hw & Hh). destruct (Nat.eq_dec i j) as [->|N].
  - exists v'. split; [eapply upd_same; eauto|]. congruence.
  - exists w. rewrite upd_other by auto. auto.
Qed.
Lemma step_lock st es st' : step prefix st es st' ->
  (forall i w, nth_error (workers st) i = Some w -> holds w = true -> lock st = Some i) ->
  (forall i, lock st = Some i -> exists w, nth_error (workers st) i = Some w /\ holds w = true) ->
  (forall i w, nth_error (workers st') i = Some w -> holds w = true -> lock st' = Some i) /\
  (forall i, lock st' = Some i -> exists w, nth_error (workers st') i = Some w /\ holds w = true).
Proof.
  intros S A B. inversion S; subst; cbn [workers lock] in *; try (split; assumption);
    try match goal with H : nth_error _ _ = Some ?v |- _ => pose proof (A _ _ H) as A'; cbn [holds] in A' end;
    (split; [intros j w Hw Hh; try wk; cbn [holds] in *; try discriminate; eauto|
             try (eapply keep_held; [eassumption|reflexivity|assumption])]).
  all: try (specialize (A' eq_refl); match goal with Hw : nth_error _ _ = Some ?w, Hh : holds ?w = true |- _ => specialize (A _ _ Hw Hh) end; congruence).
  all: try (match goal with Hw : nth_error _ _ = Some ?w, Hh : holds ?w = true |- _ => specialize (A _ _ Hw Hh) end; congruence).
  all: try (intros j Hj; discriminate).
  intros j Hj. injection Hj as <-. eexists; split; [eapply upd_same; eassumption|reflexivity].
Qed.

Ltac old := eauto using Good_app, WorkerOk_app.
Lemma step_count t st es st' : step prefix st es st' ->
  (forall i m, nth_error (workers st) i = Some (Writing m) -> m = counter st) ->
  counter st = c_int (made t + pend (workers st)) -> counter st' = c_int (made (t ++ es) + pend (workers st')).
Proof.
  intros S A C. rewrite made_app. inversion S; subst; cbn [workers counter] in *; cbn [made];
    try match goal with H : nth_error ?l ?i = Some _ |- context [upd ?l ?i _] => rewrite (pend_upd _ _ _ _ H) end; cbn [pending];
    try (rewrite C; f_equal; lia).
  match goal with H : nth_error _ _ = Some (Writing _) |- _ => rewrite (A _ _ H), C, c_int_succ end. f_equal. lia.
Qed.
Lemma step_worker t st es st' : step prefix st es st' ->
  (forall i w, nth_error (workers st) i = Some w -> holds w = true -> lock st = Some i) ->
  (forall i w, nth_error (workers st) i = Some w -> WorkerOk (counter st) (is_set st) t w) ->
  forall i w, nth_error (workers st') i = Some w -> WorkerOk (counter st') (is_set st') (t ++ es) w.
Proof.
  intros S L A. inversion S; subst; cbn [workers counter is_set lock] in *; intros j w Hw; try wk; try (rewrite app_nil_r);
    try match goal with H : nth_error _ _ = Some ?v |- _ => pose proof (A _ _ H) as A'; cbn [WorkerOk] in A' end; cbn [WorkerOk]; auto; old.
  - specialize (A _ _ Hw). destruct w; cbn in *; auto. exfalso. pose proof (L _ _ Hw eq_refl) as Q1.
    match goal with H : nth_error _ _ = Some (Writing n0) |- _ => pose proof (L _ _ H eq_refl) end. congruence.
  - split; auto. exists j. apply in_or_app. right. left. auto.
  - destruct A' as [N G]. split; auto.
  - specialize (A _ _ Hw). apply WorkerOk_app. destruct w; cbn in *; intuition auto.
  - match goal with H : nth_error _ _ = Some (Feeding _ _) |- _ => apply (A _ _ H) end.
Qed.
Lemma step_good t st es st' : step prefix st es st' ->
  (forall i w, nth_error (workers st) i = Some w -> WorkerOk (counter st) (is_set st) t w) ->
  (forall s a, In (s, a) (queue st) -> Good t s a) -> match main st with Got s a => Good t s a | _ => True end ->
  (forall s a, In (s, a) (queue st') -> Good (t ++ es) s a) /\ match main st' with Got s a => Good (t ++ es) s a | _ => True end.
Proof.
  intros S W Q M. inversion S; subst; cbn [workers counter is_set queue main] in *; rewrite ?app_nil_r; try (split; auto; fail);
    try (split; [intros; apply Good_app; auto|try (destruct m; auto; apply Good_app; auto); auto]; fail).
  - split; auto. intros s' a' Hi. apply in_app_or in Hi as [Hi|[Hi|[]]]; auto. injection Hi as <- <-.
    match goal with H : nth_error _ _ = Some (Feeding _ _) |- _ => apply (W _ _ H) end.
  - split; [|apply Q; left; auto]. intros s' a' Hi. apply Q. right. auto.
Qed.
Lemma step_set t st es st' : step prefix st es st' -> (is_set st = true <-> exists i, In (Matched i) t) ->
  (is_set st' = true <-> exists i, In (Matched i) (t ++ es)).
Proof.
  intros S A. inversion S; subst; cbn [is_set] in *; rewrite ?app_nil_r; auto;
  try (rewrite A; split; intros (j & Hj); exists j; [apply in_or_app; auto|apply in_app_or in Hj as [Hj|[Hj|[]]]; auto; discriminate]).
  split; auto. intros _. exists i. apply in_or_app. right. left. auto.
Qed.
Lemma keep_item ws i v v' : nth_error ws i = Some v -> match v with Putting _ _ | Feeding _ _ => False | _ => True end ->
  (exists j s a, nth_error ws j = Some (Putting s a) \/ nth_error ws j = Some (Feeding s a)) ->
  exists j s a, nth_error (upd ws i v') j = Some (Putting s a) \/ nth_error (upd ws i v') j = Some (Feeding s a).
Proof.
  intros H V (j & s & a & E). exists j, s, a. rewrite upd_other; auto. intros <-. rewrite H in E. destruct E as [E|E]; injection E as ->; contradiction.
Qed.
Lemma step_item st es st' : step prefix st es st' -> (is_set st = true -> HasItem st) -> is_set st' = true -> HasItem st'.
Proof.
  unfold HasItem. intros S A. inversion S; subst; cbn [is_set queue workers main] in *; intros E; try discriminate;
  try (destruct (A E) as [B|[B|B]]; [left; exact B|right; left; try (eapply keep_item; [eassumption|exact I|]); exact B|right; right; auto; try contradiction]; fail).
  - right. left. exists i, s, a. left. eapply upd_same; eauto.
  - right. left. exists i, s, a. right. eapply upd_same; eauto.
  - left. destruct q; discriminate.
  - right. right. exact I.
Qed.
Lemma keep_main c l e q ws m c' l' e' q' i v v' : nth_error ws i = Some v -> v <> Waiting -> v' <> Waiting ->
  MainOk (mkK c l e q ws m) -> MainOk (mkK c' l' e' q' (upd ws i v') m).
Proof.
  unfold MainOk. cbn [main workers]. intros H V V' A. destruct m as [k| | | | |]; try (intros j Hj; apply upd_cases in Hj as [(_ & Q & _)|(_ & Hj)]; [congruence|exact (A j Hj)]).
  destruct A as [L A]. split; auto. intros j w Hj. apply upd_cases in Hj as [(-> & -> & _)|(_ & Hj)]; auto.
  rewrite <- (A _ _ H). split; intros; contradiction.
Qed.
Lemma step_main st es st' : step prefix st es st' -> length (workers st) = n -> MainOk st -> MainOk st'.
Proof.
  intros S L A. inversion S; subst; try (eapply keep_main; [eassumption| | |eassumption]; discriminate); unfold MainOk in *; cbn [main workers] in *; auto.
  - destruct A as [Li A]. split.
    + match goal with H : nth_error _ _ = Some Waiting |- _ => assert (X : nth_error ws i <> None) by congruence end. apply nth_error_Some in X. lia.
    + intros j w Hj. apply upd_cases in Hj as [(-> & -> & _)|(N & Hj)]; [split; [discriminate|lia]|]. rewrite (A _ _ Hj). lia.
  - destruct A as [_ A]. intros j Hj. assert (X : nth_error ws j <> None) by congruence. apply nth_error_Some in X. pose proof (proj1 (A _ _ Hj) eq_refl). lia.
Qed.
Lemma snoc_split {A} (t : list A) e t1 x t2 : t ++ [e] = t1 ++ x :: t2 -> (t2 = [] /\ t = t1 /\ e = x) \/ exists t3, t2 = t3 ++ [e] /\ t = t1 ++ x :: t3.
Proof.
  destruct t2 as [|y t2] using rev_ind.
  - intros H. apply app_inj_tail in H as [-> ->]. auto.
  - clear IHt2. intros H. right. exists t2. replace (t1 ++ x :: t2 ++ [y]) with ((t1 ++ x :: t2) ++ [y]) in H by (rewrite <- app_assoc; reflexivity).
    apply app_inj_tail in H as [-> ->]. auto.
Qed.
Lemma events_snoc t e : Events t ->
  match e with
  | Printed w a => exists s, Good t s a /\ w = bytes_to_wif s Main false
  | Shown k => exists b, 0 <= b <= Z.of_nat n /\ Counts (made t + b) k
  | _ => True
  end -> Events (t ++ [e]).
Proof.
  intros [A B] H. split.
  - intros t1 t2 w a E. apply snoc_split in E as [(-> & <- & ->)|(t3 & -> & E)]; auto. eapply A; eauto.
  - intros t1 t2 k E. apply snoc_split in E as [(-> & <- & ->)|(t3 & -> & E)]; auto. eapply B; eauto.
Qed.
Lemma inv_step t st es st' : Inv t st -> step prefix st es st' -> Inv (t ++ es) st'.
Proof.
  intros V S. pose proof V as [H1 H2 H3 H4 H5 H6 H7 H8 H9 H10 H11 H12]. destruct (step_lock _ _ _ S H2 H3) as [L1 L2]. destruct (step_good _ _ _ _ S H5 H6 H7) as [G1 G2].
  constructor; auto.
  - inversion S; subst; cbn [workers]; rewrite ?upd_len; auto.
  - apply (step_count t st); auto. intros i m Hm. apply (H5 _ _ Hm).
  - apply (step_worker t st); auto.
  - apply (step_set t st); auto.
  - apply (step_item st es); auto.
  - apply (step_main st es); auto.
  - rewrite prints_app. inversion S; subst; cbn [main prints] in *; lia.
  - inversion S; subst; rewrite ?app_nil_r; auto; apply events_snoc; auto.
    + cbn [counter workers] in *. exists (pend ws). rewrite <- H1. cbn [workers]. split; [apply pend_range|]. rewrite H4. apply c_int_counts.
    + cbn [main] in *. eauto.
Qed.
Lemma inv_run t st : steps prefix (search n) t st -> Inv t st.
Proof.
  intros R. remember (search n) as st0. induction R as [st|st t st1 es st2 R IH S]; subst; [apply inv_init|]. eapply inv_step; eauto.
Qed.
End Search.

(** ** C63 *)
(** The prefix searched for: the one given, after a 1 unless it starts with it. *)
Inductive Wanted : pystr -> pystr -> Prop :=
| N_one r : Wanted (49 :: r) (49 :: r)
| N_other c r : c <> 49 -> Wanted (c :: r) (49 :: c :: r).

Lemma matching_search prefix cores available secret p n : generate_matching_address prefix cores available secret = Ok (inr (p, n)) -> Wanted prefix p.
Proof.
  unfold generate_matching_address. destruct (negb _); [discriminate|]. destruct prefix as [|c r].
  - unfold rmap. destruct (generate_key_address_pair secret); discriminate.
  - intros E. assert (p = if negb (startswith (str "1") (c :: r)) then str "1" ++ c :: r else c :: r) as ->.
    { destruct cores as [|k|]; [injection E as <- _; auto|destruct (_ && _); injection E as <- _; auto|discriminate]. }
    change (startswith (str "1") (c :: r)) with ((49 =? c) && true). rewrite andb_true_r. destruct (Z.eqb_spec 49 c) as [<-|N]; cbn [negb]; [constructor|].
    change (str "1" ++ c :: r) with (49 :: c :: r). constructor. auto.
Qed.

(** Which prefixes are searched for, and by how many processes. *)
Theorem C63_arguments prefix cores available secret : 1 <= available -> NewSecret secret ->
  match generate_matching_address prefix cores available secret with
  | Raise e => e = ValueError /\ ((exists c, In c prefix /\ digit58 c = None) \/ prefix <> [] /\ cores = BadCores)
  | Ok (inl _) => prefix = []
  | Ok (inr (p, n)) => Wanted prefix p /\ Forall (fun c => digit58 c <> None) prefix /\ 1 <= Z.of_nat n <= available /\
      match cores with
      | AllCores => Z.of_nat n = available
      | SomeCores k => (1 <= k <= available -> Z.of_nat n = k) /\ (~ 1 <= k <= available -> n = 1%nat)
      | BadCores => False
      end
  end.
Proof.
  intros A (N1 & N2 & N3).
  assert (D : forall c, existsb (Z.eqb c) BASE58_ALPHABET = true <-> digit58 c <> None).
  { intros c. rewrite existsb_exists, <- index_digit58. split.
    - intros (d & Hd & Q). apply Z.eqb_eq in Q. subst d. intros X. apply index_of_None in X. auto.
    - intros X. destruct (in_dec Z.eq_dec c BASE58_ALPHABET) as [Hc|Hc]; [exists c; split; auto; apply Z.eqb_refl|]. apply index_of_None in Hc. contradiction. }
  destruct (generate_matching_address prefix cores available secret) as [[(w & a)|(p & n)]|e] eqn:E.
  - unfold generate_matching_address in E. destruct (negb _); [discriminate|]. destruct prefix; auto. destruct cores as [|k|]; try discriminate. destruct (_ && _); discriminate.
  - pose proof (matching_search _ _ _ _ _ _ E) as Wd. split; auto. unfold generate_matching_address in E. destruct (forallb _ prefix) eqn:F; [|discriminate]. cbn [negb] in E.
    split. { rewrite forallb_forall in F. apply Forall_forall. intros c Hc. apply D. auto. }
    destruct prefix as [|c r]; [inversion Wd|]. destruct cores as [|k|]; [injection E as _ <-; rewrite Z2Nat.id by lia; lia| |discriminate].
    destruct ((0 <? k) && (k <=? available)) eqn:Q; injection E as _ <-.
    + apply andb_true_iff in Q as [Q1 Q2]. rewrite Z2Nat.id by lia. split; [lia|]. split; auto. lia.
    + cbn [Z.of_nat]. split; [lia|]. split; auto. intros [H1 H2]. exfalso. assert ((0 <? k) && (k <=? available) = true) by lia. congruence.
  - unfold generate_matching_address in E. destruct (forallb _ prefix) eqn:F; cbn [negb] in E.
    + destruct prefix as [|c r].
      * unfold generate_key_address_pair, public_key_to_address, zlen in E. rewrite (eo_pub _ EO) in E by auto. discriminate.
      * destruct cores as [|k|]; [discriminate|destruct (_ && _); discriminate|]. injection E as <-. split; auto. right. split; auto. discriminate.
    + injection E as <-. split; auto. left. clear -F D. induction prefix as [|c r IH]; [discriminate|]. cbn [forallb] in F. destruct (existsb (Z.eqb c) BASE58_ALPHABET) eqn:Q.
      * destruct IH as (d & Hd & Nd); auto. exists d. split; auto. right. auto.
      * exists c. split; [left; auto|]. destruct (digit58 c) eqn:R; auto. exfalso. assert (X : digit58 c <> None) by congruence. apply D in X. congruence.
Qed.

Lemma pair_address_std s : CompressedAddress s (pair_address s).
Proof.
  unfold CompressedAddress, pair_address. apply (encode_check_str HO (0 :: hash160 (ec_pubkey s true))). change (0 :: hash160 (ec_pubkey s true)) with ([0] ++ hash160 (ec_pubkey s true)).
  rewrite bytes_ok_app. apply andb_true_iff. split; [reflexivity|]. apply bytes_ok_Forall, (ripemd160_byte _ HO).
Qed.
Lemma wif_std s : NewSecret s -> UncompressedWif s (bytes_to_wif s Main false).
Proof.
  intros (_ & L & B). unfold UncompressedWif. pose proof (C14_wif_format CR HO s Main false B) as H. cbn [app] in H. rewrite app_nil_r in H. apply H.
Qed.

(** In every schedule: what is printed is a pair made before, the address starts
    with the prefix, and nothing else is printed before or after. *)
Theorem C63_prefix prefix cores available secret p n t1 w a t2 st :
  generate_matching_address prefix cores available secret = Ok (inr (p, n)) ->
  steps p (search n) (t1 ++ Printed w a :: t2) st ->
  exists i s rest, In (Generated i s) t1 /\ NewSecret s /\ CompressedAddress s a /\ UncompressedWif s w /\
    Wanted prefix p /\ a = p ++ rest /\
    forall w' a', ~ In (Printed w' a') t1 /\ ~ In (Printed w' a') t2.
Proof.
  intros E R. apply inv_run in R. pose proof (v_events _ _ _ _ R) as [Ev _]. destruct (Ev _ _ _ _ eq_refl) as (s & (N & (i & Hi) & Ea & Hs) & Ew).
  apply startswith_iff in Hs as (rest & Hr). exists i, s, rest. split; auto. split; auto. split; [rewrite Ea; apply pair_address_std|]. split; [rewrite Ew; apply wif_std; auto|].
  split; [eapply matching_search; eauto|]. split; auto. intros w' a'.
  assert (P : (prints t1 + prints t2 = 0)%nat).
  { pose proof (v_once _ _ _ _ R) as O. rewrite prints_app in O. cbn [prints] in O. destruct (main st); lia. }
  assert (Z0 : forall t, prints t = 0%nat -> ~ In (Printed w' a') t).
  { clear. induction t as [|x t IH]; intros H Hi; [destruct Hi|]. destruct Hi as [-> |Hi]; [cbn in H; lia|]. apply IH; auto. destruct x; cbn in H; auto; lia. }
  split; apply Z0; lia.
Qed.

(** The counter, and every count shown, is the number of keys made so far plus at
    most one for each process (modulo 2^32); no count is lost. *)
Theorem C63_counter p n t st : steps p (search n) t st ->
  (exists b, 0 <= b <= Z.of_nat n /\ Counts (made t + b) (counter st)) /\
  (Forall (fun w => w = Exited) (workers st) -> Counts (made t) (counter st)) /\
  forall t1 k t2, t = t1 ++ Shown k :: t2 -> exists b, 0 <= b <= Z.of_nat n /\ Counts (made t1 + b) k.
Proof.
  intros R. apply inv_run in R. split; [|split].
  - exists (pend (workers st)). rewrite (v_count _ _ _ _ R), <- (v_len _ _ _ _ R). split; [apply pend_range|apply c_int_counts].
  - intros F. rewrite (v_count _ _ _ _ R). replace (pend (workers st)) with 0; [rewrite Z.add_0_r; apply c_int_counts|].
    induction F as [|w l -> F IH]; cbn [pend pending]; auto.
  - intros t1 k t2 E. eapply (proj2 (v_events _ _ _ _ R)); eauto.
Qed.

(** Once a match is announced every process makes at most one more key. *)
Definition may (w : worker) : Z := match w with Locking | Reading | Writing _ | Unlocking | Generating => 1 | _ => 0 end.
Definition may_at (st : kstate) (i : nat) : Z := match nth_error (workers st) i with Some w => may w | None => 0 end.
Lemma may_upd ws c l e q m c' l' e' q' m' i w v j : nth_error ws i = Some v -> may w <= may v -> may_at (mkK c l e q (upd ws i w) m) j <= may_at (mkK c' l' e' q' ws m') j.
Proof.
  intros H L. unfold may_at. cbn [workers]. destruct (Nat.eq_dec i j) as [->|N].
  - rewrite (upd_same _ _ _ _ H), H. auto.
  - rewrite upd_other by auto. destruct (nth_error ws j) as [x|]; lia.
Qed.
Lemma stop_step p st es st' j : step p st es st' -> is_set st = true -> is_set st' = true /\ made_by j es + may_at st' j <= may_at st j.
Proof.
  intros S E. inversion S; subst; cbn [is_set] in *; try discriminate; (split; [auto|]); cbn [made_by];
    try (unfold may_at; cbn [workers]; lia);
    try (rewrite Z.add_0_l; eapply may_upd; [eassumption|cbn [may]; lia]).
  unfold may_at. cbn [workers]. destruct (Nat.eqb_spec j i) as [->|N].
  - match goal with H : nth_error _ _ = Some Generating |- _ => rewrite (upd_same _ _ _ _ H), H end. cbn [may]. lia.
  - rewrite upd_other by auto. lia.
Qed.
Theorem C63_stop p n t st t' st' i : steps p (search n) t st -> (exists j, In (Matched j) t) -> steps p st t' st' -> made_by i t' <= 1.
Proof.
  intros R M R'. apply inv_run in R. apply (v_set _ _ _ _ R) in M.
  assert (G : is_set st' = true /\ made_by i t' + may_at st' i <= may_at st i).
  { clear R. induction R' as [st|st t' st1 es st2 R' IH S]; [cbn; split; auto; lia|]. destruct (IH M) as [M1 L]. destruct (stop_step _ _ _ _ i S M1) as [M2 L2].
    split; auto. rewrite made_by_app. lia. }
  assert (B : forall st, 0 <= may_at st i <= 1) by (intros x; unfold may_at; destruct (nth_error (workers x) i) as [[]|]; cbn; lia).
  pose proof (B st). pose proof (B st'). lia.
Qed.

(** ** No deadlock *)
Section Progress.
Variable prefix : pystr.
Definition can (st : kstate) : Prop := exists t st' w a, steps prefix st t st' /\ In (Printed w a) t.
Lemma steps_cons st es st1 t st2 : step prefix st es st1 -> steps prefix st1 t st2 -> steps prefix st (es ++ t) st2.
Proof.
  intros S R. induction R as [st1|st1 t st2 es' st3 R IH S'].
  - rewrite app_nil_r. change es with ([] ++ es). eapply R_step; [constructor|auto].
  - rewrite app_assoc. eapply R_step; eauto.
Qed.
Lemma can_step st es st1 : step prefix st es st1 -> can st1 -> can st.
Proof. intros S (t & st' & w & a & R & H). exists (es ++ t), st', w, a. split; [eapply steps_cons; eauto|apply in_or_app; auto]. Qed.
Lemma can_got c l e q ws s a : can (mkK c l e q ws (Got s a)).
Proof. eexists _, _, _, _. split; [eapply steps_cons; [apply M_print|apply R_refl]|left; reflexivity]. Qed.
Lemma can_queue c l e q ws : q <> [] -> can (mkK c l e q ws Getting).
Proof. destruct q as [|(s & a) q]; [contradiction|]. intros _. eapply can_step; [apply M_get|apply can_got]. Qed.
Lemma can_feeding i s a c l e q ws : nth_error ws i = Some (Feeding s a) -> can (mkK c l e q ws Getting).
Proof. intros H. eapply can_step; [eapply W_feed; eauto|apply can_queue]. destruct q; discriminate. Qed.
Lemma can_putting i s a c l e q ws : nth_error ws i = Some (Putting s a) -> can (mkK c l e q ws Getting).
Proof. intros H. eapply can_step; [eapply W_put; eauto|eapply can_feeding; eapply upd_same; eauto]. Qed.
Lemma can_setting i s a c l e q ws : nth_error ws i = Some (Setting s a) -> can (mkK c l e q ws Getting).
Proof. intros H. eapply can_step; [eapply W_set; eauto|eapply can_putting; eapply upd_same; eauto]. Qed.
Lemma can_match i s c l e q ws : nth_error ws i = Some (Trying s) -> startswith prefix (pair_address s) = true -> can (mkK c l e q ws Getting).
Proof. intros H M. eapply can_step; [eapply W_match; eauto|eapply can_setting; eapply upd_same; eauto]. Qed.
Variable secret : bytes.
Hypothesis new : NewSecret secret.
Hypothesis fits : startswith prefix (pair_address secret) = true.
Lemma can_generating i c l e q ws : nth_error ws i = Some Generating -> can (mkK c l e q ws Getting).
Proof. intros H. eapply can_step; [eapply W_new; eauto|eapply can_match; eauto; eapply upd_same; eauto]. Qed.
Lemma can_unlocking i c l e q ws : nth_error ws i = Some Unlocking -> can (mkK c l e q ws Getting).
Proof. intros H. eapply can_step; [eapply W_unlock; eauto|eapply can_generating; eapply upd_same; eauto]. Qed.
Lemma can_writing i c l e q ws m : nth_error ws i = Some (Writing m) -> can (mkK c l e q ws Getting).
Proof. intros H. eapply can_step; [eapply W_write; eauto|eapply can_unlocking; eapply upd_same; eauto]. Qed.
Lemma can_reading i c l e q ws : nth_error ws i = Some Reading -> can (mkK c l e q ws Getting).
Proof. intros H. eapply can_step; [eapply W_read; eauto|eapply can_writing; eapply upd_same; eauto]. Qed.
Lemma can_locking i c e q ws : nth_error ws i = Some Locking -> can (mkK c None e q ws Getting).
Proof. intros H. eapply can_step; [eapply W_lock; eauto|eapply can_reading; eapply upd_same; eauto]. Qed.
Lemma can_check i c q ws : nth_error ws i = Some Check -> can (mkK c None false q ws Getting).
Proof. intros H. eapply can_step; [eapply W_go; eauto|eapply can_locking; eapply upd_same; eauto]. Qed.
Lemma can_trying i c q ws s : nth_error ws i = Some (Trying s) -> can (mkK c None false q ws Getting).
Proof.
  intros H. destruct (startswith prefix (pair_address s)) eqn:M; [eapply can_match; eauto|].
  eapply can_step; [eapply W_miss; eauto|eapply can_check; eapply upd_same; eauto].
Qed.
Variable n : nat.
Hypothesis some : (1 <= n)%nat.
Lemma can_getting t c l e q ws : Inv prefix n t (mkK c l e q ws Getting) -> can (mkK c l e q ws Getting).
Proof.
  intros [H1 H2 H3 H4 H5 H6 H7 H8 H9 H10 H11 H12]. cbn [workers lock counter is_set queue main] in *. destruct e.
  - destruct (H9 eq_refl) as [Q|[(i & s & a & [Q|Q])|Q]]; cbn in Q; [apply can_queue; auto|eapply can_putting; eauto|eapply can_feeding; eauto|contradiction].
  - destruct l as [i|].
    + destruct (H3 i eq_refl) as (w & Hw & Hh). destruct w; try discriminate; [eapply can_reading|eapply can_writing|eapply can_unlocking]; eauto.
    + destruct (nth_error ws 0) as [w|] eqn:Hw; [|apply nth_error_None in Hw; lia]. pose proof (H5 _ _ Hw) as O.
      destruct w; cbn in O; [exfalso; eapply H10; eauto|eapply can_check|eapply can_locking|eapply can_reading|eapply can_writing|eapply can_unlocking|eapply can_generating|
        eapply can_trying|eapply can_setting|eapply can_putting|eapply can_feeding|discriminate]; eauto.
Qed.
(** One more step with the invariant, no event. *)
Lemma can_more t st st1 : step prefix st [] st1 -> Inv prefix n t st -> (Inv prefix n t st1 -> can st1) -> can st.
Proof. intros S V H. eapply can_step; [exact S|]. apply H. rewrite <- (app_nil_r t). eapply inv_step; eauto. Qed.
Lemma can_looking t k c e q ws : c <> 0 -> Inv prefix n t (mkK c None e q ws (Looking k)) -> can (mkK c None e q ws (Looking k)).
Proof.
  intros C V. destruct (Z.eq_dec c k) as [<-|N].
  - eapply can_more; [apply M_break; auto|exact V|]. apply can_getting.
  - eapply can_step; [apply M_show; auto|]. assert (V' := inv_step _ _ _ _ _ _ V (M_show _ _ _ _ _ _ N)).
    eapply can_more; [apply M_sleep|exact V'|]. intros V2. eapply can_more; [apply M_break; auto|exact V2|]. apply can_getting.
Qed.
Lemma c_int_small z : 0 < z < 2 ^ 32 -> c_int z <> 0.
Proof.
  unfold c_int. change (2 ^ 32) with 4294967296. change (2 ^ 31) with 2147483648. intros H E.
  destruct (Z_lt_dec z 2147483648).
  - rewrite Z.mod_small in E; lia.
  - replace (z + 2147483648) with (z - 2147483648 + 1 * 4294967296) in E by lia. rewrite Z.mod_add, Z.mod_small in E; lia.
Qed.
Lemma pend_bound ws i v : nth_error ws i = Some v -> pending v = 0 -> pend ws <= Z.of_nat (length ws) - 1.
Proof.
  revert i. induction ws as [|w ws IH]; intros [|i] H P; cbn [pend length] in *; try discriminate.
  - injection H as ->. pose proof (pend_range ws). lia.
  - specialize (IH i H P). assert (pending w <= 1) by (destruct w; cbn; lia). lia.
Qed.
Lemma pend_bound' ws i v : nth_error ws i = Some v -> pending v <= pend ws.
Proof.
  revert i. induction ws as [|w ws IH]; intros [|i] H; cbn [pend] in *; try discriminate.
  - injection H as ->. pose proof (pend_range ws). lia.
  - specialize (IH i H). assert (0 <= pending w) by (destruct w; cbn; lia). lia.
Qed.
Lemma made_In t i s : In (Generated i s) t -> 0 < made t.
Proof. induction t as [|x t IH]; intros H; [destruct H|]. destruct H as [-> | H]; cbn [made]; [pose proof (made_nonneg t); lia|]. specialize (IH H). destruct x; lia. Qed.
Lemma can_look t k c l e q ws : made t + Z.of_nat n < 2 ^ 32 -> Inv prefix n t (mkK c l e q ws (Looking k)) -> can (mkK c l e q ws (Looking k)).
Proof.
  intros B V. pose proof V as [H1 H2 H3 H4 H5 H6 H7 H8 H9 H10 H11 H12]. cbn [workers lock counter is_set queue main] in *. pose proof (made_nonneg t) as M0. pose proof (pend_range ws) as P0.
  assert (U : forall i c l e q ws, nth_error ws i = Some Unlocking -> Inv prefix n t (mkK c l e q ws (Looking k)) -> can (mkK c l e q ws (Looking k))).
  { clear - B M0 some fits new. intros i c l e q ws Hi V. eapply can_more; [eapply W_unlock; eauto|exact V|]. eapply can_looking.
    pose proof (v_count _ _ _ _ V) as C. cbn [counter workers] in C. rewrite C. apply c_int_small. pose proof (pend_bound' _ _ _ Hi) as Q. cbn in Q.
    pose proof (pend_range ws) as P. pose proof (v_len _ _ _ _ V) as L. cbn in L. lia. }
  assert (Wr : forall i c l e q ws m, nth_error ws i = Some (Writing m) -> Inv prefix n t (mkK c l e q ws (Looking k)) -> can (mkK c l e q ws (Looking k))).
  { intros i c' l' e' q' ws' m Hi V'. eapply can_more; [eapply W_write; eauto|exact V'|]. apply (U i). eapply upd_same; eauto. }
  assert (Rd : forall i c l e q ws, nth_error ws i = Some Reading -> Inv prefix n t (mkK c l e q ws (Looking k)) -> can (mkK c l e q ws (Looking k))).
  { intros i c' l' e' q' ws' Hi V'. eapply can_more; [eapply W_read; eauto|exact V'|]. apply (Wr i _ _ _ _ _ c'). eapply upd_same; eauto. }
  destruct l as [i|].
  - destruct (H3 i eq_refl) as (w & Hw & Hh). destruct w; try discriminate; [eapply Rd|eapply Wr|eapply U]; eauto.
  - destruct (Z.eq_dec (made t + pend ws) 0) as [Z0|NZ].
    2:{ apply (can_looking t); auto. rewrite H4. apply c_int_small. lia. }
    assert (Lk : forall e q ws i, nth_error ws i = Some Locking -> Inv prefix n t (mkK c None e q ws (Looking k)) -> can (mkK c None e q ws (Looking k))).
    { intros e' q' ws' i Hi V'. eapply can_more; [eapply W_lock; eauto|exact V'|]. apply (Rd i). eapply upd_same; eauto. }
    assert (NG : forall i s, ~ In (Generated i s) t) by (intros i s Hi; apply made_In in Hi; lia).
    assert (E : e = false).
    { destruct e; auto. exfalso. destruct (H9 eq_refl) as [Q|[(i & s & a & Q)|Q]]; cbn [queue workers main] in Q.
      - destruct q as [|(s & a) q]; [contradiction|]. destruct (H6 s a) as (_ & (i & Hi) & _); [left; auto|]. eapply NG; eauto.
      - destruct Q as [Q|Q]; apply H5 in Q; destruct Q as [(_ & (j & Hj) & _) _]; eapply NG; eauto.
      - contradiction. }
    subst e. destruct (nth_error ws 0) as [w|] eqn:Hw; [|apply nth_error_None in Hw; lia]. pose proof (H5 _ _ Hw) as O. pose proof (pend_bound' _ _ _ Hw) as PB.
    destruct w; cbn in O, PB; try lia.
    + exfalso. eapply H10; eauto.
    + eapply can_more; [eapply W_go; eauto|exact V|]. eapply Lk. eapply upd_same; eauto.
    + eapply Lk; eauto.
    + pose proof (H2 _ _ Hw eq_refl). discriminate.
    + pose proof (H2 _ _ Hw eq_refl). discriminate.
    + exfalso. destruct O as (_ & j & Hj). eapply NG; eauto.
    + exfalso. destruct O as (_ & (j & Hj) & _). eapply NG; eauto.
Qed.
Lemma can_always t st : made t + Z.of_nat n < 2 ^ 32 -> Inv prefix n t st -> main st <> Finished -> can st.
Proof.
  intros B V F. destruct st as [c l e q ws m]. cbn [main] in F. destruct m as [i|k|k| |s a|].
  - remember (n - i)%nat as d eqn:D. revert i c l e q ws V D F. induction d as [|d IH]; intros i c l e q ws V D _.
    + pose proof (v_len _ _ _ _ V) as L. pose proof (v_main _ _ _ _ V) as [Li _]. cbn [workers] in *. assert (i = length ws) as -> by lia.
      eapply can_more; [apply M_started|exact V|]. intros V1. eapply can_more; [apply M_sleep|exact V1|]. apply can_look. auto.
    + pose proof (v_len _ _ _ _ V) as L. pose proof (v_main _ _ _ _ V) as [Li A]. cbn [workers] in *. destruct (nth_error ws i) as [w|] eqn:Hw; [|apply nth_error_None in Hw; lia].
      assert (w = Waiting) as -> by (apply (A i w Hw); lia).
      eapply can_more; [eapply M_start; eauto|exact V|]. intros V1. apply IH; auto; [lia|discriminate].
  - eapply can_more; [apply M_sleep|exact V|]. apply can_look. auto.
  - apply (can_look t); auto.
  - apply (can_getting t); auto.
  - apply can_got.
  - contradiction.
Qed.
End Progress.
(** From every state that a search can be in, whatever the schedule so far, the
    result can still be printed, if some key fits and fewer than 2^32 keys have
    been made. *)
Theorem C63_progress p n t st secret : NewSecret secret -> startswith p (pair_address secret) = true -> (1 <= n)%nat ->
  steps p (search n) t st -> made t + Z.of_nat n < 2 ^ 32 ->
  (exists w a, In (Printed w a) t) \/ exists t' st' w a, steps p st t' st' /\ In (Printed w a) t'.
Proof.
  intros N F L R B. apply inv_run in R. destruct (main st) eqn:M; try (right; eapply (can_always p secret N F n L t st); auto; congruence).
  left. pose proof (v_once _ _ _ _ R) as O. rewrite M in O. clear -O. induction t as [|x t IH]; [discriminate|]. destruct x; cbn in O; try (destruct (IH O) as (w & a & H); exists w, a; right; auto).
  exists wif, address. left. auto.
Qed.

(** The counter is a C int: after exactly 2^32 keys it is zero again, and the main
    process, which takes zero for "no key yet", never looks at the queue, although
    a match is there.  So the bound above is needed. *)
Section Wrap.
Variable p : pystr.
Variables f g : bytes.
Hypothesis Nf : NewSecret f.
Hypothesis Ng : NewSecret g.
Hypothesis Ff : startswith p (pair_address f) = true.
Hypothesis Fg : startswith p (pair_address g) = false.
Lemma count_up c q m s : NewSecret s -> exists t, steps p (mkK c None false q [Check] m) t (mkK (c_int (c + 1)) None false q [Trying s] m) /\ made t = 1.
Proof.
  intros Ns. eexists. split.
  - eapply steps_cons; [eapply (W_go p 0); reflexivity|]. eapply steps_cons; [eapply (W_lock p 0); reflexivity|]. eapply steps_cons; [eapply (W_read p 0); reflexivity|].
    eapply steps_cons; [eapply (W_write p 0); reflexivity|]. eapply steps_cons; [eapply (W_unlock p 0); reflexivity|]. eapply steps_cons; [eapply (W_new p 0); [reflexivity|exact Ns]|]. apply R_refl.
  - reflexivity.
Qed.
Lemma steps_app st t st1 t' st2 : steps p st t st1 -> steps p st1 t' st2 -> steps p st (t ++ t') st2.
Proof. intros R R'. induction R' as [st1|st1 t' st2 es st3 R' IH S]; [rewrite app_nil_r; auto|]. rewrite app_assoc. eapply R_step; eauto. Qed.
Lemma miss q m : forall (k : nat) z, exists t, steps p (mkK (c_int z) None false q [Check] m) t (mkK (c_int (z + Z.of_nat k)) None false q [Check] m) /\ made t = Z.of_nat k.
Proof.
  induction k as [|k IH]; intros z; [exists []; rewrite Z.add_0_r; split; [apply R_refl|reflexivity]|].
  destruct (count_up (c_int z) q m g Ng) as (t1 & R1 & M1). destruct (IH (z + 1)) as (t2 & R2 & M2). exists (t1 ++ t2). split.
  - eapply steps_app; [exact R1|]. change t2 with ([] ++ t2). eapply steps_cons; [eapply (W_miss p 0); [reflexivity|exact Fg]|]. rewrite c_int_succ. cbn [upd].
    replace (z + Z.of_nat (S k)) with (z + 1 + Z.of_nat k) by lia. exact R2.
  - rewrite made_app. lia.
Qed.
Lemma stuck q t st st' : steps p st t st' -> st = mkK 0 None true q [Exited] (Sleeping 0) ->
  t = [] /\ (st' = mkK 0 None true q [Exited] (Sleeping 0) \/ st' = mkK 0 None true q [Exited] (Looking 0)).
Proof.
  induction 1 as [st|st t st1 es st2 R IH S]; intros ->; [auto|]. destruct (IH eq_refl) as [-> [-> | ->]]; inversion S; subst; auto; try congruence;
    match goal with H : nth_error [Exited] ?i = Some _ |- _ => destruct i as [|[|i]]; discriminate H end.
Qed.
Theorem C63_wraparound_refuted : exists t st, steps p (search 1) t st /\ made t = 2 ^ 32 /\ queue st = [(f, pair_address f)] /\
  forall t' st', steps p st t' st' -> t' = [].
Proof.
  destruct (miss [] (Sleeping 0) (Z.to_nat (2 ^ 32 - 1)) 0) as (t1 & R1 & M1). rewrite Z2Nat.id in R1, M1 by lia.
  destruct (count_up (c_int (0 + (2 ^ 32 - 1))) [] (Sleeping 0) f Nf) as (t2 & R2 & M2). rewrite c_int_succ in R2. change (c_int (0 + (2 ^ 32 - 1) + 1)) with 0 in R2.
  change (c_int 0) with 0 in R1.
  assert (R : steps p (search 1) (t1 ++ t2 ++ [Matched 0]) (mkK 0 None true [(f, pair_address f)] [Exited] (Sleeping 0))).
  { change (t1 ++ t2 ++ [Matched 0]) with ([] ++ [] ++ t1 ++ t2 ++ [] ++ [Matched 0] ++ [] ++ [] ++ []).
    eapply steps_cons; [eapply (M_start p 0); reflexivity|]. eapply steps_cons; [apply (M_started p 0 None false [] [Check])|]. cbn [upd].
    eapply steps_app; [exact R1|]. eapply steps_app; [exact R2|]. eapply steps_cons; [eapply (W_match p 0); [reflexivity|exact Ff]|]. eapply steps_cons; [eapply (W_set p 0); reflexivity|].
    eapply steps_cons; [eapply (W_put p 0); reflexivity|]. eapply steps_cons; [eapply (W_feed p 0); reflexivity|]. apply R_refl. }
  exists (t1 ++ t2 ++ [Matched 0]). eexists. split; [exact R|]. split; [|split; [reflexivity|]].
  - rewrite !made_app, M1, M2. reflexivity.
  - intros t' st' R'. eapply stuck in R'; [|reflexivity]. apply R'.
Qed.
End Wrap.

(** ** C64 *)
(** The string returned is read as the uncompressed key of the secret; that key
    has the address returned only if the two forms of the public key have the
    same hash.  The compressed key of the secret does have the address. *)
Lemma compressed_inj s pk a : CompressedAddress s a -> Base58CheckStr (0 :: hash160 pk) a -> hash160 (ec_pubkey s true) = hash160 pk.
Proof.
  unfold CompressedAddress, Base58CheckStr. intros A B.
  assert (O : forall x, bytes_ok ((0 :: hash160 x) ++ firstn 4 (sha256 (sha256 (0 :: hash160 x)))) = true).
  { intros x. rewrite bytes_ok_app. apply andb_true_iff. split.
    - change (0 :: hash160 x) with ([0] ++ hash160 x). rewrite bytes_ok_app. apply andb_true_iff. split; [reflexivity|]. apply bytes_ok_Forall, (ripemd160_byte _ HO).
    - apply bytes_ok_firstn. apply bytes_ok_Forall, (sha256_byte _ HO). }
  pose proof (Base58_inj _ _ _ (O _) (O _) A B) as E. cbn [app] in E. injection E as E.
  assert (L : forall x, length (hash160 x) = 20%nat) by (intros x; apply (ripemd160_len _ HO)).
  apply (f_equal (firstn 20)) in E. rewrite !firstn_app, !L in E. rewrite !Nat.sub_diag, !firstn_O, !app_nil_r, !firstn_all2 in E by (rewrite L; lia). auto.
Qed.
Lemma check_unique p a b : bytes_ok p = true -> Base58CheckStr p a -> Base58CheckStr p b -> a = b.
Proof.
  intros O A B. assert (O' : bytes_ok (p ++ firstn 4 (sha256 (sha256 p))) = true) by (rewrite bytes_ok_app, O; apply bytes_ok_firstn, bytes_ok_Forall, (sha256_byte _ HO)).
  apply (b58encode_spec _ O') in A. apply (b58encode_spec _ O') in B. congruence.
Qed.
Theorem C64_other_key s w a : NewSecret s -> CompressedAddress s a -> UncompressedWif s w ->
  exists k k' b, wif_to_key w = Ok k /\ k_public_key k = ec_pubkey s false /\ key_address k = Ok b /\
    (b = a -> hash160 (ec_pubkey s true) = hash160 (ec_pubkey s false)) /\
    key_from_hex Main (bytes_to_hex s) = Ok k' /\ key_address k' = Ok a.
Proof.
  intros N A U. pose proof N as (N1 & N2 & N3).
  assert (B0 : forall x, bytes_ok (0 :: hash160 x) = true).
  { intros x. change (0 :: hash160 x) with ([0] ++ hash160 x). rewrite bytes_ok_app. apply andb_true_iff. split; [reflexivity|]. apply bytes_ok_Forall, (ripemd160_byte _ HO). }
  assert (w = bytes_to_wif s Main false) as ->. { eapply check_unique; [|exact U|apply wif_std; auto]. change (128 :: s) with ([128] ++ s). rewrite bytes_ok_app, N3. reflexivity. }
  assert (a = pair_address s) as ->. { eapply check_unique; [|exact A|apply pair_address_std]. apply B0. }
  exists (make_key Main s false), (make_key Main s true), (b58encode_check ([0] ++ ripemd160_sha256 (ec_pubkey s false))). split.
  { assert (K : IsKey Main s false (make_key Main s false)) by (repeat split; auto). pose proof (C65_restores HO EO _ _ _ _ K) as R.
    unfold key_to_wif in R. rewrite (IsKey_compressed EO _ _ _ _ K) in R. exact R. }
  split; [reflexivity|]. split. { unfold key_address, public_key_to_address, zlen. cbn [k_public_key k_version make_key]. rewrite (eo_pub _ EO) by auto. reflexivity. }
  split. { intros E. apply (compressed_inj s _ (pair_address s)); auto. rewrite <- E. apply (encode_check_str HO (0 :: hash160 (ec_pubkey s false))). apply B0. }
  split. { assert (K : IsKey Main s true (make_key Main s true)) by (repeat split; auto). destruct (C70_roundtrips EO _ _ _ _ K) as [R _]. exact R. }
  unfold key_address, public_key_to_address, zlen. cbn [k_public_key k_version make_key]. rewrite (eo_pub _ EO) by auto. reflexivity.
Qed.
(** Both generators return such pairs. *)
Theorem C64_pairs s : NewSecret s -> exists w a, generate_key_address_pair s = Ok (w, a) /\ CompressedAddress s a /\ UncompressedWif s w.
Proof.
  intros N. pose proof N as (N1 & N2 & N3). exists (bytes_to_wif s Main false), (pair_address s). split; [|split; [apply pair_address_std|apply wif_std; auto]].
  unfold generate_key_address_pair, public_key_to_address, zlen. rewrite (eo_pub _ EO) by auto. reflexivity.
Qed.
End WithCrypto.

(** A concrete case of the claim failing: the key read from the string has
    another address. *)
Definition vanity : bytes := repeat 7 32.
Theorem C64_refuted : exists w a k, @generate_key_address_pair toy vanity = Ok (w, a) /\ @wif_to_key toy w = Ok k /\ @key_address toy k <> Ok a.
Proof.
  assert (G : (match @generate_key_address_pair toy vanity with Ok (w, a) => match @wif_to_key toy w with Ok k =>
     match @key_address toy k with Ok b => negb (list_eqb a b) | _ => false end | _ => false end | _ => false end) = true) by (vm_compute; reflexivity).
  destruct (@generate_key_address_pair toy vanity) as [(w & a)|]; [|discriminate]. exists w, a. destruct (@wif_to_key toy w) as [k|]; [|discriminate]. exists k. do 2 (split; auto).
  destruct (@key_address toy k) as [b|]; [|discriminate]. intros Q. injection Q as ->. assert (H : list_eqb a a = true) by (apply list_eqb_eq; auto). rewrite H in G. discriminate.
Qed.

(** ** The hypotheses are met: a key whose address starts with 1 and another
    character, one whose address does not, and a run that prints. *)
Definition vprefix : pystr := firstn 2 (@pair_address toy vanity).
Definition other_secret : bytes := repeat 9 32.
Example C63_hypotheses : @NewSecret toy vanity /\ @NewSecret toy other_secret /\ startswith vprefix (@pair_address toy vanity) = true /\
  startswith vprefix (@pair_address toy other_secret) = false /\
  exists p, @generate_matching_address toy (tl vprefix) AllCores 4 vanity = Ok (inr (p, 4%nat)) /\ p = vprefix.
Proof. repeat split; try (vm_compute; reflexivity). exists vprefix. split; vm_compute; reflexivity. Qed.
Example C63_run : exists t st w a, @steps toy vprefix (search 4) t st /\ In (Printed w a) t.
Proof.
  destruct C63_hypotheses as (N & _ & F & _).
  destruct (@C63_progress toy vprefix 4 [] (search 4) vanity N F) as [(w & a & [])|(t & st & w & a & R & H)]; [lia|constructor|reflexivity|].
  exists t, st, w, a. auto.
Qed.
Print Assumptions C63_arguments.
Print Assumptions C63_prefix.
Print Assumptions C63_counter.
Print Assumptions C63_stop.
Print Assumptions C63_progress.
Print Assumptions C63_wraparound_refuted.
Print Assumptions C64_other_key.
Print Assumptions C64_pairs.
Print Assumptions C64_refuted.
