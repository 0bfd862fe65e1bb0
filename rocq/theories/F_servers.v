(** Lemmas: reading what servers answer. *)
From Coq Require Import String.
From Verif Require Import F_base F_decimal M_services S_Decimal S_Servers F_network P_rates.

(** ** Amounts *)
Lemma parse_scientific c k s : Scientific c k s -> parse_dec s = Ok (Fin false c (- k)).
Proof.
  intros [c' k' s' A|c' k' s' x xs A DX NE]; [apply parse_signed; constructor; auto|].
  unfold parse_dec. destruct (Amount_clean _ _ _ A) as (A1 & A2 & A3).
  pose proof (Digits_chars _ _ DX) as CX.
  assert (AX : Amount x 0 xs) by (constructor; auto). destruct (Amount_clean _ _ _ AX) as (X1 & X2 & _).
  rewrite strip_id by (rewrite !forallb_app, A1, X1; reflexivity). rewrite no_underscore by (rewrite !forallb_app, A2, X2; reflexivity).
  assert (SG : sign_of (s' ++ [101; 45] ++ xs) = (false, s' ++ [101; 45] ++ xs)).
  { pose proof (Amount_chars _ _ _ A) as P. destruct s' as [|y s']; [congruence|]. cbn in P. apply andb_true_iff in P as [P _].
    cbn [sign_of app]. unfold plain_char, is_digit in P.
    destruct (Z.eqb_spec y 45) as [->|]; [discriminate P|]. destruct (Z.eqb_spec y 43) as [->|]; [discriminate P|]. reflexivity. }
  rewrite SG.
  assert (NX : num xs = x) by (apply Digits_num; auto).
  assert (SX : span_digits xs = (xs, [])) by (rewrite <- (app_nil_r xs) at 1; apply span_all; auto; discriminate).
  assert (EXP : forall w i f, i ++ f <> [] -> num (i ++ f) = c' -> zlen f = k' ->
    match i ++ f with
    | [] => (let s := lower w in if in_listb s [str "inf"; str "infinity"] then Ok (Inf false)
      else if list_eqb (firstn 3 s) (str "nan") && forallb is_digit (skipn 3 s) then Ok (NaN false)
      else if list_eqb (firstn 4 s) (str "snan") && forallb is_digit (skipn 4 s) then Ok (NaN true)
      else Raise InvalidOperation)
    | _ => let '(eneg, r') := sign_of (45 :: xs) in let '(x, rest) := span_digits r' in
          match x, rest with
          | _ :: _, [] => if (101 =? 69) || (101 =? 101) then Ok (Fin false (num (i ++ f)) ((if eneg then - num x else num x) - zlen f))
                          else Raise InvalidOperation
          | _, _ => Raise InvalidOperation
          end
    end = Ok (Fin false c' (- (k' + x)))).
  { intros w i f NN E1 E2. destruct (i ++ f) as [|y t] eqn:EI; [congruence|]. cbn [sign_of Z.eqb Pos.eqb]. rewrite SX.
    destruct xs as [|z zs]; [congruence|]. cbn [Z.eqb Pos.eqb orb]. rewrite NX, E1, E2. do 2 f_equal. lia. }
  destruct A as [c' ds D ND|c' ds fs D ND].
  - pose proof (Digits_chars _ _ D). rewrite span_all; [|auto|intros y t E; injection E as <- _; reflexivity].
    cbn [app Z.eqb Pos.eqb]. rewrite !app_nil_r. specialize (EXP (ds ++ 101 :: 45 :: xs) ds []). rewrite !app_nil_r in EXP. apply EXP; auto. apply Digits_num; auto.
  - pose proof (Digits_chars _ _ D) as G. rewrite forallb_app in G. apply andb_true_iff in G as [G1 G2].
    rewrite <- app_assoc. rewrite span_all; [|auto|intros y t E; injection E as <- _; reflexivity].
    cbn [app Z.eqb Pos.eqb]. change (fs ++ 101 :: 45 :: xs) with (fs ++ ([101; 45] ++ xs)).
    rewrite span_all; [|auto|intros y t E; injection E as <- _; reflexivity]. cbn [app].
    apply EXP; auto. apply Digits_num; auto.
Qed.
Lemma amount_read prec v d k s : Scientific d k s -> d * 10 ^ 8 = v * 10 ^ k -> 0 <= v < 10 ^ prec -> 1 <= prec <= 100000 -> 0 <= k < 100000 -> 0 <= d ->
  times_amount prec BTC s = Ok v.
Proof.
  intros S0 EV Hv Hp Hk Hd. unfold times_amount, Decimal. rewrite (parse_scientific _ _ _ S0). cbn [bind].
  destruct (mul_exact prec BTC false d k v k) as (x & -> & E2); try lia.
  { unfold BTC. lia. }
  { unfold BTC. change 100000000 with (10 ^ 8). lia. }
  cbn [bind]. rewrite E2. f_equal. unfold trunc, BTC. change 100000000 with (10 ^ 8). rewrite Z.mul_comm, EV. apply Z.div_mul. pose proof (p10 k). lia.
Qed.

(** A float close to an amount of at most nine digits, times 10^8 in nine digits. *)
Lemma round_near V c k : 0 < V < 10 ^ 9 -> 0 <= k < 100000 -> 0 < c ->
  Z.abs (c * 10 ^ 8 - V * 10 ^ k) * 10 ^ 12 <= V * 10 ^ k ->
  exists x, dec_mul 9 (Fin false c (- k)) (dec_of_int BTC) = Ok x /\ dec_to_int x = Ok V.
Proof.
  intros HV Hk Hc HE. change (dec_of_int BTC) with (Fin false (10 ^ 8) 0). cbn [dec_mul xorb]. rewrite Z.add_0_r.
  set (P := c * 10 ^ 8) in *. assert (HP : 0 < P) by (subst P; lia). clearbody P. pose proof (p10 k ltac:(lia)) as Pk.
  pose proof (ndigits_bounds P HP) as [B1 B2]. assert (HN : ndigits P <= k + 10).
  { apply ndigits_le; [|lia]. split; [lia|]. rewrite Z.pow_add_r by lia. nia. }
  destruct (Z_le_gt_dec (ndigits P) 9) as [NL|NG].
  { rewrite fix_exact; auto; [|cbv [Emin]; lia|cbv [Emax]; lia]. eexists. split; [reflexivity|].
    assert (P < 10 ^ 9) by (apply Z.lt_le_trans with (1 := B2); apply Z.pow_le_mono_r; lia).
    rewrite (to_int_scaled false (V * 10 ^ k) k P (- k)); [|lia|lia|].
    - unfold trunc. rewrite Z.div_mul by lia. reflexivity.
    - replace (- k + k) with 0 by lia. change (10 ^ 0) with 1. lia. }
  destruct (fix_rounds 9 false P (- k)) as (c1 & e1 & J & -> & (R1 & R2 & R3 & R4 & R5 & _) & _ & DV & DJ); auto; [lia|cbv [Emin]; lia|cbv [Emax]; lia|].
  eexists. split; [reflexivity|].
  assert (EQ : c1 * 10 ^ (e1 - - k) = V * 10 ^ k).
  { assert (EJ : J = ndigits P - 9) by lia. assert (JK : J <= k).
      { destruct (Z_le_gt_dec J k) as [|G]; auto. exfalso. rewrite EJ in G. assert (10 ^ (k + 9) <= 10 ^ (ndigits P - 1)) by (apply Z.pow_le_mono_r; lia).
        rewrite Z.pow_add_r in H by lia. nia. }
      destruct DV as [q EQ]. rewrite EQ in *. replace (10 ^ k) with (10 ^ (k - J) * 10 ^ J) in * by (rewrite <- Z.pow_add_r by lia; f_equal; lia).
      assert (PB : P < 10 ^ 9 * 10 ^ J) by (rewrite <- Z.pow_add_r by lia; replace (9 + J) with (ndigits P) by lia; auto).
      pose proof (p10 J R3). rewrite Z.mul_assoc in HE |- *. f_equal. set (w := V * 10 ^ (k - J)) in *. clearbody w. clear - HE R5 PB H.
      revert HE R5 PB H. generalize (10 ^ J). intros p HE R5 PB Hp. nia. }
  rewrite (to_int_scaled false (V * 10 ^ k) k c1 e1); [|lia|lia|rewrite <- EQ; do 2 f_equal; lia].
  unfold trunc. rewrite Z.div_mul; auto. lia.
Qed.

(** ** JSON *)
Lemma find_key (k : pystr) (v : json) fs : NoDup (map fst fs) -> In (k, v) fs -> find (fun p => list_eqb (fst p) k) fs = Some (k, v).
Proof.
  induction fs as [|[k' v'] fs IH]; intros ND I; [destruct I|]. cbn [find fst]. cbn in ND. inversion ND as [|? ? NI ND']; subst.
  destruct (list_eqb k' k) eqn:EK.
  - apply list_eqb_eq in EK. subst k'. destruct I as [I|I]; [injection I as ->; reflexivity|]. destruct NI. apply (in_map fst) in I. exact I.
  - destruct I as [I|I].
    + injection I as -> ->. assert (T : list_eqb k k = true) by (apply list_eqb_eq; reflexivity). congruence.
    + apply IH; auto.
Qed.
Lemma has_key k v j : HasKey k v j -> jget_key k j = Ok v.
Proof. intros (fs & -> & ND & I). cbn. rewrite (find_key _ _ _ ND I). reflexivity. Qed.
Lemma has k v j : Has k v j -> jget k j = Ok v.
Proof. intros (fs & -> & ND & I). cbn. rewrite (find_key _ _ _ ND I). reflexivity. Qed.
Lemma has_jhas k v j : Has k v j -> jhas k j = Ok true.
Proof.
  intros (fs & -> & ND & I). cbn. f_equal. apply existsb_exists. exists (str k, v). split; auto. apply list_eqb_eq. reflexivity.
Qed.
Lemma lacks_jhas k j : Lacks k j -> jhas k j = Ok false.
Proof.
  intros (fs & -> & NI). cbn. f_equal. match goal with |- ?b = false => destruct b eqn:EX; auto end. apply existsb_exists in EX as ([k' v'] & I & EK).
  apply list_eqb_eq in EK. cbn in EK. destruct NI. apply in_map_iff. exists (k', v'). cbn. auto.
Qed.
Lemma mapM_Forall2 {A B} (P : A -> json -> Prop) (f : json -> result B) (R : A -> B -> Prop) l js :
  (forall a j, In a l -> P a j -> exists b, f j = Ok b /\ R a b) -> Forall2 P l js -> exists bs, mapM f js = Ok bs /\ Forall2 R l bs.
Proof.
  intros H F. induction F as [|a j l js PA F IH]; [exists []; split; [reflexivity|constructor]|].
  destruct (H a j (or_introl eq_refl) PA) as (b & EB & RB). destruct IH as (bs & EBS & RBS); [intros; apply H; auto; right; auto|].
  exists (b :: bs). cbn [mapM]. rewrite EB. cbn [bind]. rewrite EBS. cbn [bind]. split; [reflexivity|constructor; auto].
Qed.
Lemma Forall2_eq_iff {A} (l l' : list A) : Forall2 eq l l' <-> l = l'.
Proof. split; [intros F; induction F; congruence|intros <-; induction l; constructor; auto]. Qed.
Lemma mapM_strs (l : list pystr) : mapM jstr (map JStr l) = Ok l.
Proof. induction l as [|a l IH]; cbn; [reflexivity|]. rewrite IH. reflexivity. Qed.
Lemma txids_list l j : list_of Txid l j -> txids_of j = Ok l.
Proof.
  intros (js & -> & F). unfold txids_of. cbn [jlist bind].
  destruct (mapM_Forall2 Txid (fun t => x <- jget "txid" t ;; jstr x) eq l js) as (bs & -> & EB); auto.
  - intros a j _ H. exists a. rewrite (has _ _ _ H). auto.
  - apply Forall2_eq_iff in EB. subst. reflexivity.
Qed.

(** ** Pages *)
Lemma page_app {A} (l : list A) k p : 0 <= k -> 0 <= p -> firstn (Z.to_nat k) l ++ page k p l = firstn (Z.to_nat (k + p)) l.
Proof.
  intros Hk Hp. unfold page. rewrite Z2Nat.inj_add by lia. generalize (Z.to_nat k) (Z.to_nat p). clear. intros k p. revert l.
  induction k as [|k IH]; intros l; [reflexivity|]. destruct l as [|a l]; [cbn; rewrite firstn_nil; reflexivity|]. cbn. rewrite IH. reflexivity.
Qed.
Lemma Forall2_app_l {A B} (R : A -> B -> Prop) l1 l2 m : Forall2 R (l1 ++ l2) m -> exists m1 m2, m = m1 ++ m2 /\ Forall2 R l1 m1 /\ Forall2 R l2 m2.
Proof. intros F. apply Forall2_app_inv_l in F as (m1 & m2 & F1 & F2 & ->). eauto. Qed.

Section WithOutside.
Context {E : Type} {OU : Outside E}.

(** With the module state g, m returns something satisfying P and leaves g alone. *)
Definition Yields {A} (g : Globals) (m : IO (Net E) A) (P : A -> Prop) : Prop :=
  forall e, exists a e', m (mkNet g e) = (Ok a, mkNet g e') /\ P a.
Lemma yields_bind {A B} g (m : IO (Net E) A) (f : A -> IO (Net E) B) P Q :
  Yields g m P -> (forall a, P a -> Yields g (f a) Q) -> Yields g (ibind m f) Q.
Proof.
  intros HM HF e. destruct (HM e) as (a & e1 & EM & HP). destruct (HF a HP e1) as (b & e2 & EF & HQ).
  exists b, e2. unfold ibind. rewrite EM. auto.
Qed.
Lemma yields_lift {A} g (r : result A) a (P : A -> Prop) : r = Ok a -> P a -> Yields g (ilift r) P.
Proof. intros -> HP e. exists a, e. auto. Qed.
Lemma yields_ret {A} g a (P : A -> Prop) : P a -> Yields g (iret a) P.
Proof. intros HP e. exists a, e. auto. Qed.
Lemma yields_globals g : Yields g globals (eq g).
Proof. intros e. exists g, e. auto. Qed.
Lemma yields_weaken {A} g (m : IO (Net E) A) (P Q : A -> Prop) : Yields g m P -> (forall a, P a -> Q a) -> Yields g m Q.
Proof. intros H I e. destruct (H e) as (a & e' & EM & HP). exists a, e'. auto. Qed.
Lemma yields_get g url params P : Replies url params P ->
  Yields g (http_get url params) (fun r => r_status r = 200 /\ exists j, r_json r = Ok j /\ P j).
Proof.
  intros H e. destruct (H (g_timeout g) e) as (r & j & e' & EG & HS & EJ & HP). exists r, e'. unfold http_get, outside, zoom. cbn [n_outside n_globals].
  rewrite EG. eauto.
Qed.
Lemma yields_text g url P : RepliesText url P -> Yields g (http_get url []) (fun r => r_status r = 200 /\ P (r_text r)).
Proof.
  intros H e. destruct (H (g_timeout g) e) as (r & e' & EG & HS & HP). exists r, e'. unfold http_get, outside, zoom. cbn [n_outside n_globals].
  rewrite EG. auto.
Qed.
Lemma yields_rpc g url m args P : RepliesRpc url m args P -> Yields g (rpc url m args) P.
Proof.
  intros H e. destruct (H None e) as (r & j & v & e' & EG & HS & EJ & HE & HR & HP). exists v, e'. split; auto. unfold rpc. unfold ibind at 1.
  unfold itry, outside, zoom. cbn [n_outside n_globals]. rewrite EG, HS. cbn [Z.eqb Pos.eqb orb negb].
  rewrite EJ. cbn [bind]. unfold ilift. destruct HE as [HE|HE].
  - rewrite (lacks_jhas _ _ HE). cbn [bind]. rewrite (has _ _ _ HR). reflexivity.
  - rewrite (has_jhas _ _ _ HE). cbn [bind]. rewrite (has _ _ _ HE). cbn [bind]. rewrite (has _ _ _ HR). reflexivity.
Qed.
Lemma yields_ok_status g (r : Response) : r_status r = 200 -> Yields g (ilift (ok_status r)) (fun _ => True).
Proof. intros H. apply (yields_lift _ _ tt); auto. unfold ok_status. rewrite H. reflexivity. Qed.
End WithOutside.
