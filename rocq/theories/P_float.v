(** C107: amounts that pass through floats. *)
From Coq Require Import String QArith Qabs Qpower Lqa Lia.
From Verif Require Import F_base M_reply M_insight M_rates S_Servers S_Insight S_Failover S_Loads S_Prepared S_Requests S_Float S_Reply S_Decimal.
From Verif Require Import F_decimal F_servers F_float P_rates P_network P_services P_insight P_says P_exact P_reply X_toy X_net X_server.
From Coq Require Import List ZArith.
Import ListNotations.
Open Scope Z_scope.

Lemma decimal_Z c k : 0 <= k -> (decimal c (- k) * inject_Z (10 ^ k) == inject_Z c)%Q.
Proof.
  intros Hk. unfold decimal. rewrite pow_inv. pose proof (pow_int 10 k Hk) as P. change (Qpower 10 k) with (Qpower (inject_Z 10) k). rewrite P.
  assert (~ inject_Z (10 ^ k) == 0)%Q by (pose proof (p10 k Hk); change 0%Q with (inject_Z 0); rewrite inject_Z_injective; lia). field. assumption.
Qed.
Lemma decimal_eq d k n p : 0 <= k -> 0 <= p -> (decimal d (- k) == decimal n (- p))%Q -> d * 10 ^ p = n * 10 ^ k.
Proof.
  intros Hk Hp E. apply inject_Z_injective. rewrite !inject_Z_mult, <- (decimal_Z d k Hk), <- (decimal_Z n p Hp), E. ring.
Qed.
Lemma amount_small c k s : Amount c k s -> 0 <= c < 10 ^ zlen s /\ 0 <= k <= zlen s.
Proof.
  intros A. destruct (Signed_len false c k s (S_plain _ _ _ A)) as [C K]. split; [split; [exact C|]|exact K].
  destruct A as [c ds D N|c ds fs D N]; pose proof (Digits_bound _ _ D) as B; [exact B|].
  eapply Z.lt_le_trans; [exact B|]. apply Z.pow_le_mono_r; [lia|]. unfold zlen. rewrite !app_length. cbn [length]. lia.
Qed.
Lemma scientific_small d k s : Scientific d k s -> 0 <= d < 10 ^ zlen s /\ 0 <= k.
Proof.
  intros [c k' s' A|c k' s' x xs A DX _]; pose proof (amount_small _ _ _ A) as [B1 B2]; [lia|]. pose proof (Digits_nonneg _ _ DX). split; [|lia]. split; [lia|].
  eapply Z.lt_le_trans; [apply B1|]. apply Z.pow_le_mono_r; [lia|]. unfold zlen. rewrite app_length. lia.
Qed.

(** Whatever amount is written, and read as a float: repr() shows that amount. *)
Theorem C107_amount n p repr exact : 0 <= n <= 2100000000000000 -> 0 <= p <= 20 -> FloatOf (decimal n (- p)) repr exact ->
  exists d k, Scientific d k repr /\ d * 10 ^ p = n * 10 ^ k /\ 0 <= d /\ 0 <= k <= Z.max p 1 /\ zlen repr < 30.
Proof.
  intros Hn Hp (m & q & R & (d & k & SC & LN & LK & NZ & R2 & SH) & _). pose proof (scientific_small _ _ _ SC) as [Hd Hk].
  assert (EQ : (decimal d (- k) == decimal n (- p))%Q).
  { destruct (Z.eq_dec n 0) as [->|N0]; [|apply shortest_is_amount with (m := m) (q := q); auto; lia].
    destruct (SH 0 (decimal 0 (- p))) as (c & e & Hc & E); [lia|exists 0, (- p); split; [lia|reflexivity]|exact R|].
    assert (c = 0) as -> by lia. rewrite E. unfold decimal. change (inject_Z 0) with 0%Q. ring. }
  apply decimal_eq in EQ; [|lia|lia]. exists d, k. repeat apply conj; auto; try lia.
  destruct NZ as [NZ|NZ]; [|lia]. destruct (Z_le_gt_dec k p) as [|G]; [lia|exfalso]. apply NZ.
  assert (ED : d = n * 10 ^ (k - p - 1) * 10).
  { replace k with ((k - p - 1) + 1 + p) in EQ by lia. rewrite !Z.pow_add_r in EQ by lia. pose proof (p10 p ltac:(lia)). change (10 ^ 1) with 10 in EQ. nia. }
  rewrite ED. apply Z_mod_mult.
Qed.

(** So an amount given as a float is that amount of satoshis, in any unit of bitcoin... *)
Lemma times_scientific prec r d k s m j : Scientific d k s -> 0 < r -> 1 <= prec <= 100000 -> 0 <= k < 100000 -> 0 <= d ->
  r * d = m * 10 ^ j -> 0 <= m < 10 ^ prec -> 0 <= j <= 100000 -> times_amount prec r s = Ok (r * d / 10 ^ k).
Proof.
  intros S0 Hr Hp Hk Hd E Hm Hj. unfold times_amount, Decimal. rewrite (parse_scientific _ _ _ S0). cbn [bind].
  destruct (mul_exact prec r false d k m j) as (x & -> & E2); try lia. cbn [bind]. exact E2.
Qed.
Section WithOutside.
Context {E : Type} {OU : Outside E}.
(** The amount n / 10^p of a currency of which one is r satoshis, given as a float *)
Theorem C107_any currency r n p repr exact (st st' : Net E) : exchange_rate currency st = (Ok r, st') -> 0 < r ->
  0 <= n <= 2100000000000000 -> 0 <= p <= 20 -> FloatOf (decimal n (- p)) repr exact ->
  1 <= g_prec (n_globals st') <= 90000 -> r * n < 10 ^ g_prec (n_globals st') ->
  currency_to_satoshi repr currency st = (Ok (r * n / 10 ^ p), st').
Proof.
  intros ER Hr Hn Hp F HP HC. destruct (C107_amount n p repr exact Hn Hp F) as (d & k & SC & EQ & Hd & Hk & _).
  unfold currency_to_satoshi. unfold ibind at 1. rewrite ER. unfold globals, iget, iret, ilift, ibind.
  pose proof (p10 p ltac:(lia)) as Pp. pose proof (p10 k ltac:(lia)) as Pk.
  assert (EX : exists m j, r * d = m * 10 ^ j /\ 0 <= m < 10 ^ g_prec (n_globals st') /\ 0 <= j <= 100000).
  { destruct (Z_le_gt_dec k p) as [L|G].
    - exists (r * d), 0. assert (EN : n = d * 10 ^ (p - k)).
      { replace p with ((p - k) + k) in EQ by lia. rewrite Z.pow_add_r in EQ by lia. nia. }
      pose proof (p10 (p - k) ltac:(lia)). change (10 ^ 0) with 1. split; [lia|]. split; [|lia]. nia.
    - exists (r * n), (k - p). assert (ED : d = n * 10 ^ (k - p)).
      { replace k with ((k - p) + p) in EQ by lia. rewrite Z.pow_add_r in EQ by lia. nia. }
      split; [rewrite ED; ring|]. split; [nia|lia]. }
  destruct EX as (m & j & E1 & E2 & E3). rewrite (times_scientific _ r d k repr m j SC Hr) by (auto; lia). do 2 f_equal.
  rewrite <- (Z.div_mul_cancel_r (r * d) (10 ^ k) (10 ^ p)), <- (Z.div_mul_cancel_r (r * n) (10 ^ p) (10 ^ k)) by lia. rewrite (Z.mul_comm (10 ^ k)). f_equal.
  rewrite <- !Z.mul_assoc, EQ. reflexivity.
Qed.
(** n satoshis, given in any unit of bitcoin *)
Theorem C107_float unit_ u n repr exact (st : Net E) : In (unit_, u) units -> 0 <= n <= 2100000000000000 -> FloatOf (decimal n (- u)) repr exact ->
  1 <= g_prec (n_globals st) <= 90000 -> n < 10 ^ g_prec (n_globals st) -> currency_to_satoshi repr unit_ st = (Ok n, st).
Proof.
  intros HU Hn F HP HC. destruct (units_rate (E:=E) (OU:=OU) _ _ HU) as (Hu & _ & ER). destruct (C107_amount n u repr exact Hn ltac:(lia) F) as (d & k & SC & EQ & Hd & Hk & _).
  unfold currency_to_satoshi. unfold ibind at 1. rewrite ER. unfold globals, iget, iret, ilift, ibind. pose proof (p10 u ltac:(lia)). pose proof (p10 k ltac:(lia)).
  rewrite (times_scientific _ (10 ^ u) d k repr n k SC) by (auto; lia). do 2 f_equal. rewrite Z.mul_comm, EQ. apply Z.div_mul. lia.
Qed.
End WithOutside.

(** ** A node's replies *)
Ltac fld H := rewrite (has _ _ _ H); cbn [bind].
Section Node.
Context {FL : Floats} {E : Type} (R : Wire E).
Lemma rpc_read url m args P : SendsRpc (R:=R) rounded url m args P -> RepliesRpc (OU:=with_json R) url m args P.
Proof.
  intros H t e. destruct (H t e) as (text & j & v & e' & EG & T & U & A & B & C). exists (received (200, text)), j, v, e'.
  split; [cbn; unfold reading, ibind; rewrite EG; reflexivity|]. split; [reflexivity|]. split; [apply (C106_read 200 j text T U)|auto].
Qed.
Lemma written_coin L c j : 0 <= c_value c <= 2100000000000000 -> node_written rounded L c j -> node_coin L c j.
Proof.
  intros HV (t & _ & A & F & B). exists (fst (rounded t)), (snd (rounded t)). split; [exact A|]. split; [|exact B].
  destruct (C107_amount (c_value c) 8 _ _ HV ltac:(lia) F) as (d & k & SC & EQ & Hd & Hk & LN). exists d, k. split; [exact SC|]. split; [exact EQ|]. lia.
Qed.
(** The amounts of coins are exact, although they are sent as decimal fractions and read as floats. *)
Theorem C107_coins g url L address : SendsCoins (R:=R) rounded url L address -> 1 <= g_prec g <= 90000 ->
  Forall (fun c => 0 <= c_value c <= 2100000000000000 /\ c_value c < 10 ^ g_prec g) (l_coins L) ->
  Yields g (node_unspent (OU:=with_json R) url address) (Forall2 (Holds L) (l_coins L)).
Proof.
  intros H HP HV. apply rpc_read in H. unfold node_unspent. eapply yields_bind; [apply yields_rpc; eassumption|]. intros ? (js & -> & HJ).
  eapply yields_bind; [apply yields_globals|]. intros ? <-.
  destruct (mapM_Forall2 (node_written rounded L) (node_utxo (g_prec g)) (Holds L) (l_coins L) js) as (us & EM & HU); auto.
  { intros c jc I W. rewrite Forall_forall in HV. specialize (HV c I). destruct (written_coin L c jc (proj1 HV) W) as (repr & x & A1 & (d & k & AM & EV & HL & HK) & A2 & A3 & A4 & A5).
    eexists. split; [|apply (plain_holds L)]. unfold node_utxo, unit_to_satoshi. pose proof (scientific_small _ _ _ AM) as [HD HK0].
    fld A1. cbn [jtext]. rewrite (amount_read (g_prec g) (c_value c) d k repr); auto; try lia. cbn [bind].
    fld A2. cbn [jint bind]. fld A3. cbn [jstr bind]. fld A4. cbn [jstr bind]. fld A5. reflexivity. }
  apply (yields_lift _ _ us); auto.
Qed.
(** What an address received in all is exact below ten bitcoins. *)
Theorem C107_received g url V address : SendsReceived (R:=R) rounded url V address -> 0 < V < 10 ^ 9 -> forall e,
  exists e', node_balance (OU:=with_json R) url address (mkNet g e) = (Ok V, mkNet (set_prec 9 g) e').
Proof.
  intros H HV. apply rpc_read in H. apply (C72_node_received (OU:=with_json R) g url V address); [|exact HV].
  intros t e. destruct (H t e) as (r & j & v & e' & EG & ST & EJ & A & B & text & _ & EV & F). exists r, j, v, e'. repeat (split; [assumption|]).
  destruct F as (m & q & RO & _ & c & k & EX & Hk & EB). exists (fst (rounded text)), c, k. split; [rewrite <- EX; exact EV|].
  destruct (amount_range V 8) as (L & U & _); [lia|lia|]. change (decimal V (- (8))) with (bitcoins V) in *.
  destruct (rounds_amount _ _ _ L U RO) as (M & Hq & P). destruct (rounds_near (bitcoins V) m q) as [N1 N2]; auto; try lia. 
  rewrite <- EB in N1, N2. pose proof (decimal_Z c k (proj1 Hk)) as DC. pose proof (decimal_Z V 8 ltac:(lia)) as DV. change (decimal V (- (8))) with (bitcoins V) in DV.
  pose proof (p10 k (proj1 Hk)) as PK. assert (PQ : (0 < inject_Z (10 ^ k))%Q) by (change 0%Q with (inject_Z 0); rewrite <- Zlt_Qlt; exact PK).
  set (x := decimal c (- k)) in *. set (vv := bitcoins V) in *. set (w := inject_Z (10 ^ k)) in *. change (inject_Z (10 ^ 8)) with (100000000)%Q in DV.
  assert (B1 : (x <= vv + vv * (1 # 8000000000000000))%Q) by lra. assert (B2 : (vv - vv * (1 # 8000000000000000) <= x)%Q) by lra.
  assert (C1 : (inject_Z c * 100000000 * 8000000000000000 <= inject_Z V * w * 8000000000000001)%Q).
  { rewrite <- DC, <- DV. nra. }
  assert (C2 : (inject_Z V * w * 7999999999999999 <= inject_Z c * 100000000 * 8000000000000000)%Q).
  { rewrite <- DC, <- DV. nra. }
  subst w. change (100000000)%Q with (inject_Z 100000000) in *. change (8000000000000000)%Q with (inject_Z 8000000000000000) in *.
  change (8000000000000001)%Q with (inject_Z 8000000000000001) in *. change (7999999999999999)%Q with (inject_Z 7999999999999999) in *.
  rewrite <- !inject_Z_mult, <- Zle_Qle in C1, C2. change (10 ^ 8) with 100000000. change (10 ^ 15) with 1000000000000000. split; [nia|]. split; [lia|]. nia.
Qed.
(** An Insight server's amounts likewise *)
Lemma get_read url P : SendsGet (R:=R) rounded url P -> Replies (OU:=with_json R) url [] P.
Proof.
  intros H t e. destruct (H t e) as (text & j & e' & EG & T & U & C). exists (received (200, text)), j, e'.
  split; [cbn; unfold reading, ibind; rewrite EG; reflexivity|]. split; [reflexivity|]. split; [apply (C106_read 200 j text T U)|exact C].
Qed.
Lemma coins_read L l js : Forall (fun c => 0 <= c_value c <= 2100000000000000) l -> Forall2 (node_written rounded L) l js -> Forall2 (node_coin L) l js.
Proof. intros F. induction 1 as [|c j l js W H IH]; constructor; apply Forall_cons_iff in F as [F1 F2]; [apply written_coin; assumption|apply IH; exact F2]. Qed.
Theorem C107_insight g I L address : SendsInsight (R:=R) rounded I L address -> 1 <= g_prec g <= 90000 ->
  Forall (fun c => 0 <= c_value c <= 2100000000000000 /\ c_value c < 10 ^ g_prec g) (l_coins L) ->
  Yields g (insight_unspent (OU:=with_json R) I address) (Forall2 (Holds L) (l_coins L)).
Proof.
  intros ((u1 & P1 & A) & B & (u2 & P2 & C)) HP HV. apply C104_coins; [|exact HP|eapply Forall_impl; [|exact HV]; cbn; unfold Readable; lia].
  split; [exists u1; split; [exact P1|apply get_read, A]|]. split; [apply get_read, B|]. exists u2. split; [exact P2|]. apply get_read. intros t e.
  destruct (C t e) as (text & j & e' & EG & T & U & js & EJ & W). exists text, j, e'. split; [exact EG|]. split; [exact T|]. split; [exact U|]. exists js. split; [exact EJ|].
  apply coins_read; [|exact W]. eapply Forall_impl; [|exact HV]. cbn. tauto.
Qed.
(** A price of n / 10^p per bitcoin, as bitpay.com writes it *)
Theorem C107_rate cur p0 n p (st : Net E) text e' j data t :
  In (cur, p0) currencies -> ~ In cur (map fst units) ->
  raw_get (str "https://bitpay.com/rates/BTC/" ++ cur) [] None (n_outside st) = (Ok (200, text), e') ->
  LText rounded j text -> Unrepeated j -> Has "data" data j -> Has "rate" (JFloat (fst (rounded t)) (snd (rounded t))) data ->
  FloatOf (decimal n (- p)) (fst (rounded t)) (snd (rounded t)) -> 0 < n <= 2100000000000000 -> 0 <= p <= 18 -> 28 <= g_prec (n_globals st) <= 90000 ->
  exchange_rate (OU:=with_json R) cur st = (Ok (10 ^ (8 + p) / n), mkNet (n_globals st) e').
Proof.
  intros HC HU EG T U HD HR F Hn Hp HP. destruct (C107_amount n p _ _ ltac:(lia) ltac:(lia) F) as (d & k & SC & EQ & Hd & Hk & LN).
  pose proof (p10 p ltac:(lia)) as Pp. pose proof (p10 k ltac:(lia)) as Pk. assert (0 < d) by nia.
  pose proof (C106_read 200 j text T U) as (EJ & _ & _). rewrite (fiat_rate _ _ _ HC HU). cbn [first_working]. unfold itry, bitpay_rate, get_untimed, outside, zoom.
  unfold ibind at 1. change (o_get (Outside:=with_json R)) with (fun url ps t => reading (raw_get url ps t)). cbv beta. unfold reading at 1, ibind at 1. rewrite EG.
  unfold ilift, globals, iget, iret, raise_for_status, ibind. cbn [r_status received fst Z.leb Z.compare Pos.compare Pos.compare_cont andb n_globals].
  rewrite EJ. cbn [bind]. fld HD. fld HR. cbn [jtext].
  unfold Decimal. rewrite (parse_scientific _ _ _ SC). cbn [bind].
  destruct (inverse_rate (g_prec (n_globals st)) d k) as (x & y & E1 & E2 & E3); try lia.
  { split; [lia|]. pose proof (scientific_small _ _ _ SC) as [[_ B] _]. eapply Z.lt_le_trans; [exact B|]. apply Z.pow_le_mono_r; lia. }
  rewrite E1. cbn [bind]. rewrite E2. cbn [bind]. rewrite E3. do 2 f_equal.
  rewrite <- (Z.div_mul_cancel_r (10 ^ (8 + k)) d (10 ^ p)), <- (Z.div_mul_cancel_r (10 ^ (8 + p)) n (10 ^ k)) by lia. rewrite EQ. f_equal.
  rewrite <- !Z.pow_add_r by lia. f_equal. lia.
Qed.
End Node.
Print Assumptions C107_amount.
Print Assumptions C107_any.
Print Assumptions C107_float.
Print Assumptions C107_coins.
Print Assumptions C107_received.
Print Assumptions C107_insight.
Print Assumptions C107_rate.

(** ** The hypotheses are met: 0.3 bitcoins *)
Lemma nearest v m q : 2 ^ 52 < m < 2 ^ 53 -> -1074 <= q <= 970 -> (2 * Qabs (v - binary m q) < Qpower 2 q)%Q -> S_Float.Rounds v m q.
Proof.
  intros Hm Hq H. assert (P := F_float.pow_pos 2 q eq_refl). split; [split; [lia|lia]|]. intros y (m' & q' & S & EY) NE. left. rewrite EY in NE |- *.
  assert (FAR : (Qpower 2 q <= Qabs (binary m' q' - binary m q))%Q).
  { destruct (Z_le_gt_dec q q') as [L|G].
    - assert (EB : (binary m' q' == inject_Z (m' * 2 ^ (q' - q)) * Qpower 2 q)%Q).
      { unfold binary. rewrite inject_Z_mult. rewrite <- (pow_int 2 (q' - q)) by lia. change (inject_Z 2) with 2%Q. rewrite <- Qmult_assoc, <- pow_plus by discriminate.
        replace (q' - q + q) with q' by lia. reflexivity. }
      rewrite EB in NE |- *. unfold binary in *. apply far_apart; [|exact P]. intros EQ. apply NE. rewrite EQ. reflexivity.
    - assert (B : (binary m' q' <= binary (2 ^ 52) q)%Q).
      { apply Qle_trans with (binary (2 ^ 53) q'); [apply binary_le; destruct S as [_ [S|S]]; lia|].
        apply Qle_trans with (binary (2 ^ 53) (q - 1)).
        - unfold binary. apply Qmult_le_l; [reflexivity|apply pow2_le; lia].
        - unfold binary. change (inject_Z (2 ^ 53)) with (Qpower 2 53). change (inject_Z (2 ^ 52)) with (Qpower 2 52). rewrite <- !pow_plus by discriminate.
          replace (53 + (q - 1)) with (52 + q) by lia. apply Qle_refl. }
      assert (C : (binary (2 ^ 52) q + Qpower 2 q <= binary m q)%Q).
      { rewrite <- binary_S. apply binary_le. lia. }
      apply Qabs_case; intros; lra. }
  revert FAR H. apply Qabs_case; apply Qabs_case; apply Qabs_case; intros; lra.
Qed.
Definition third : dec := Fin false 299999999999999988897769753748434595763683319091796875 (-54).
Example C107_third : FloatOf (bitcoins 30000000) (str "0.3") third.
Proof.
  exists 5404319552844595, (-54).
  assert (R : forall v, (v == 3 # 10)%Q -> S_Float.Rounds v 5404319552844595 (-54)).
  { intros v EV. apply nearest; [lia|lia|]. rewrite EV. vm_compute. reflexivity. }
  split; [apply R; vm_compute; reflexivity|]. split.
  - exists 3, 1. split; [apply Sc_plain; apply (A_point 3 (str "0") (str "3")); [|discriminate]; apply (Dsnoc 0 [48] 3); [apply (Dsnoc 0 [] 0); [constructor|lia]|lia]|].
    split; [vm_compute; reflexivity|]. split; [lia|]. split; [right; lia|]. split; [apply R; vm_compute; reflexivity|].
    intros D r HD (c & e & Hc & ER) RR. destruct (Z.eq_dec D 0) as [->|NZ].
    + exfalso. assert (c = 0) as -> by lia. assert (Z0 : (r == 0)%Q) by (rewrite ER; unfold decimal; change (inject_Z 0) with 0%Q; ring).
      destruct RR as [_ N]. assert (D0 : IsDouble 0) by (exists 0, (-1074); split; [split; [lia|right; lia]|vm_compute; reflexivity]).
      destruct (N 0%Q D0) as [H|[H _]]; [vm_compute; discriminate| |]; rewrite Z0 in H; vm_compute in H; discriminate.
    + exists 3, (-1). split; [|reflexivity]. split; [lia|]. apply Z.lt_le_trans with (10 ^ 1); [lia|]. apply Z.pow_le_mono_r; lia.
  - exists 299999999999999988897769753748434595763683319091796875, 54. split; [reflexivity|]. split; [lia|]. vm_compute. reflexivity.
Qed.
Definition third_float : Floats := {| rounded t := if list_eqb t (str "0.30000000") then (str "0.3", third) else (t, NaN false) |}.
Definition third_ledger : Ledger := mkLedger 9 (str "76a9") [mkCoin 30000000 (Some 7) (str "aa") 1] [] [].
Definition third_node : Wire Z := {|
  raw_get := fun _ _ _ e => (Raise ReqConnectionError, e); raw_post := fun _ _ _ e => (Raise ReqConnectionError, e);
  raw_rpc := fun _ m _ _ e => (Ok (200, if list_eqb m (str "listunspent")
    then str "{""result"":[{""txid"":""aa"",""vout"":1,""scriptPubKey"":""76a9"",""amount"":0.30000000,""confirmations"":3}],""error"":null,""id"":1}"
    else str "{""result"":0.30000000,""error"":null,""id"":1}"), e + 1);
  raw_time := fun e => (Ok e, e) |}.
Lemma digits_of l n : forallb is_digit l = true -> num l = n -> Digits n l.
Proof.
  revert n. induction l as [|c l IH] using rev_ind; intros n F E; [cbn in E; subst n; constructor|]. rewrite forallb_app in F. apply andb_true_iff in F as [F1 F2].
  cbn in F2. unfold is_digit in F2. unfold num in E. rewrite fold_left_app in E. cbn [fold_left] in E. change (fold_left (fun a d => 10 * a + (d - 48)) l 0) with (num l) in E.
  replace c with (48 + (c - 48)) by lia. subst n. constructor; [apply IH; auto|lia].
Qed.
Lemma third_amount : NodeAmount 30000000 (str "0.30000000").
Proof.
  exists (str "0"), (str "30000000"). split; [|split; [|split; reflexivity]].
  - exists (str "0"). split; [apply digits_of; reflexivity|]. split; [right; split; [vm_compute; discriminate|reflexivity]|left; reflexivity].
  - apply digits_of; reflexivity.
Qed.
Ltac unrepeated := repeat constructor; cbn; intuition discriminate.
Example C107_coins_hypotheses url address : @SendsCoins (@rounded third_float) Z third_node url third_ledger address /\
  Forall (fun c => 0 <= c_value c <= 2100000000000000 /\ c_value c < 10 ^ 9) (l_coins third_ledger).
Proof.
  split; [|repeat constructor; vm_compute; congruence]. intros t e. eexists _, _, _, _. split; [reflexivity|].
  split; [apply (@parse_sound third_float); vm_compute; reflexivity|]. split; [unrepeated|]. split; [right; hask|]. split; [hask|].
  eexists. split; [reflexivity|]. constructor; [|constructor]. exists (str "0.30000000"). split; [apply third_amount|]. split; [hask|]. split; [apply C107_third|].
  repeat apply conj; hask.
Qed.
Example C107_received_hypotheses url address : @SendsReceived (@rounded third_float) Z third_node url 30000000 address.
Proof.
  intros t e. eexists _, _, _, _. split; [reflexivity|].
  split; [apply (@parse_sound third_float); vm_compute; reflexivity|]. split; [unrepeated|]. split; [right; hask|]. split; [hask|].
  exists (str "0.30000000"). split; [apply third_amount|]. split; [reflexivity|apply C107_third].
Qed.
Example C107_case : exists us, fst (node_unspent (OU:=@with_json third_float Z third_node) (str "node") addr (mkNet (initial_globals 0 0) 0)) = Ok us /\ map u_amount us = [30000000] /\
  fst (node_balance (OU:=@with_json third_float Z third_node) (str "node") addr (mkNet (initial_globals 0 0) 0)) = Ok 30000000.
Proof. eexists. split; [vm_compute; reflexivity|]. split; vm_compute; reflexivity. Qed.
(** Through the exact value of the float it would be one satoshi less. *)
Example C107_exact_value : match dec_mul 60 third (dec_of_int 100000000) with Ok x => dec_to_int x | Raise e => Raise e end = Ok 29999999.
Proof. vm_compute. reflexivity. Qed.
