(** C107, continued: payments given as floats. *)
From Coq Require Import String Permutation QArith Qabs Qpower Lqa Lia.
From Verif Require Import F_cosign F_cosigntx F_signtx F_wallet F_utf8 F_spend F_wire F_build F_address F_size P_utils P_outputs P_select P_sign P_multi P_wallet P_create P_state P_send P_size X_world X_server.
From Verif Require Import M_app M_reply M_insight F_app S_Decimal S_History S_Servers S_Failover S_Insight S_Loads S_Prepared S_Requests S_Reply S_Float F_decimal F_network F_servers F_float P_rates P_network P_services P_failover P_anyservice P_app.
From Verif Require Import S_Consensus P_consensus P_live P_through P_says P_exact P_reply P_insight P_float.
From Coq Require Import List ZArith.
Import ListNotations.
Open Scope Z_scope.

(** A float worth n satoshis in a unit of bitcoin *)
Definition FloatUnits (prec : Z) (out : pystr * pystr * pystr) (n : Z) : Prop :=
  exists u exact, In (snd out, u) units /\ FloatOf (decimal n (- u)) (snd (fst out)) exact /\ 0 <= n <= 2100000000000000 /\ n * 10 ^ Z.max u 1 < 10 ^ prec.
Lemma float_units prec out n : FloatUnits prec out n -> InUnits prec out n.
Proof.
  intros (u & exact & HU & F & Hn & HP). assert (Hu : 0 <= u <= 8).
  { clear - HU. cbn in HU. repeat (destruct HU as [HU|HU]; [injection HU as _ <-; lia|]). destruct HU. }
  destruct (C107_amount n u _ exact Hn ltac:(lia) F) as (d & k & SC & EQ & Hd & Hk & LN). exists u, d, k. split; [exact HU|]. split; [right; split; [exact SC|lia]|].
  split; [lia|]. pose proof (p10 k ltac:(lia)) as Pk. split; [|rewrite EQ; symmetry; apply Z.div_mul; lia]. rewrite EQ. eapply Z.le_lt_trans; [|exact HP].
  apply Z.mul_le_mono_nonneg_l; [lia|]. apply Z.pow_le_mono_r; lia.
Qed.

Section Pay.
Context {CR : Crypto} (HO : HashOk CR) {E : Type} {OU : Outside E} {CH : Chance E} (rounds : nat).
Notation NW := (network (CR:=CR) (E:=E) rounds).
Notation Reached := (@Reached CR E OU CH rounds).

(** Whatever has been done before, currency_to_satoshi_cached takes it for n satoshis. *)
Theorem C107_cached t1 t2 e calls w address repr unit_ n now e1 : Reached t1 t2 e calls w ->
  FloatUnits (g_prec (n_globals w)) (address, repr, unit_) n -> o_time (n_outside w) = (Ok now, e1) ->
  exists w', currency_to_satoshi_cached repr unit_ w = (Ok n, w').
Proof.
  intros R F ET. destruct (float_units _ _ _ F) as (u & c & k & HU & S0 & LN & HC & ->). cbn [fst snd] in *.
  destruct (unit_amount _ _ _ _ _ _ _ _ _ _ _ _ _ R HU S0 LN HC ET) as (w' & EQ & _). exists w'. exact EQ.
Qed.

(** Payments of floats go through: a transaction is broadcast that the chain accepts
    (C88), and it pays sats to the addresses asked for (C75). *)
Theorem C107_send (SF : forall x rnd x', o_random x = (Ok rnd, x') -> Shuffle (r_shuffle rnd))
    t1 t2 e calls k outputs fee leftover o s L1 L2 chain sats n back sizes size :
  Reached t1 t2 e calls (wl_world s) -> KeyOk k -> MsgOk o -> OwnAddresses (Single k) ->
  (* the coins *)
  Owns rounds calls (g_prec (n_globals (wl_world s))) (Single k) L1 L2 -> GoodIds (l_coins L1 ++ l_coins L2) ->
  Forall (fun c => 0 <= c_index c < 2 ^ 32) (l_coins L1 ++ l_coins L2) -> l_coins L1 ++ l_coins L2 <> [] ->
  zlen (l_coins L1 ++ l_coins L2) < 2 ^ 64 -> total L1 + total L2 <= MAX_MONEY -> OnChain chain L1 -> OnChain chain L2 ->
  (* the request: floats, or other numbers *)
  outputs <> [] -> zlen outputs + Z.of_nat n + 1 < 2 ^ 64 ->
  Forall2 (fun out sat => FloatUnits (g_prec (n_globals (wl_world s))) out sat \/ InUnits (g_prec (n_globals (wl_world s))) out sat) outputs sats ->
  Forall (fun z => 0 < z) sats -> 0 < fee -> MessageIs o n ->
  (match leftover with
   | Some (c :: r) => back = c :: r
   | _ => match l_coins L2 with [] => key_address k = Ok back | _ :: _ => key_segwit_address k = Ok (Some back) end
   end) -> Forall (Payable (k_version k)) (back :: dests outputs) ->
  (* there is enough *)
  OutputSizes (dests outputs) n back sizes -> EstimatedSize (input_sizes k L1 L2) sizes (0 <? length (l_coins L2))%nat size ->
  S_Fee.total sats + (if o_absolute_fee o then fee else fee * size) <= total L1 + total L2 ->
  (* the computer and the network *)
  (forall x, exists now x', o_time x = (Ok now, x')) -> (forall x, exists rnd x', o_random x = (Ok rnd, x')) ->
  (forall sv, In sv (broadcast_services (k_version k) calls) -> Useless (k_version k) sv \/ Admits (k_version k) chain sv) ->
  (exists sv, In sv (broadcast_services (k_version k) calls) /\ Admits (k_version k) chain sv) ->
  exists i s' x coins, @send CR _ _ NW (Single k) outputs (Some fee) leftover None o s = (Ok i, s') /\ IdOf x i /\ Valid chain x coins.
Proof.
  intros R K M OA O G IX NE Z64 MM O1 O2 NO ZO FU. assert (FU' : Forall2 (InUnits (g_prec (n_globals (wl_world s)))) outputs sats).
  { clear - FU. induction FU as [|out sat l l' H FU IH]; constructor; [|exact IH]. destruct H as [H|H]; [apply float_units|]; exact H. }
  eapply C88_send; eassumption.
Qed.
End Pay.
Print Assumptions C107_cached.
Print Assumptions C107_send.

(** ** Numbers of up to 15 digits are floats that show as themselves *)
Lemma float_of n p d k m q repr c0 k0 : 0 < n <= 2100000000000000 -> 0 <= p <= 20 -> S_Float.Rounds (decimal n (- p)) m q ->
  Scientific d k repr -> zlen repr < 30 -> k < 400 -> d mod 10 <> 0 -> 0 < d <= 2100000000000000 -> (decimal d (- k) == decimal n (- p))%Q ->
  0 <= k0 <= 1074 -> (decimal c0 (- k0) == binary m q)%Q -> FloatOf (decimal n (- p)) repr (Fin false c0 (- k0)).
Proof.
  intros Hn Hp R SC LN LK NZ Hd EQ Hk0 EX. exists m, q. split; [exact R|]. split; [|exists c0, k0; auto].
  assert (RD : S_Float.Rounds (decimal d (- k)) m q).
  { destruct R as [A B]. split; [exact A|]. intros y D N. rewrite EQ. apply B; auto. }
  exists d, k. repeat (split; [solve [auto]|]). intros D r HD (c & e & Hc & ER) RR.
  destruct (amount_range n p Hn Hp) as (L & U & _). pose proof (same_double _ _ _ _ L U R RR) as NEAR.
  rewrite <- EQ in NEAR. pose proof (F_float.pow_pos 10 (- k) eq_refl) as PW. set (W := Qpower 10 (- k)) in *.
  destruct (Z_lt_le_dec d (10 ^ D)) as [SM|BG]; [exists d, (- k); split; [lia|reflexivity]|].
  destruct (Z_le_gt_dec (- k) e) as [LE|GT].
  - exists c, e. split; [exact Hc|]. replace e with ((e + k) + - k) in ER |- * by lia. rewrite decimal_shift in ER |- * by lia.
    destruct (Z.eq_dec d (c * 10 ^ (e + k))) as [<-|NE]; [reflexivity|exfalso]. rewrite ER in NEAR. unfold decimal in NEAR. fold W in NEAR.
    pose proof (far_apart (c * 10 ^ (e + k)) d W ltac:(congruence) PW) as FA.
    assert (DW : (inject_Z d * W <= 2100000000000000 * W)%Q).
    { apply Qmult_le_compat_r; [|lra]. change 2100000000000000%Q with (inject_Z 2100000000000000). rewrite <- Zle_Qle. lia. }
    lra.
  - exfalso. assert (RB : (r * 10 <= decimal d (- k))%Q).
    { rewrite ER. unfold decimal. fold W. replace e with ((e + k + 1) + (- k - 1)) by lia.
      assert (P1 : (Qpower 10 (e + k + 1) <= 1)%Q) by (apply (pow10_le _ 0); lia). rewrite pow_plus by discriminate.
      assert (W10 : (Qpower 10 (- k - 1) * 10 == W)%Q) by (unfold W; replace (- k) with ((- k - 1) + 1) at 2 by lia; rewrite (pow_plus 10 (- k - 1) 1) by discriminate; reflexivity).
      assert (CD : (inject_Z c <= inject_Z d)%Q) by (rewrite <- Zle_Qle; lia). assert (C0 : (0 <= inject_Z c)%Q) by (change 0%Q with (inject_Z 0); rewrite <- Zle_Qle; lia).
      pose proof (F_float.pow_pos 10 (e + k + 1) eq_refl) as P2. setoid_replace (inject_Z c * (Qpower 10 (e + k + 1) * Qpower 10 (- k - 1)) * 10)%Q with (inject_Z c * Qpower 10 (e + k + 1) * W)%Q by (rewrite <- W10; ring).
      apply Qmult_le_compat_r; [|lra]. apply Qle_trans with (inject_Z c * 1)%Q; [|lra]. rewrite !(Qmult_comm (inject_Z c)). apply Qmult_le_compat_r; assumption. }
    assert (POS : (0 < decimal d (- k))%Q).
    { rewrite EQ. lra. }
    revert NEAR. apply Qabs_case; intros; lra.
Qed.
Lemma small_float : FloatOf (decimal 25000 (- (8))) (str "0.00025") (Fin false 25000000000000000520417042793042128323577344417572021484375 (- (62))).
Proof.
  apply (float_of 25000 8 25 5 4611686018427388 (-64)); [lia|lia| | |vm_compute; reflexivity|lia|vm_compute; discriminate|lia|vm_compute; reflexivity|lia|vm_compute; reflexivity].
  - apply nearest; [lia|lia|vm_compute; reflexivity].
  - apply Sc_plain. apply (A_point 25 (str "0") (str "00025")); [apply P_float.digits_of; reflexivity|discriminate].
Qed.
Lemma price_float : FloatOf (decimal 6612537 (- (2))) (str "66125.37") (Fin false 66125369999999995343387126922607421875 (- (33))).
Proof.
  apply (float_of 6612537 2 6612537 2 4544100825374392 (-36)); [lia|lia| | |vm_compute; reflexivity|lia|vm_compute; discriminate|lia|vm_compute; reflexivity|lia|vm_compute; reflexivity].
  - apply nearest; [lia|lia|vm_compute; reflexivity].
  - apply Sc_plain. apply (A_point 6612537 (str "66125") (str "37")); [apply P_float.digits_of; reflexivity|discriminate].
Qed.
(** The town's payments (C88_case), the first of them the float 0.00025 *)
Example C107_send_hypotheses :
  Forall2 (fun out sat => FloatUnits (g_prec (n_globals (wl_world town_wallet))) out sat \/ InUnits (g_prec (n_globals (wl_world town_wallet))) out sat) town_outs [25000; 1000] /\
  exists i s', town_send = (Ok i, s').
Proof.
  split; [|exact C88_case]. constructor; [left|constructor; [right|constructor]].
  - eexists 8, _. split; [cbn; auto|]. split; [apply small_float|]. split; [lia|]. vm_compute. reflexivity.
  - exists 0, 1000, 0. split; [cbn; auto|]. split; [|split; [reflexivity|split; reflexivity]].
    left. constructor. apply A_whole; [apply (P_float.digits_of (str "1000")); reflexivity|discriminate].
Qed.
(** A price, and an Insight server *)
Definition some_floats : Floats := {| rounded t := if list_eqb t (str "66125.37") then (str "66125.37", Fin false 66125369999999995343387126922607421875 (- (33)))
  else if list_eqb t (str "0.30000000") then (str "0.3", third) else (t, NaN false) |}.
Definition some_pages : list (pystr * pystr) :=
  [(str "https://bitpay.com/rates/BTC/usd", str "{""data"": {""code"": ""USD"", ""name"": ""US Dollar"", ""rate"": 66125.37}}");
   (str "http://localhost/api/txs/" ++ addr, str "{""transactions"": []}");
   (str "http://localhost/api/addr/" ++ addr ++ str "/balance", str "30000000");
   (str "http://localhost/api/addr/" ++ addr ++ str "/utxo", str "[{""txid"": ""aa"", ""vout"": 1, ""scriptPubKey"": ""76a9"", ""amount"": 0.30000000, ""confirmations"": 3}]")].
Definition some_wire : Wire Z := {|
  raw_get := fun url _ _ e => (match find (fun p => list_eqb (fst p) url) some_pages with Some (_, t) => Ok (200, t) | None => Raise ReqConnectionError end, e + 1);
  raw_post := fun _ _ _ e => (Raise ReqConnectionError, e);
  raw_rpc := fun _ _ _ _ e => (Raise ReqConnectionError, e);
  raw_time := fun e => (Ok e, e) |}.
Example C107_rate_case : exchange_rate (OU:=@with_json some_floats Z some_wire) (str "usd") (mkNet (initial_globals 0 0) 0) = (Ok 1512, mkNet (initial_globals 0 0) 1).
Proof.
  etransitivity; [eapply (@C107_rate some_floats Z some_wire (str "usd") _ 6612537 2) with (t := str "66125.37")|].
  - vm_compute. tauto.
  - vm_compute. intuition discriminate.
  - vm_compute. reflexivity.
  - apply (@parse_sound some_floats). vm_compute. reflexivity.
  - unrepeated.
  - hask.
  - hask.
  - apply price_float.
  - lia.
  - lia.
  - vm_compute. split; discriminate.
  - vm_compute. reflexivity.
Qed.
Example C107_insight_case : @SendsInsight (@rounded some_floats) Z some_wire local third_ledger addr.
Proof.
  assert (BL : forall s, forallb (fun c => negb ((c =? 123) || (c =? 125))) s = true -> Braceless s).
  { intros s F. rewrite forallb_forall in F. split; intros I; apply F in I; discriminate. }
  split; [|split].
  - exists (str "http://localhost/api/addr/" ++ addr ++ str "/balance"). split; [apply (P_braces addr (str "http://localhost/api/addr/") (str "/balance")); apply BL; reflexivity|].
    intros t e. eexists _, _, _. split; [reflexivity|]. split; [apply (@parse_sound some_floats); vm_compute; reflexivity|]. split; [unrepeated|reflexivity].
  - intros t e. eexists _, _, _. split; [reflexivity|]. split; [apply (@parse_sound some_floats); vm_compute; reflexivity|]. split; [unrepeated|]. hask.
  - exists (str "http://localhost/api/addr/" ++ addr ++ str "/utxo"). split; [apply (P_braces addr (str "http://localhost/api/addr/") (str "/utxo")); apply BL; reflexivity|].
    intros t e. eexists _, _, _. split; [reflexivity|]. split; [apply (@parse_sound some_floats); vm_compute; reflexivity|]. split; [unrepeated|].
    eexists. split; [reflexivity|]. constructor; [|constructor]. exists (str "0.30000000"). split; [apply third_amount|]. split; [hask|]. split; [apply C107_third|]. repeat apply conj; hask.
Qed.
