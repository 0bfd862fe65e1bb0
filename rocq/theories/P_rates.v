(** Conversion between satoshis and other units (C54, C55). *)
From Coq Require Import String.
From Verif Require Import F_decimal M_services S_Decimal X_net.

(** How many satoshis one of each unit is, as a power of ten. *)
Definition units : list (pystr * Z) := [(str "satoshi", 0); (str "ubtc", 2); (str "mbtc", 5); (str "btc", 8)].

Lemma times_amount_exact prec r neg c k s m j : Signed neg c k s -> 0 < r -> 1 <= prec <= 100000 -> zlen s < 100000 ->
  r * c = m * 10 ^ j -> 0 <= m < 10 ^ prec -> 0 <= j <= 100000 -> times_amount prec r s = Ok (trunc neg (r * c) (10 ^ k)).
Proof.
  intros S0 Hr Hp Hs E Hm Hj. unfold times_amount, Decimal. rewrite (parse_signed _ _ _ _ S0). cbn [bind].
  pose proof (Signed_len _ _ _ _ S0) as [Hc Hk].
  destruct (mul_exact prec r neg c k m j) as (x & -> & E2); try lia. cbn [bind]. exact E2.
Qed.
Lemma times_unit prec u neg c k s : Signed neg c k s -> 0 <= u <= 100000 -> 1 <= prec <= 100000 -> zlen s < 100000 -> c < 10 ^ prec ->
  times_amount prec (10 ^ u) s = Ok (trunc neg (c * 10 ^ u) (10 ^ k)).
Proof.
  intros S0 Hu Hp Hs Hc. rewrite (Z.mul_comm c). pose proof (Signed_len _ _ _ _ S0) as [C0 _].
  apply (times_amount_exact prec (10 ^ u) neg c k s c u); auto; try lia; apply p10; lia.
Qed.

Lemma show_any prec n r p : 0 < r -> 1 <= prec <= 100000 -> 0 <= p -> Z.abs n < 10 ^ (prec - p - 1) -> p + 2 <= prec -> ndigits r <= 100000 ->
  exists s, show_amount prec n r p = Ok ((if n <? 0 then [45] else []) ++ s) /\ Shortest (Z.abs n * 10 ^ p / r) p s.
Proof.
  intros Hr Hp Hpl Hn Hpp Hnr. unfold show_amount, dec_of_int. destruct (Z.ltb_spec r 0); [lia|]. rewrite (Z.abs_eq r) by lia.
  destruct (Z.eq_dec n 0) as [->|NZ].
  - change (Z.abs 0) with 0. change (0 <? 0) with false. cbn [dec_div]. destruct (Z.eqb_spec r 0); [lia|]. cbn [Z.eqb].
    change (0 - 0) with 0. rewrite fix_zero; [|lia|cbv [Emin Emax]; lia]. cbn [bind quantize_down Z.eqb xorb].
    rewrite fix_zero; [|lia|cbv [Emin Emax]; lia]. cbn [bind].
    destruct (format_shortest prec false 0 p) as (x & s & -> & E & SH); [pose proof (p10 prec); lia|lia|lia|]. cbn [bind]. rewrite E.
    exists s. split; auto.
  - assert (NN : ndigits (Z.abs n) <= prec - p - 1) by (apply ndigits_le; lia).
    destruct (div_rounds prec (n <? 0) (Z.abs n) r 0 p) as (c1 & e1 & E & H1 & H2 & H3 & H4 & H5); try lia.
    change (- 0) with 0 in E. rewrite E. cbn [bind]. rewrite Z.add_0_r in H4, H5. pose proof (ndigits_ge1 c1 ltac:(lia)).
    destruct (quantize_shows prec (n <? 0) c1 e1 p (Z.abs n * 10 ^ p / r)) as [-> BT]; auto; try lia. cbn [bind].
    destruct (format_shortest prec (n <? 0) (Z.abs n * 10 ^ p / r) p) as (x & s & -> & E2 & SH); [lia|lia|lia|]. cbn [bind]. rewrite E2.
    exists s. auto.
Qed.
Lemma show_unit prec n u : 1 <= prec -> 0 <= u -> prec + u <= 100000 -> Z.abs n < 10 ^ prec ->
  exists s, show_amount prec n (10 ^ u) u = Ok ((if n <? 0 then [45] else []) ++ s) /\ Shortest (Z.abs n) u s.
Proof.
  intros Hp Hu Hpu Hn. pose proof (p10 u Hu). unfold show_amount, dec_of_int. destruct (Z.ltb_spec (10 ^ u) 0); [lia|]. rewrite (Z.abs_eq (10 ^ u)) by lia.
  destruct (Z.eq_dec n 0) as [->|NZ].
  - change (Z.abs 0) with 0. change (0 <? 0) with false. cbn [dec_div]. destruct (Z.eqb_spec (10 ^ u) 0); [lia|]. cbn [Z.eqb].
    change (0 - 0) with 0. rewrite fix_zero; [|lia|cbv [Emin Emax]; lia]. cbn [bind quantize_down Z.eqb xorb].
    rewrite fix_zero; [|lia|cbv [Emin Emax]; lia]. cbn [bind].
    destruct (format_shortest prec false 0 u) as (x & s & -> & E & SH); [pose proof (p10 prec); lia|lia|lia|]. cbn [bind]. rewrite E.
    exists s. split; auto.
  - destruct (div_unit prec (n <? 0) (Z.abs n) u) as (c1 & e1 & E & H1 & H2 & H3 & H4); try lia.
    rewrite E. cbn [bind].
    destruct (quantize_shows prec (n <? 0) c1 e1 u (Z.abs n)) as [-> BT]; auto; try lia. cbn [bind].
    destruct (format_shortest prec (n <? 0) (Z.abs n) u) as (x & s & -> & E2 & SH); [lia|lia|lia|]. cbn [bind]. rewrite E2.
    exists s. auto.
Qed.
(** What is shown can be read. *)
Lemma Shortest_amount T p s : Shortest T p s -> exists c k, Amount c k s /\ 0 <= k <= p /\ T = c * 10 ^ (p - k).
Proof.
  intros (c & k & ds & fs & Hk & ET & EL & D & -> & L & _). exists c, k. split; auto.
  assert (NE : ds <> []) by (destruct L as [->|(d & r & -> & _)]; discriminate).
  destruct (Z.eqb_spec k 0) as [->|].
  - destruct fs; [|unfold zlen in EL; cbn [length] in EL; lia]. rewrite app_nil_r in D. constructor; auto.
  - rewrite <- EL. constructor; auto. destruct ds; [congruence|discriminate].
Qed.
(** The text is not too long. *)
Lemma Shortest_len T p s : Shortest T p s -> 0 <= T -> zlen s <= ndigits T + p + 2.
Proof.
  intros (c & k & ds & fs & Hk & ET & EL & D & -> & L & _) HT.
  assert (LL : zlen ds <= ndigits T + 1).
  { destruct L as [->|(d & r & -> & Hd)].
    - pose proof (ndigits_ge1 T HT). unfold zlen. cbn [length]. lia.
    - unfold zlen. cbn [length]. assert (zlen r < ndigits T); [|unfold zlen in *; lia]. apply ndigits_gt; [unfold zlen; lia|].
      cbn [app] in D. pose proof (Digits_hd _ _ _ D Hd) as B. rewrite zlen_app in B. apply Z.le_trans with c.
      + eapply Z.le_trans; [|exact B]. apply Z.pow_le_mono_r; unfold zlen in *; lia.
      + pose proof (p10 (p - k)). pose proof (p10 (zlen r + zlen fs)). unfold zlen in *. nia. }
  destruct (Z.eqb_spec k 0); [lia|]. rewrite zlen_app. unfold zlen in *. cbn [length]. lia.
Qed.

Section WithOutside.
Context {E : Type} {OU : Outside E}.

Lemma units_rate unit_ u : In (unit_, u) units -> 0 <= u <= 8 /\ precision_of unit_ = Ok u /\ forall s : Net E, exchange_rate unit_ s = (Ok (10 ^ u), s).
Proof.
  intros H. cbn in H. repeat (destruct H as [H|H]; [injection H as <- <-; split; [lia|split; [reflexivity|intros s; reflexivity]]|]). destruct H.
Qed.

(** An amount of a unit that is written with no more significant digits than
    the decimal context holds is converted exactly (fractions of a satoshi are
    cut off); nobody is asked. *)
Theorem C54_to_satoshi unit_ u neg c k s (st : Net E) :
  In (unit_, u) units -> Signed neg c k s -> zlen s < 100000 -> 1 <= g_prec (n_globals st) <= 90000 -> c < 10 ^ g_prec (n_globals st) ->
  currency_to_satoshi s unit_ st = (Ok (trunc neg (c * 10 ^ u) (10 ^ k)), st).
Proof.
  intros HU S0 HS HP HC. destruct (units_rate _ _ HU) as (Hu & _ & ER). unfold currency_to_satoshi. unfold ibind at 1. rewrite ER.
  cbn [ibind globals iget iret]. unfold globals, iget, iret, ilift, ibind. cbn. rewrite (times_unit _ u neg c k); auto; lia.
Qed.

(** Conversely the amount is shown exactly, in the shortest way. *)
Theorem C54_shown unit_ u n (st : Net E) :
  In (unit_, u) units -> 1 <= g_prec (n_globals st) <= 90000 -> Z.abs n < 10 ^ g_prec (n_globals st) ->
  exists s, satoshi_to_currency n unit_ st = (Ok ((if n <? 0 then [45] else []) ++ s), st) /\ Shortest (Z.abs n) u s.
Proof.
  intros HU HP HN. destruct (units_rate _ _ HU) as (Hu & EP & ER). destruct (show_unit (g_prec (n_globals st)) n u) as (s & ES & SH); try lia.
  exists s. split; auto. unfold satoshi_to_currency. unfold ibind at 1. rewrite ER. unfold globals, iget, iret, ilift, ibind. rewrite EP. cbn. rewrite ES. reflexivity.
Qed.

(** There and back. *)
Theorem C54_roundtrip unit_ u n (st st' : Net E) text :
  In (unit_, u) units -> 1 <= g_prec (n_globals st) <= 90000 -> Z.abs n < 10 ^ g_prec (n_globals st) ->
  satoshi_to_currency n unit_ st = (Ok text, st') -> st' = st /\ currency_to_satoshi text unit_ st' = (Ok n, st').
Proof.
  intros HU HP HN ES. destruct (C54_shown unit_ u n st HU HP HN) as (s & ES' & SH). rewrite ES' in ES.
  assert (st' = st) as -> by congruence. split; auto. assert (text = (if n <? 0 then [45] else []) ++ s) as -> by congruence. clear ES ES'.
  destruct (units_rate _ _ HU) as (Hu & _). pose proof (Shortest_len _ _ _ SH ltac:(lia)) as LEN.
  pose proof (ndigits_le (Z.abs n) (g_prec (n_globals st)) ltac:(lia) ltac:(lia)).
  destruct (Shortest_amount _ _ _ SH) as (c & k & A & Hk & ET). pose proof (p10 (u - k) ltac:(lia)). pose proof (p10 k ltac:(lia)).
  assert (CC : 0 <= c) by nia.
  assert (S0 : Signed (n <? 0) c k ((if n <? 0 then [45] else []) ++ s)) by (destruct (n <? 0); constructor; auto).
  rewrite (C54_to_satoshi unit_ u (n <? 0) c k _ st HU S0); [| |auto|nia].
  2:{ destruct (n <? 0); unfold zlen in *; cbn [app length]; lia. }
  do 2 f_equal. unfold trunc. assert (c * 10 ^ u / 10 ^ k = Z.abs n) as ->.
  { assert (c * 10 ^ u = Z.abs n * 10 ^ k) as ->; [|apply Z.div_mul; lia].
    rewrite ET, <- Z.mul_assoc, <- Z.pow_add_r by lia. do 2 f_equal. lia. }
  destruct (Z.ltb_spec n 0); lia.
Qed.

(** With an exchange rate of r satoshis, the display is the exact quotient,
    rounded down (towards zero) to the places of the currency. *)
Theorem C55_shown currency r p n (st st' : Net E) :
  exchange_rate currency st = (Ok r, st') -> In (currency, p) currencies -> 0 < r < 10 ^ 100 ->
  28 <= g_prec (n_globals st') <= 90000 -> Z.abs n < 10 ^ 19 ->
  exists s, satoshi_to_currency n currency st = (Ok ((if n <? 0 then [45] else []) ++ s), st') /\ Shortest (Z.abs n * 10 ^ p / r) p s.
Proof.
  intros ER HC Hr HP HN.
  assert (EP : precision_of currency = Ok p /\ 0 <= p <= 8).
  { unfold currencies in HC. cbn [map fst snd In] in HC.
    repeat (destruct HC as [HC|HC]; [injection HC as <- <-; split; [vm_compute; reflexivity|lia]|]). destruct HC. }
  destruct EP as [EP Hp]. destruct (show_any (g_prec (n_globals st')) n r p) as (s & ES & SH); try lia.
  { apply Z.lt_le_trans with (10 ^ 19); auto. apply Z.pow_le_mono_r; lia. }
  { pose proof (ndigits_le r 100 ltac:(lia) ltac:(lia)). lia. }
  exists s. split; auto. unfold satoshi_to_currency. unfold ibind at 1. rewrite ER. unfold globals, iget, iret, ilift, ibind. rewrite EP. cbn. rewrite ES. reflexivity.
Qed.

Lemma inverse_rate prec c k : 0 < c < 10 ^ 100 -> 0 <= k -> k + 10 <= prec <= 90000 ->
  exists x y, dec_div prec (dec_of_int 1) (Fin false c (- k)) = Ok x /\ dec_mul prec x (dec_of_int BTC) = Ok y /\ dec_to_int y = Ok (10 ^ (8 + k) / c).
Proof.
  intros Hc Hk Hp. change (dec_of_int 1) with (Fin false 1 0). change (dec_of_int BTC) with (Fin false (10 ^ 8) 0).
  destruct (div_rounds prec false 1 c k 8) as (c1 & e1 & -> & C1 & C2 & C3 & C4 & C5); try lia.
  { change (ndigits 1) with 1. lia. }
  { pose proof (ndigits_le c 100 ltac:(lia) ltac:(lia)). lia. }
  change (ndigits 1) with 1 in C4. rewrite Z.mul_1_l in C5. change (Z.opp 8) with (-8) in C5. exists (Fin false c1 e1). cbn [dec_mul xorb]. rewrite Z.add_0_r.
  pose proof (ndigits_le c 100 ltac:(lia) ltac:(lia)) as NC. pose proof (ndigits_ge1 c1 ltac:(lia)).
  destruct (fix_zeros prec false c1 8 e1) as (c' & e' & -> & He & EV); [lia|lia|lia|cbv [Emin]; lia|cbv [Emax]; lia|].
  exists (Fin false c' e'). split; [reflexivity|]. split; [reflexivity|]. rewrite C5. destruct (Z_lt_le_dec e1 0) as [N|P].
  - rewrite (to_int_scaled false (c1 * 10 ^ 8) (- e1)); try lia.
    2:{ rewrite EV. do 2 f_equal. }
    f_equal. unfold trunc. destruct (Z.geb_spec e1 (- 8)).
    + pose proof (p10 (- e1) ltac:(lia)). assert (10 ^ 8 = 10 ^ (e1 + 8) * 10 ^ (- e1)) as -> by (rewrite <- Z.pow_add_r by lia; f_equal; lia).
      rewrite Z.mul_assoc. apply Z.div_mul. lia.
    + assert (10 ^ (- e1) = 10 ^ (- 8 - e1) * 10 ^ 8) as -> by (rewrite <- Z.pow_add_r by lia; f_equal; lia).
      pose proof (p10 (- 8 - e1) ltac:(lia)). rewrite Z.div_mul_cancel_r by lia. reflexivity.
  - destruct (Z.geb_spec e1 (- 8)); [|lia]. cbn [dec_to_int]. destruct (Z.geb_spec e' 0); [|lia]. f_equal.
    rewrite (Z.add_comm e1 8), Z.pow_add_r, Z.mul_assoc, EV, <- Z.mul_assoc, <- Z.pow_add_r by lia. do 2 f_equal. lia.
Qed.
Lemma fiat_rate cur p (st : Net E) : In (cur, p) currencies -> ~ In cur (map fst units) ->
  exchange_rate cur st = first_working rates_ignored [bitpay_rate cur; blockchain_rate (upper cur)] st.
Proof.
  intros HC HU. cbn [currencies map fst snd In] in HC.
  repeat (destruct HC as [HC|HC]; [injection HC as <- <-; first [exfalso; apply HU; cbn [units map fst In]; tauto|reflexivity]|]). destruct HC.
Qed.

(** The rate itself: with a price of c / 10^k per bitcoin from bitpay.com, the
    smallest unit of account buys the exact quotient, rounded down. *)
Theorem C55_rate cur p (st : Net E) resp e' j data rate c k :
  In (cur, p) currencies -> ~ In cur (map fst units) ->
  o_get (str "https://bitpay.com/rates/BTC/" ++ cur) [] None (n_outside st) = (Ok resp, e') -> r_status resp < 400 ->
  r_json resp = Ok j -> jget "data" j = Ok data -> jget "rate" data = Ok rate ->
  Signed false c k (jtext rate) -> 0 < c < 10 ^ 100 -> k <= 18 -> 28 <= g_prec (n_globals st) <= 90000 ->
  exchange_rate cur st = (Ok (10 ^ (8 + k) / c), mkNet (n_globals st) e').
Proof.
  intros HC HU EG HS EJ ED ER S0 Hc Hk HP. rewrite (fiat_rate _ _ _ HC HU). cbn [first_working]. unfold itry, bitpay_rate, get_untimed, outside, zoom.
  unfold ibind at 1. rewrite EG. unfold ilift, globals, iget, iret, raise_for_status, ibind.
  assert (400 <=? r_status resp = false) as -> by (apply Z.leb_gt; lia). cbn [andb n_globals]. rewrite EJ. cbn [bind]. rewrite ED. cbn [bind]. rewrite ER. cbn [bind].
  unfold Decimal. rewrite (parse_signed _ _ _ _ S0). cbn [bind]. pose proof (Signed_len _ _ _ _ S0) as [_ K0].
  destruct (inverse_rate (g_prec (n_globals st)) c k) as (x & y & E1 & E2 & E3); try lia. rewrite E1. cbn [bind]. rewrite E2. cbn [bind]. rewrite E3. reflexivity.
Qed.
(** If bitpay.com cannot be reached, blockchain.info's c / 10^k bitcoin per unit of account are used. *)
Theorem C55_rate_fallback cur p (st : Net E) err resp e1 e2 c k :
  In (cur, p) currencies -> ~ In cur (map fst units) ->
  o_get (str "https://bitpay.com/rates/BTC/" ++ cur) [] None (n_outside st) = (Raise err, e1) -> err = ReqConnectionError \/ err = ReqTimeout ->
  o_get (str "https://blockchain.info/tobtc?currency=" ++ upper cur ++ str "&value=1") [] None e1 = (Ok resp, e2) -> r_status resp < 400 ->
  Signed false c k (r_text resp) -> c < 10 ^ 28 -> k < 100000 -> 28 <= g_prec (n_globals st) <= 90000 ->
  exchange_rate cur st = (Ok (10 ^ 8 * c / 10 ^ k), mkNet (n_globals st) e2).
Proof.
  intros HC HU EG HE EG2 HS S0 Hc Hk HP. rewrite (fiat_rate _ _ _ HC HU). cbn [first_working]. unfold itry at 1, bitpay_rate, get_untimed, outside, zoom.
  unfold ibind at 1. rewrite EG. assert (rates_ignored err = true) as -> by (destruct HE; subst; auto).
  unfold itry, blockchain_rate, get_untimed, outside, zoom. unfold ibind at 1. cbn [n_globals n_outside]. rewrite EG2. unfold ilift, globals, iget, iret, raise_for_status, ibind.
  assert (400 <=? r_status resp = false) as -> by (apply Z.leb_gt; lia). cbn [andb n_globals]. unfold Decimal. rewrite (parse_signed _ _ _ _ S0). cbn [bind].
  pose proof (Signed_len _ _ _ _ S0) as [C0 K0].
  assert (COMM : dec_mul (g_prec (n_globals st)) (Fin false c (- k)) (dec_of_int BTC) = dec_mul (g_prec (n_globals st)) (dec_of_int BTC) (Fin false c (- k))).
  { change (dec_of_int BTC) with (Fin false (10 ^ 8) 0). cbn [dec_mul]. rewrite Z.mul_comm, Z.add_comm. reflexivity. }
  rewrite COMM. destruct (mul_exact (g_prec (n_globals st)) (10 ^ 8) false c k c 8) as (x & E1 & E2); try lia.
  { split; [lia|]. apply Z.lt_le_trans with (10 ^ 28); [lia|]. apply Z.pow_le_mono_r; lia. }
  change (dec_of_int (10 ^ 8)) with (dec_of_int BTC) in E1. rewrite E1. cbn [bind]. rewrite E2. reflexivity.
Qed.

(** Amounts in other currencies: c / 10^k units of account at a rate of r. *)
Theorem C55_to_satoshi cur r neg c k s (st st' : Net E) :
  exchange_rate cur st = (Ok r, st') -> 0 < r -> Signed neg c k s -> zlen s < 100000 -> 1 <= g_prec (n_globals st') <= 90000 ->
  r * c < 10 ^ g_prec (n_globals st') ->
  currency_to_satoshi s cur st = (Ok (trunc neg (r * c) (10 ^ k)), st').
Proof.
  intros ER Hr S0 HS HP HC. unfold currency_to_satoshi. unfold ibind at 1. rewrite ER. unfold globals, iget, iret, ilift, ibind.
  pose proof (Signed_len _ _ _ _ S0) as [C0 _]. rewrite (times_amount_exact _ r neg c k s (r * c) 0); auto; try lia.
Qed.
(** A rate of zero satoshis (a currency unit worth less) cannot be shown. *)
Theorem C55_zero_rate cur p n (st st' : Net E) : exchange_rate cur st = (Ok 0, st') -> In (cur, p) currencies ->
  exists e, satoshi_to_currency n cur st = (Raise e, st') /\ (e = DivisionByZero \/ e = InvalidOperation).
Proof.
  intros ER HC. unfold satoshi_to_currency. unfold ibind at 1. rewrite ER.
  assert (EP : precision_of cur = Ok p).
  { unfold currencies in HC. cbn [map fst snd In] in HC.
    repeat (destruct HC as [HC|HC]; [injection HC as <- <-; vm_compute; reflexivity|]). destruct HC. }
  unfold globals, iget, iret, ilift, ibind. rewrite EP. unfold show_amount, dec_of_int. cbn. destruct (Z.abs n =? 0); eexists; cbn; eauto.
Qed.
End WithOutside.

(** ** Examples *)
Example C54_roundtrip_case :
  satoshi_to_currency 2100000000000001 (str "btc") (at_import []) = (Ok (str "21000000.00000001"), at_import []) /\
  currency_to_satoshi (str "21000000.00000001") (str "btc") (at_import []) = (Ok 2100000000000001, at_import []) /\
  satoshi_to_currency (-150) (str "ubtc") (at_import []) = (Ok (str "-1.5"), at_import []).
Proof. vm_compute. auto. Qed.
Lemma digits_denote ds : forallb is_digit ds = true -> Digits (num ds) ds.
Proof.
  induction ds as [|d ds IH] using rev_ind; [constructor|]. rewrite forallb_app. intros H. apply andb_true_iff in H as [H1 H2]. cbn in H2. rewrite andb_true_r in H2.
  unfold is_digit in H2. apply andb_true_iff in H2 as [A B]. apply Z.leb_le in A, B. unfold num. rewrite fold_left_app. fold (num ds). cbn [fold_left].
  replace d with (48 + (d - 48)) at 2 by lia. constructor; [auto|lia].
Qed.
Example C54_amount : Signed false 2100000000000001 8 (str "21000000.00000001").
Proof. apply S_plain, (A_point _ (str "21000000") (str "00000001")); [apply (digits_denote (str "2100000000000001")); reflexivity|discriminate]. Qed.
(** 28 digits are enough for every amount there is, one more is not. *)
Example C54_bound : currency_to_satoshi (str "99999999999999999999.99999999") (str "btc") (at_import []) = (Ok 9999999999999999999999999999, at_import []) /\
  currency_to_satoshi (str "100000000000000000000.00000001") (str "btc") (at_import []) = (Ok 10000000000000000000000000000, at_import []).
Proof. vm_compute. auto. Qed.
Example C55_hypotheses : exchange_rate (str "usd") (at_import [usd_price "43210.5"]) = (Ok 2314, at_import []) /\
  satoshi_to_currency 123456789 (str "usd") (at_import [usd_price "43210.5"]) = (Ok (str "53352.11"), at_import []) /\
  In (str "usd", 2) currencies /\ ~ In (str "usd") (map fst units) /\ Signed false 432105 1 (str "43210.5").
Proof.
  split; [vm_compute; reflexivity|]. split; [vm_compute; reflexivity|]. split; [cbn; tauto|].
  split; [vm_compute; intuition discriminate|].
  apply S_plain, (A_point _ (str "43210") (str "5")); [apply (digits_denote (str "432105")); reflexivity|discriminate].
Qed.
Example C55_fallback_hypotheses : exchange_rate (str "usd") (at_import [Raise ReqTimeout; Ok (mkResp 200 (str "0.00002314") (Raise ValueError))]) = (Ok 2314, at_import []).
Proof. vm_compute. reflexivity. Qed.
Example C55_zero : satoshi_to_currency 5 (str "krw") (at_import [usd_price "123456789.0"]) = (Raise DivisionByZero, at_import []).
Proof. vm_compute. reflexivity. Qed.
(** ISO 4217 has no places for the krona: 1499 satoshis at a rate of 1000 are shown
    as 1.49, not as 1. *)
Theorem C55_krona_refuted : exists (st : Net script) r n text,
  fst (exchange_rate (str "isk") st) = Ok r /\ fst (satoshi_to_currency n (str "isk") st) = Ok text /\ ~ Shortest (n / r) 0 text.
Proof.
  exists (at_import [usd_price "100000.0"]), 1000, 1499, (str "1.49"). split; [vm_compute; reflexivity|]. split; [vm_compute; reflexivity|].
  intros (c & k & ds & fs & Hk & _ & LF & DG & ES & _). assert (k = 0) as -> by lia. assert (fs = []) as -> by (destruct fs; [reflexivity|unfold zlen in LF; cbn in LF; lia]).
  rewrite app_nil_r in DG. change (0 =? 0) with true in ES. cbv iota in ES. subst ds. apply Digits_chars in DG. discriminate DG.
Qed.
(** An amount below the smallest unit of account keeps its sign. *)
Example C55_negative_zero : satoshi_to_currency (-1) (str "usd") (at_import [usd_price "43210.5"]) = (Ok (str "-0"), at_import []).
Proof. vm_compute. reflexivity. Qed.

Print Assumptions C54_to_satoshi.
Print Assumptions C54_shown.
Print Assumptions C54_roundtrip.
Print Assumptions C55_shown.
Print Assumptions C55_krona_refuted.
Print Assumptions C55_rate.
Print Assumptions C55_rate_fallback.
Print Assumptions C55_to_satoshi.
Print Assumptions C55_zero_rate.
