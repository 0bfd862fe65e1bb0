(** What conversions, cached rates and fees depend on, in every history of
    calls (C56, C57, C58, C61). *)
From Coq Require Import String.
From Verif Require Import F_decimal M_services M_fees S_Decimal S_History F_network P_rates F_servers X_net X_toy F_base.

Section WithOutside.
Context {CR : Crypto} {E : Type} {OU : Outside E} (rounds : nat).
Notation run := (run (E:=E) rounds).
Notation step := (step (E:=E) rounds).

(** The state when bit is imported, at clock readings t1 and t2. *)
Definition start (t1 t2 : Z) (e : E) : Net E := mkNet (initial_globals t1 t2) e.

(** ** The cached conversions, case by case *)
Definition lookup (c : pystr) (l : RateCache) : option (option Z * Z) :=
  match find (fun p => list_eqb (fst p) c) l with Some p => Some (snd p) | None => None end.
Definition fresh (v : option Z) (t now T : Z) : bool := match v with Some x => negb ((x =? 0) || (now - t >? T)) | None => false end.

Lemma cached_eq a c (s : Net E) : currency_to_satoshi_cached a c s =
  (let g := n_globals s in
   match o_time (n_outside s) with
   | (Raise e, e1) => (Raise e, mkNet g e1)
   | (Ok now, e1) =>
       match lookup c (g_rates g) with
       | None => (Raise KeyError, mkNet g e1)
       | Some (v, t) =>
           if fresh v t now (g_rate_time g) then (times_amount (g_prec g) (match v with Some x => x | None => 0 end) a, mkNet g e1)
           else match exchange_rate c (mkNet g e1) with
                | (Ok x, s2) => (times_amount (g_prec g) x a, mkNet (set_rates (cache_set c (Some x, now) (g_rates g)) g) (n_outside s2))
                | (Raise e, s2) => (Raise e, mkNet g (n_outside s2))
                end
       end
   end).
Proof.
  cbv zeta. unfold currency_to_satoshi_cached. unfold ibind at 1. unfold outside, zoom. destruct (o_time (n_outside s)) as [[now|e] e1]; [|reflexivity].
  unfold ibind at 1. change (globals (mkNet (n_globals s) e1)) with (Ok (n_globals s), mkNet (n_globals s) e1). cbv beta iota.
  unfold lookup. destruct (find (fun p => list_eqb (fst p) c) (g_rates (n_globals s))) as [[k [v t]]|] eqn:F; [|reflexivity]. cbn [snd].
  assert (FETCH : (satoshis <~ (x <~ exchange_rate c ;; _ <~ modify_globals (fun g => set_rates (cache_set c (Some x, now) (g_rates g)) g) ;; iret x) ;;
      g <~ globals ;; ilift (times_amount (g_prec g) satoshis a)) (mkNet (n_globals s) e1) =
    match exchange_rate c (mkNet (n_globals s) e1) with
    | (Ok x, s2) => (times_amount (g_prec (n_globals s)) x a, mkNet (set_rates (cache_set c (Some x, now) (g_rates (n_globals s))) (n_globals s)) (n_outside s2))
    | (Raise e, s2) => (Raise e, mkNet (n_globals s) (n_outside s2))
    end).
  { unfold ibind at 1 2. pose proof (Frame_rate c (mkNet (n_globals s) e1)) as FR. destruct (exchange_rate c (mkNet (n_globals s) e1)) as [[x|e] s2]; cbn [snd n_globals] in FR.
    - cbn. rewrite FR. destruct s2 as [g2 o2]; cbn in *. subst g2. reflexivity.
    - rewrite <- FR. destruct s2; reflexivity. }
  destruct v as [v|]; cbn [fresh].
  - destruct ((v =? 0) || (now - t >? g_rate_time (n_globals s))); cbn [negb]; [exact FETCH|reflexivity].
  - exact FETCH.
Qed.
Lemma from_cached_state n c (s : Net E) : snd (satoshi_to_currency_cached n c s) = snd (currency_to_satoshi_cached (str "1") c s).
Proof.
  unfold satoshi_to_currency_cached. unfold ibind at 1. destruct (currency_to_satoshi_cached (str "1") c s) as [[x|e] s']; [|reflexivity].
  unfold ibind at 1. unfold ilift at 1. destruct (precision_of c); reflexivity.
Qed.

Lemma list_eqb_true (a b : pystr) : list_eqb a b = true -> a = b.
Proof. intros H. apply list_eqb_eq in H. exact H. Qed.
Lemma list_eqb_refl' (a : pystr) : list_eqb a a = true.
Proof. apply list_eqb_eq. reflexivity. Qed.
Lemma lookup_set c x l : lookup c l <> None -> lookup c (cache_set c x l) = Some x.
Proof.
  unfold lookup. induction l as [|[k y] l IH]; cbn [find cache_set fst]; [congruence|].
  destruct (list_eqb k c) eqn:K; cbn [find fst]; rewrite K; auto.
Qed.
Lemma lookup_set_other c d x l : c <> d -> lookup d (cache_set c x l) = lookup d l.
Proof.
  intros N. unfold lookup. induction l as [|[k y] l IH]; cbn [find cache_set fst]; auto.
  destruct (list_eqb k c) eqn:K; cbn [find fst].
  - apply list_eqb_true in K as ->. destruct (list_eqb c d) eqn:CD; auto. apply list_eqb_true in CD. congruence.
  - destruct (list_eqb k d); auto.
Qed.
Lemma lookup_set_none c d x l : lookup d l = None <-> lookup d (cache_set c x l) = None.
Proof.
  destruct (list_eqb c d) eqn:CD.
  - apply list_eqb_true in CD as ->. destruct (lookup d l) eqn:L; [rewrite lookup_set by congruence; split; discriminate|].
    split; auto. intros _. unfold lookup in *. induction l as [|[k y] l IH]; cbn [find cache_set fst] in *; auto. destruct (list_eqb k d) eqn:K; [discriminate|].
    cbn [find fst]. rewrite K. auto.
  - rewrite lookup_set_other; [reflexivity|]. intros ->. rewrite list_eqb_refl' in CD. discriminate.
Qed.

(** ** What each call may change in the state of the process *)
Definition g_apis (g : Globals) := (g_main g, g_test g).
Definition Change (o : op E) (g g' : Globals) : Prop :=
  match o with
  | Balance n _ => g' = g \/ (g' = set_prec 9 g /\ exists url, In (Node url) (a_balance (apis n g)))
  | Connect u p h port https t path =>
      let s := [Node (node_url u p h port https path)] in g' = set_apis (if t then Test else Main) (mkApis s s s s s) g
  | ToSatoshiCached _ c | FromSatoshiCached _ c => g' = g \/ exists x t, g' = set_rates (cache_set c (Some x, t) (g_rates g)) g
  | FeeCached f => g' = g \/ exists x t, g' = (if f then set_fast (Some x) t g else set_hour (Some x) t g)
  | RateCacheTime t => g' = set_rate_cache_time t g
  | FeeCacheTime t => g' = set_fee_cache_time t g
  | ServiceTimeout t => g' = set_service_timeout t g
  | _ => g' = g
  end.
Lemma fee_cached_eq f (s : Net E) : get_fee_cached f s =
  (let g := n_globals s in
   let cached := if f then g_fast g else g_hour g in
   let at_ := if f then g_fast_at g else g_hour_at g in
   match o_time (n_outside s) with
   | (Raise e, e1) => (Raise e, mkNet g e1)
   | (Ok now, e1) =>
       if fresh cached at_ now (g_fee_time g) then (Ok (match cached with Some x => x | None => 0 end), mkNet g e1)
       else
         match o_get fee_url [] None e1 with
         | (r, e2) =>
             match (resp <- r ;; _ <- raise_for_status resp ;; j <- r_json resp ;; x <- jget (fee_key f) j ;; jint x) with
             | Ok x => (Ok x, mkNet (if f then set_fast (Some x) now g else set_hour (Some x) now g) e2)
             | Raise e => (if fee_ignored e then Ok (match cached with Some x => x | None => if f then DEFAULT_FEE_FAST else DEFAULT_FEE_HOUR end) else Raise e, mkNet g e2)
             end
         end
   end).
Proof.
  cbv zeta. unfold get_fee_cached. unfold ibind at 1. unfold outside, zoom. destruct (o_time (n_outside s)) as [[now|e] e1]; [|reflexivity].
  unfold ibind at 1. change (globals (mkNet (n_globals s) e1)) with (Ok (n_globals s), mkNet (n_globals s) e1). cbv beta iota zeta.
  set (cached := if f then g_fast (n_globals s) else g_hour (n_globals s)).
  match goal with |- match cached with Some c => if _ then ?m else _ | None => _ end _ = _ => set (fetch := m) end.
  assert (FETCH : fetch (mkNet (n_globals s) e1) =
         match o_get fee_url [] None e1 with
         | (r, e2) =>
             match (resp <- r ;; _ <- raise_for_status resp ;; j <- r_json resp ;; x <- jget (fee_key f) j ;; jint x) with
             | Ok x => (Ok x, mkNet (if f then set_fast (Some x) now (n_globals s) else set_hour (Some x) now (n_globals s)) e2)
             | Raise e => (if fee_ignored e then Ok (match cached with Some x => x | None => if f then DEFAULT_FEE_FAST else DEFAULT_FEE_HOUR end) else Raise e, mkNet (n_globals s) e2)
             end
         end).
  { unfold fetch. unfold itry, get_untimed, outside, zoom. unfold ibind at 1. cbn [n_globals n_outside]. destruct (o_get fee_url [] None e1) as [[resp|e] e2]; cbn [bind].
    2:{ destruct (fee_ignored e); [destruct cached|]; reflexivity. }
    unfold ibind at 1. unfold ilift at 1. destruct (raise_for_status resp) as [u|e]; cbn [bind].
    2:{ destruct (fee_ignored e); [destruct cached|]; reflexivity. }
    unfold ibind at 1. unfold ilift at 1. destruct (j <- r_json resp ;; x <- jget (fee_key f) j ;; jint x) as [x|e]; cbn.
    - destruct f; reflexivity.
    - destruct (fee_ignored e); [destruct cached|]; reflexivity. }
  destruct cached as [v|]; cbn [fresh].
  - destruct ((v =? 0) || (now - (if f then g_fast_at (n_globals s) else g_hour_at (n_globals s)) >? g_fee_time (n_globals s))); cbn [negb]; [exact FETCH|reflexivity].
  - exact FETCH.
Qed.
Lemma step_change o (s : Net E) : Change o (n_globals s) (n_globals (step o s)).
Proof.
  destruct o; cbn [Change S_History.step]; try reflexivity.
  - apply get_balance_prec.
  - apply Frame_get_transactions.
  - apply Frame_get_by_id.
  - apply Frame_get_unspent.
  - apply Frame_broadcast.
  - apply Frame_fee.
  - rewrite fee_cached_eq. cbv zeta. destruct (o_time (n_outside s)) as [[now|e] e1]; [|left; reflexivity]. destruct (fresh _ _ _ _); [left; reflexivity|].
    destruct (o_get fee_url [] None e1) as [r e2]. destruct (resp <- r ;; _) as [x|e]; [|left; reflexivity]. right. exists x, now. cbn. destruct fast; reflexivity.
  - apply Frame_to_satoshi.
  - rewrite cached_eq. cbv zeta. destruct (o_time (n_outside s)) as [[now|e] e1]; [|left; reflexivity]. destruct (lookup currency (g_rates (n_globals s))) as [[v t]|]; [|left; reflexivity].
    destruct (fresh _ _ _ _); [left; reflexivity|]. destruct (exchange_rate currency _) as [[x|e] s2]; [right; exists x, now; reflexivity|left; reflexivity].
  - apply Frame_from_satoshi.
  - rewrite from_cached_state, cached_eq. cbv zeta. destruct (o_time (n_outside s)) as [[now|e] e1]; [|left; reflexivity]. destruct (lookup currency (g_rates (n_globals s))) as [[v t]|]; [|left; reflexivity].
    destruct (fresh _ _ _ _); [left; reflexivity|]. destruct (exchange_rate currency _) as [[x|e] s2]; [right; exists x, now; reflexivity|left; reflexivity].
Qed.
Lemma run_app a b (s : Net E) : run (a ++ b) s = run b (run a s).
Proof. revert s. induction a as [|o a IH]; intros s; cbn [app S_History.run]; auto. Qed.

(** ** C61: nodes *)
Lemma change_apis o g g' n : Change o g g' -> apis n g' = match connected n [o] with
  | Some url => mkApis [Node url] [Node url] [Node url] [Node url] [Node url] | None => apis n g end.
Proof.
  destruct o; cbn [Change connected]; intros H; try (subst g'; destruct n; reflexivity).
  - destruct H as [->|(-> & _)]; [reflexivity|destruct n; reflexivity].
  - subst g'. destruct n, testnet; reflexivity.
  - destruct H as [->|(x & t & ->)]; [reflexivity|destruct n, fast; reflexivity].
  - destruct H as [->|(x & t & ->)]; [reflexivity|destruct n; reflexivity].
  - destruct H as [->|(x & t & ->)]; [reflexivity|destruct n; reflexivity].
Qed.
(** In every history the services of a network are the node last connected to
    for it, for every kind of request, or those chosen at import. *)
Theorem C61_services ops t1 t2 e n :
  apis n (n_globals (run ops (start t1 t2 e))) =
  match connected n ops with
  | Some url => mkApis [Node url] [Node url] [Node url] [Node url] [Node url]
  | None => match n with Main => initial_main | Test => initial_test end
  end.
Proof.
  assert (G : forall s, apis n (n_globals (run ops s)) = match connected n ops with
     | Some url => mkApis [Node url] [Node url] [Node url] [Node url] [Node url] | None => apis n (n_globals s) end).
  { induction ops as [|o ops IH]; intros s; [reflexivity|]. cbn [S_History.run]. rewrite IH. cbn [connected].
    destruct (connected n ops); [reflexivity|]. rewrite (change_apis o _ _ n (step_change o s)). cbn [connected]. reflexivity. }
  rewrite G. destruct (connected n ops); [reflexivity|]. destruct n; reflexivity.
Qed.

(** ** C56: the precision *)
Lemma change_prec o g g' : Change o g g' -> g_prec g' = g_prec g \/ g_prec g' = 9.
Proof.
  destruct o; cbn [Change]; intros H; try (subst g'; left; reflexivity).
  - destruct H as [->|(-> & _)]; [left|right]; reflexivity.
  - subst g'. destruct testnet; left; reflexivity.
  - destruct H as [->|(x & t & ->)]; [left; reflexivity|destruct fast; left; reflexivity].
  - destruct H as [->|(x & t & ->)]; left; reflexivity.
  - destruct H as [->|(x & t & ->)]; left; reflexivity.
Qed.
(** In every history the precision is 28 or 9 digits ... *)
Lemma precision_always ops t1 t2 e : let p := g_prec (n_globals (run ops (start t1 t2 e))) in p = 28 \/ p = 9.
Proof.
  cbv zeta. assert (G : forall s, g_prec (n_globals (run ops s)) = g_prec (n_globals s) \/ g_prec (n_globals (run ops s)) = 9).
  { induction ops as [|o ops IH]; intros s; [left; reflexivity|]. cbn [S_History.run]. destruct (IH (step o s)) as [->|]; auto. apply (change_prec o). apply step_change. }
  destruct (G (start t1 t2 e)); auto.
Qed.
(** ... and 28 unless a node has been connected to. *)
Lemma precision_no_node ops t1 t2 e : (forall n, connected n ops = None) -> g_prec (n_globals (run ops (start t1 t2 e))) = 28.
Proof.
  induction ops as [|o ops IH] using rev_ind; intros H; [reflexivity|]. rewrite run_app. cbn [S_History.run].
  assert (NC : forall n, connected n ops = None).
  { intros n. specialize (H n). clear - H. revert H. induction ops as [|o' ops IH]; cbn [connected app]; auto.
    destruct (connected n (ops ++ [o])) eqn:C; [discriminate|]. rewrite IH; auto. }
  pose proof (step_change o (run ops (start t1 t2 e))) as CH. specialize (IH NC).
  destruct o; cbn [Change] in CH; try (rewrite CH; exact IH).
  - destruct CH as [->|(-> & url & IN)]; [exact IH|]. exfalso. rewrite C61_services, NC in IN. destruct n; cbn in IN; intuition discriminate.
  - exfalso. specialize (H (if testnet then Test else Main)). clear - H. induction ops as [|o' ops IH]; cbn [connected app] in H.
    + destruct testnet; discriminate.
    + destruct (connected (if testnet then Test else Main) (ops ++ _)); [discriminate|auto].
  - destruct CH as [->|(x & t & ->)]; [exact IH|destruct fast; exact IH].
  - destruct CH as [->|(x & t & ->)]; exact IH.
  - destruct CH as [->|(x & t & ->)]; exact IH.
Qed.
(** Amounts of a unit with at most 9 significant digits are converted exactly
    after whatever calls; without nodes, those with at most 28. *)
Theorem C56_small_amounts ops t1 t2 e unit_ u neg c k s : let st := run ops (start t1 t2 e) in
  In (unit_, u) units -> Signed neg c k s -> zlen s < 100000 -> c < 10 ^ 9 ->
  currency_to_satoshi s unit_ st = (Ok (trunc neg (c * 10 ^ u) (10 ^ k)), st).
Proof.
  cbv zeta. intros HU S0 HS HC. destruct (precision_always ops t1 t2 e) as [P|P]; cbv zeta in P; apply C54_to_satoshi; auto; rewrite P; lia.
Qed.
Theorem C56_without_nodes ops t1 t2 e unit_ u neg c k s : let st := run ops (start t1 t2 e) in
  (forall n, connected n ops = None) -> In (unit_, u) units -> Signed neg c k s -> zlen s < 100000 -> c < 10 ^ 28 ->
  currency_to_satoshi s unit_ st = (Ok (trunc neg (c * 10 ^ u) (10 ^ k)), st).
Proof.
  cbv zeta. intros NC HU S0 HS HC. pose proof (precision_no_node ops t1 t2 e NC) as P. apply C54_to_satoshi; auto; rewrite P; lia.
Qed.
(** Once a balance has been asked of a node the precision is 9 digits for good. *)
Theorem C56_balance_of_node ops ops' t1 t2 e n address url : connected n ops = Some url ->
  g_prec (n_globals (run (ops ++ Balance n address :: ops') (start t1 t2 e))) = 9.
Proof.
  intros HC. rewrite run_app. cbn [S_History.run]. set (s := run ops (start t1 t2 e)).
  assert (P : g_prec (n_globals (step (Balance n address) s)) = 9).
  { cbn [S_History.step]. unfold get_balance. unfold ibind at 1. change (globals s) with (Ok (n_globals s), s). cbv beta iota.
    pose proof (C61_services ops t1 t2 e n) as A. rewrite HC in A. fold s in A. rewrite A. cbn [a_balance map first_working]. unfold itry.
    assert (EC : call_balance n address (Node url) s = node_balance url address s) by (destruct n; reflexivity). rewrite EC.
    pose proof (node_balance_prec url address s) as NP. destruct (node_balance url address s) as [[b|x] s1]; cbn [snd] in NP.
    - cbn [snd]. rewrite NP. reflexivity.
    - destruct (net_ignored x); cbn; rewrite NP; reflexivity. }
  revert P. generalize (step (Balance n address) s). clear. induction ops' as [|o ops IH]; intros s P; [exact P|]. cbn [S_History.run]. apply IH.
  destruct (change_prec o _ _ (step_change o s)) as [->|]; auto.
Qed.
Lemma nearest_float m c k sat : 0 <= m <= 2000 -> 0 < sat < 10 ^ 9 -> 0 < c < 10 ^ m -> 0 <= k <= 2000 -> 10 ^ 15 * Z.abs (c * 10 ^ 8 - sat * 10 ^ k) <= sat * 10 ^ k ->
  exists c1 e1, fix_dec 9 false (c * 10 ^ 8) (- k) = Ok (Fin false c1 e1) /\ - k <= e1 /\ sat * 10 ^ k = c1 * 10 ^ (e1 + k).
Proof.
  intros Hm Hs Hc Hk H. set (P := c * 10 ^ 8) in *. set (K := sat * 10 ^ k) in *. pose proof (p10 k ltac:(lia)) as Pk.
  assert (HP : 0 < P) by (unfold P; lia). assert (HK : 0 < K) by (unfold K; nia).
  assert (NC : ndigits P <= m + 8). { apply ndigits_le; [|lia]. split; [lia|]. unfold P. rewrite (Z.pow_add_r 10 m 8) by lia. apply Z.mul_lt_mono_pos_r; [reflexivity|apply Hc]. }
  assert (KB : K <= (10 ^ 9 - 1) * 10 ^ k) by (unfold K; nia).
  assert (NK : ndigits P <= 9 + k). { apply ndigits_le; [|lia]. rewrite Z.pow_add_r by lia. lia. }
  destruct (fix_rounds 9 false P (- k)) as (c1 & e1 & J & EF & (C1 & C2 & C3 & C4 & C5 & C6) & HJ & DV & JJ); [lia|lia|cbv [Emin]; lia|cbv [Emax]; lia|].
  exists c1, e1. split; auto. split; auto. replace (e1 - - k) with (e1 + k) in * by lia. set (V := c1 * 10 ^ (e1 + k)) in *.
  destruct (Z_le_gt_dec (ndigits P) 9) as [L|G].
  - assert (J = 0) as -> by lia. change (10 ^ 0) with 1 in C5. assert (V = P) by lia.
    assert (PB : P < 10 ^ 9). { pose proof (ndigits_bounds P HP) as [_ B]. apply Z.lt_le_trans with (10 ^ ndigits P); auto. apply Z.pow_le_mono_r; lia. }
    lia.
  - assert (J = ndigits P - 9) as EJ by lia. assert (J <= k) by lia. pose proof (p10 J ltac:(lia)) as PJ.
    pose proof (ndigits_bounds P HP) as [_ B]. replace (ndigits P) with (9 + J) in B by lia. rewrite (Z.pow_add_r 10 9 J) in B by lia.
    assert (DK : (10 ^ J | K)). { exists (sat * 10 ^ (k - J)). unfold K. rewrite <- Z.mul_assoc, <- Z.pow_add_r by lia. do 2 f_equal. lia. }
    assert (CL : Z.abs (V - K) < 10 ^ J) by lia.
    destruct DV as [v EV]. destruct DK as [w EW]. rewrite EV, EW in *. clear - CL PJ. assert (v = w) as ->; [|reflexivity].
    generalize dependent (10 ^ J). intros Z1 CL PJ. nia.
Qed.
Lemma node_balance_nearest m url address (s : Net E) resp e' j repr c k sat : 0 <= m <= 2000 ->
  o_rpc url (str "getreceivedbyaddress") [JStr address; JInt 0] None (n_outside s) = (Ok resp, e') -> r_status resp = 200 ->
  r_json resp = Ok j -> jget "result" j = Ok (JFloat repr (Fin false c (- k))) -> jget "error" j = Ok JNull ->
  0 <= sat < 10 ^ 9 -> 0 <= c < 10 ^ m -> 0 <= k <= 2000 -> 10 ^ 15 * Z.abs (c * 10 ^ 8 - sat * 10 ^ k) <= sat * 10 ^ k ->
  fst (node_balance url address s) = Ok sat.
Proof.
  intros Hm ER HS EJ EV EE Hs Hc Hk H. unfold node_balance. unfold ibind at 1. unfold modify_globals, ibind at 1, iget, iput. change (ndigits BTC) with 9.
  unfold ibind at 1. unfold rpc. unfold ibind at 1. unfold itry, outside, zoom. cbn [n_globals n_outside]. rewrite ER. rewrite HS. cbn [Z.eqb orb negb Pos.eqb].
  unfold ilift at 1. rewrite EJ. cbn [bind].
  assert (HH : jhas "error" j = Ok true).
  { destruct j as [| | | | | |fields]; try discriminate EE. cbn [jhas jget] in *. f_equal. apply existsb_exists.
    destruct (find (fun p => list_eqb (fst p) (str "error")) fields) as [p|] eqn:F; [|discriminate]. apply find_some in F as [F1 F2]. exists p. auto. }
  rewrite HH. cbn [bind]. rewrite EE. cbn [bind]. rewrite EV. cbn [bind]. unfold globals, iget, iret, ilift, ibind. cbn [n_globals fst]. unfold jdec. cbn [bind].
  change (g_prec (set_prec 9 (n_globals s))) with 9. change (dec_of_int BTC) with (Fin false (10 ^ 8) 0). cbn [dec_mul xorb]. rewrite Z.add_0_r.
  destruct (Z.eq_dec sat 0) as [->|NZ].
  - assert (c = 0) as -> by lia. rewrite Z.mul_0_l, fix_zero; [|lia|cbv [Emin Emax]; lia]. cbn [bind]. rewrite (to_int_scaled false 0 k); try lia. reflexivity.
  - assert (c <> 0). { intros ->. pose proof (p10 k ltac:(lia)). rewrite Z.mul_0_l in H. nia. }
    destruct (nearest_float m c k sat) as (c1 & e1 & -> & He & EK); try lia. cbn [bind]. rewrite (to_int_scaled false (sat * 10 ^ k) k); try lia.
    unfold trunc. rewrite Z.div_mul; auto. pose proof (p10 k ltac:(lia)). lia.
Qed.
(** A balance below ten bitcoins that the node reports as the nearest float is read correctly. *)
Theorem C56_node_balance url address (s : Net E) resp e' j repr c k sat :
  o_rpc url (str "getreceivedbyaddress") [JStr address; JInt 0] None (n_outside s) = (Ok resp, e') -> r_status resp = 200 ->
  r_json resp = Ok j -> jget "result" j = Ok (JFloat repr (Fin false c (- k))) -> jget "error" j = Ok JNull ->
  0 <= sat < 10 ^ 9 -> 0 <= c < 10 ^ 2000 -> 0 <= k <= 2000 -> 10 ^ 15 * Z.abs (c * 10 ^ 8 - sat * 10 ^ k) <= sat * 10 ^ k ->
  fst (node_balance url address s) = Ok sat.
Proof. exact (node_balance_nearest 2000 url address s resp e' j repr c k sat (conj (Zle_0_pos 2000) (Z.le_refl 2000))). Qed.

(** ** C57: cached exchange rates *)
Definition asks_rate (o : op E) (cur : pystr) : Prop := (exists a, o = ToSatoshiCached a cur) \/ (exists n, o = FromSatoshiCached n cur).
(** A call in state s, at time t, gets the rate x from the services. *)
Definition gets_rate (s : Net E) (cur : pystr) (t x : Z) : Prop :=
  exists e1, o_time (n_outside s) = (Ok t, e1) /\ fst (exchange_rate cur (mkNet (n_globals s) e1)) = Ok x.
(** It got it during the history. *)
Definition got_rate (ops : list (op E)) (s0 : Net E) (cur : pystr) (t x : Z) : Prop :=
  exists pre o post, ops = pre ++ o :: post /\ asks_rate o cur /\ gets_rate (run pre s0) cur t x.
(** res is what the amount is worth at a rate of x. *)
Definition Worth (prec x : Z) (amount : pystr) (res : result Z) : Prop :=
  forall neg c k, Signed neg c k amount \/ neg = false /\ Scientific c k amount /\ k < 1000 -> zlen amount < 100000 -> 0 < x -> x * c < 10 ^ prec ->
    res = Ok (trunc neg (x * c) (10 ^ k)).
Lemma worth_times prec x a : 1 <= prec <= 90000 -> Worth prec x a (times_amount prec x a).
Proof.
  intros HP neg c k [S0|(-> & S0 & Hk)] HS Hx HC.
  - pose proof (Signed_len _ _ _ _ S0) as [C0 _]. apply (times_amount_exact _ x neg c k a (x * c) 0); auto; lia.
  - assert (C0 : 0 <= c /\ 0 <= k).
    { destruct S0 as [c k s A|c k s y ys A DY _]; pose proof (Signed_len false c k s (S_plain _ _ _ A)) as [C0 K0]; [lia|]. pose proof (Digits_nonneg _ _ DY). lia. }
    unfold times_amount, Decimal. rewrite (parse_scientific _ _ _ S0). cbn [bind]. destruct (mul_exact prec x false c k (x * c) 0) as (y & -> & E2); try lia. cbn [bind]. exact E2.
Qed.

(** The effect on the cached rate of one currency. *)
Lemma step_rate o (s : Net E) cur : let l := lookup cur (g_rates (n_globals s)) in let l' := lookup cur (g_rates (n_globals (step o s))) in
  l' = l \/ (l <> None /\ asks_rate o cur /\ exists t x, gets_rate s cur t x /\ l' = Some (Some x, t)).
Proof.
  cbv zeta.
  assert (ASK : forall a c, (step o s = snd (currency_to_satoshi_cached a c s)) -> (asks_rate o c) ->
     lookup cur (g_rates (n_globals (step o s))) = lookup cur (g_rates (n_globals s)) \/
     (lookup cur (g_rates (n_globals s)) <> None /\ asks_rate o cur /\ exists t x, gets_rate s cur t x /\ lookup cur (g_rates (n_globals (step o s))) = Some (Some x, t))).
  { intros a c -> AC. rewrite cached_eq. cbv zeta. destruct (o_time (n_outside s)) as [[now|e] e1] eqn:ET; [|left; reflexivity].
    destruct (lookup c (g_rates (n_globals s))) as [[v t]|] eqn:L; [|left; reflexivity]. destruct (fresh _ _ _ _); [left; reflexivity|].
    destruct (exchange_rate c (mkNet (n_globals s) e1)) as [[x|e] s2] eqn:ER; [|left; reflexivity]. cbn [snd n_globals set_rates g_rates].
    destruct (list_eqb c cur) eqn:CC.
    - apply list_eqb_true in CC as ->. right. split; [congruence|]. split; [exact AC|]. exists now, x. split.
      + exists e1. split; auto. rewrite ER. reflexivity.
      + apply lookup_set. congruence.
    - left. apply lookup_set_other. intros ->. rewrite list_eqb_refl' in CC. discriminate. }
  pose proof (step_change o s) as CH. destruct o; cbn [Change] in CH; try (left; rewrite CH; reflexivity).
  - destruct CH as [->|(-> & _)]; left; reflexivity.
  - rewrite CH. destruct testnet; left; reflexivity.
  - destruct CH as [->|(x & t & ->)]; [left; reflexivity|destruct fast; left; reflexivity].
  - apply (ASK amount currency); [reflexivity|left; eauto].
  - apply (ASK (str "1") currency); [apply from_cached_state|right; eauto].
Qed.
Lemma supported_cached cur p t1 t2 e ops : In (cur, p) currencies -> lookup cur (g_rates (n_globals (run ops (start t1 t2 e)))) <> None.
Proof.
  intros HC. assert (G : forall s : Net E, lookup cur (g_rates (n_globals s)) <> None -> lookup cur (g_rates (n_globals (run ops s))) <> None).
  { induction ops as [|o ops IH]; intros s H; [exact H|]. cbn [S_History.run]. apply IH. destruct (step_rate o s cur) as [->|(_ & _ & t & x & _ & ->)]; auto. discriminate. }
  apply G. unfold currencies in HC. cbn [map fst snd In] in HC.
  repeat (destruct HC as [HC|HC]; [injection HC as <- <-; vm_compute; discriminate|]). destruct HC.
Qed.
Lemma cached_rate_got cur ops t1 t2 e x t : lookup cur (g_rates (n_globals (run ops (start t1 t2 e)))) = Some (Some x, t) ->
  got_rate ops (start t1 t2 e) cur t x.
Proof.
  induction ops as [|o ops IH] using rev_ind; intros L.
  - exfalso. cbn [S_History.run] in L. unfold start, n_globals, initial_globals, g_rates, lookup in L.
    destruct (find _ _) as [[k v]|] eqn:F in L; [|discriminate]. apply find_some in F as [F _]. apply in_map_iff in F as (q & Eq & _). injection Eq as _ <-. discriminate L.
  - rewrite run_app in L. cbn [S_History.run] in L. destruct (step_rate o (run ops (start t1 t2 e)) cur) as [E1|(_ & AO & t' & x' & G & E1)].
    + rewrite E1 in L. destruct (IH L) as (pre & o' & post & -> & A & G). exists pre, o', (post ++ [o]). rewrite <- app_assoc. auto.
    + rewrite E1 in L. assert (x' = x) as -> by congruence. assert (t' = t) as -> by congruence. exists ops, o, []. auto.
Qed.

(** The cache times are those set last. *)
Lemma cache_times ops t1 t2 e : g_rate_time (n_globals (run ops (start t1 t2 e))) = RateTime ops /\ g_fee_time (n_globals (run ops (start t1 t2 e))) = FeeTime ops.
Proof.
  unfold RateTime, FeeTime. change 60 with (g_rate_time (n_globals (start t1 t2 e))) at 1. change 600 with (g_fee_time (n_globals (start t1 t2 e))) at 1.
  generalize (start t1 t2 e) as s. induction ops as [|o ops IH]; intros s; [split; reflexivity|]. cbn [S_History.run fold_left].
  destruct (IH (step o s)) as [-> ->].
  assert (Q : g_rate_time (n_globals (step o s)) = match o with RateCacheTime t => t | _ => g_rate_time (n_globals s) end /\
              g_fee_time (n_globals (step o s)) = match o with FeeCacheTime t => t | _ => g_fee_time (n_globals s) end).
  { pose proof (step_change o s) as C. destruct o; cbn [Change] in C; try (rewrite C; split; reflexivity).
    - destruct C as [-> | (-> & _)]; split; reflexivity.
    - rewrite C. destruct testnet; split; reflexivity.
    - destruct C as [-> | (x & t & ->)]; [split; reflexivity|]. destruct fast; split; reflexivity.
    - destruct C as [-> | (x & t & ->)]; split; reflexivity.
    - destruct C as [-> | (x & t & ->)]; split; reflexivity. }
  destruct Q as [-> ->]. split; reflexivity.
Qed.

(** In every history, a cached conversion either uses a rate that was obtained
    for this currency at most the cache time ago, and asks nobody; or it asks
    for the rate and uses the answer; if that fails it raises and the state of
    the process stays the same. *)
Theorem C57_fresh ops t1 t2 e cur p amount now e1 res s' : let s := run ops (start t1 t2 e) in
  In (cur, p) currencies -> o_time (n_outside s) = (Ok now, e1) -> currency_to_satoshi_cached amount cur s = (res, s') ->
  (exists t x, got_rate ops (start t1 t2 e) cur t x /\ now - t <= RateTime ops /\ x <> 0 /\
               Worth (g_prec (n_globals s)) x amount res /\ s' = mkNet (n_globals s) e1) \/
  (exists x s2, exchange_rate cur (mkNet (n_globals s) e1) = (Ok x, s2) /\ Worth (g_prec (n_globals s)) x amount res /\ n_outside s' = n_outside s2) \/
  (exists err s2, exchange_rate cur (mkNet (n_globals s) e1) = (Raise err, s2) /\ res = Raise err /\ s' = mkNet (n_globals s) (n_outside s2)).
Proof.
  cbv zeta. rewrite <- (proj1 (cache_times ops t1 t2 e)). intros HC ET EC. rewrite cached_eq in EC. cbv zeta in EC. rewrite ET in EC.
  assert (HP : 1 <= g_prec (n_globals (run ops (start t1 t2 e))) <= 90000) by (destruct (precision_always ops t1 t2 e) as [P|P]; cbv zeta in P; rewrite P; lia).
  pose proof (supported_cached cur p t1 t2 e ops HC) as SC. destruct (lookup cur _) as [[v t]|] eqn:L; [|congruence].
  destruct (fresh v t now _) eqn:FR.
  - left. destruct v as [x|]; [|discriminate]. cbn [fresh] in FR. apply negb_true_iff, orb_false_iff in FR as [F1 F2]. apply Z.eqb_neq in F1. exists t, x.
    assert (res = times_amount (g_prec (n_globals (run ops (start t1 t2 e)))) x amount) as -> by congruence.
    split; [apply cached_rate_got; auto|]. split; [destruct (Z.gtb_spec (now - t) (g_rate_time (n_globals (run ops (start t1 t2 e))))); [discriminate|lia]|].
    split; auto. split; [apply worth_times; auto|congruence].
  - right. destruct (exchange_rate cur (mkNet _ e1)) as [[x|err] s2] eqn:ER.
    + left. exists x, s2. split; auto. assert (res = times_amount (g_prec (n_globals (run ops (start t1 t2 e)))) x amount) as -> by congruence.
      split; [apply worth_times; auto|]. assert (n_outside s' = n_outside (mkNet (set_rates (cache_set cur (Some x, now) (g_rates (n_globals (run ops (start t1 t2 e))))) (n_globals (run ops (start t1 t2 e)))) (n_outside s2))) as -> by congruence. reflexivity.
    + right. exists err, s2. repeat split; auto; congruence.
Qed.
(** A rate that has been used is used again until it is out of date, whatever
    other currencies are asked for: two conversions use the same rate. *)
Theorem C57_reuse ops0 t1 t2 e ops cur p amount amount' v now e1 s1 : let s := run ops0 (start t1 t2 e) in
  In (cur, p) currencies -> currency_to_satoshi_cached amount cur s = (Ok v, s1) -> (forall o, In o ops -> ~ asks_rate o cur) ->
  let s2 := run ops s1 in o_time (n_outside s2) = (Ok now, e1) ->
  exists t x, got_rate (ops0 ++ [ToSatoshiCached amount cur]) (start t1 t2 e) cur t x /\ Worth (g_prec (n_globals s)) x amount (Ok v) /\
    (x <> 0 -> now - t <= RateTime (ops0 ++ ToSatoshiCached amount cur :: ops) ->
     exists res, currency_to_satoshi_cached amount' cur s2 = (res, mkNet (n_globals s2) e1) /\ Worth (g_prec (n_globals s2)) x amount' res).
Proof.
  cbv zeta. intros HC EC NA ET. set (s := run ops0 (start t1 t2 e)) in *.
  assert (HP : 1 <= g_prec (n_globals s) <= 90000) by (destruct (precision_always ops0 t1 t2 e) as [P|P]; cbv zeta in P; fold s in P; rewrite P; lia).
  assert (KEEP : forall ops (s : Net E), (forall o, In o ops -> ~ asks_rate o cur) -> lookup cur (g_rates (n_globals (run ops s))) = lookup cur (g_rates (n_globals s))).
  { clear. induction ops as [|o ops IH]; intros s H; [reflexivity|]. cbn [S_History.run]. rewrite IH by (intros; apply H; right; auto).
    destruct (step_rate o s cur) as [->|(_ & A & _)]; [reflexivity|]. exfalso. apply (H o); [left; auto|auto]. }
  assert (R1 : s1 = run (ops0 ++ [ToSatoshiCached amount cur]) (start t1 t2 e)).
  { rewrite run_app. cbn [S_History.run S_History.step]. fold s. rewrite EC. reflexivity. }
  assert (ENT : exists t x, lookup cur (g_rates (n_globals s1)) = Some (Some x, t) /\ times_amount (g_prec (n_globals s)) x amount = Ok v).
  { rewrite cached_eq in EC. cbv zeta in EC. destruct (o_time (n_outside s)) as [[now0|err] e0]; [|congruence].
    destruct (lookup cur (g_rates (n_globals s))) as [[v0 t]|] eqn:L; [|congruence]. destruct (fresh v0 t now0 (g_rate_time (n_globals s))) eqn:FR.
    - destruct v0 as [x|]; [|discriminate]. exists t, x. assert (s1 = mkNet (n_globals s) e0) as -> by congruence. split; [exact L|congruence].
    - destruct (exchange_rate cur (mkNet (n_globals s) e0)) as [[x|err] s3]; [|congruence]. exists now0, x.
      match type of EC with (_, ?st) = _ => assert (s1 = st) as -> by congruence end. split; [|congruence]. cbn [n_globals set_rates g_rates]. apply lookup_set. congruence. }
  destruct ENT as (t & x & L1 & TA). exists t, x. split; [apply cached_rate_got; rewrite <- R1; exact L1|].
  split; [rewrite <- TA; apply worth_times; auto|]. intros NZ FT.
  rewrite <- (proj1 (cache_times _ t1 t2 e)), run_app in FT. cbn [S_History.run] in FT. fold s in FT. cbn [S_History.step] in FT. rewrite EC in FT. cbn [snd] in FT.
  assert (HP2 : 1 <= g_prec (n_globals (run ops s1)) <= 90000).
  { rewrite R1, <- run_app. destruct (precision_always ((ops0 ++ [ToSatoshiCached amount cur]) ++ ops) t1 t2 e) as [P|P]; cbv zeta in P; rewrite P; lia. }
  exists (times_amount (g_prec (n_globals (run ops s1))) x amount'). split; [|apply worth_times; auto].
  rewrite cached_eq. cbv zeta. rewrite ET, (KEEP ops s1 NA), L1. assert (fresh (Some x) t now (g_rate_time (n_globals (run ops s1))) = true) as ->; [|reflexivity].
  cbn [fresh]. apply negb_true_iff, orb_false_iff. split; [apply Z.eqb_neq; auto|]. destruct (Z.gtb_spec (now - t) (g_rate_time (n_globals (run ops s1)))); [lia|reflexivity].
Qed.
(** For the units of bitcoin the cache changes nothing. *)
Theorem C57_units ops t1 t2 e unit_ u neg c k s : let st := run ops (start t1 t2 e) in forall now e1,
  In (unit_, u) units -> Signed neg c k s -> zlen s < 100000 -> 10 ^ u * c < 10 ^ 9 -> o_time (n_outside st) = (Ok now, e1) ->
  fst (currency_to_satoshi_cached s unit_ st) = Ok (trunc neg (c * 10 ^ u) (10 ^ k)).
Proof.
  cbv zeta. intros now e1 HU S0 HS HC ET. destruct (units_rate (E:=E) _ _ HU) as (Hu & EP & ER).
  assert (IN : exists p, In (unit_, p) currencies).
  { clear - HU. cbn in HU. exists u. repeat (destruct HU as [HU|HU]; [injection HU as <- <-; cbn; tauto|]). destruct HU. }
  destruct IN as [p IN]. destruct (currency_to_satoshi_cached s unit_ (run ops (start t1 t2 e))) as [res s'] eqn:EC.
  assert (W : Worth (g_prec (n_globals (run ops (start t1 t2 e)))) (10 ^ u) s res).
  { destruct (C57_fresh ops t1 t2 e unit_ p s now e1 res s' IN ET EC) as [(t & x & G & _ & _ & W & _)|[(x & s2 & G & W & _)|(err & s2 & G & _)]].
    - destruct G as (pre & o & post & _ & _ & e0 & _ & G). rewrite ER in G. cbn [fst] in G. assert (x = 10 ^ u) as -> by congruence. exact W.
    - rewrite ER in G. assert (x = 10 ^ u) as -> by congruence. exact W.
    - rewrite ER in G. discriminate. }
  pose proof (p10 u ltac:(lia)). cbn [fst]. rewrite (Z.mul_comm c). apply W; auto. apply Z.lt_le_trans with (10 ^ 9); auto.
  destruct (precision_always ops t1 t2 e) as [P|P]; cbv zeta in P; rewrite P; [apply Z.pow_le_mono_r|]; lia.
Qed.

(** ** C58: cached fees *)
(** The answer of the fee service to a request in state e: a fee, or why there is none. *)
Inductive FeeAnswer (fast : bool) (e : E) : result Z -> E -> Prop :=
| FA_fee resp e' j x : o_get fee_url [] None e = (Ok resp, e') -> (r_status resp < 400 \/ 600 <= r_status resp) -> r_json resp = Ok j ->
    jget (if fast then "fastestFee" else "hourFee")%string j = Ok (JInt x) -> FeeAnswer fast e (Ok x) e'
| FA_raises err e' : o_get fee_url [] None e = (Raise err, e') -> FeeAnswer fast e (Raise err) e'
| FA_status resp e' : o_get fee_url [] None e = (Ok resp, e') -> 400 <= r_status resp < 600 -> FeeAnswer fast e (Raise HTTPError) e'
| FA_no_json resp e' err : o_get fee_url [] None e = (Ok resp, e') -> (r_status resp < 400 \/ 600 <= r_status resp) -> r_json resp = Raise err ->
    FeeAnswer fast e (Raise err) e'
| FA_other_json resp e' j err : o_get fee_url [] None e = (Ok resp, e') -> (r_status resp < 400 \/ 600 <= r_status resp) -> r_json resp = Ok j ->
    (forall x, jget (if fast then "fastestFee" else "hourFee")%string j <> Ok (JInt x)) -> err = KeyError \/ err = TypeError -> FeeAnswer fast e (Raise err) e'.
Lemma fee_answer f e1 r e2 : o_get fee_url [] None e1 = (r, e2) ->
  FeeAnswer f e1 (resp <- r ;; _ <- raise_for_status resp ;; j <- r_json resp ;; x <- jget (fee_key f) j ;; jint x) e2.
Proof.
  intros EG. destruct r as [resp|err]; cbn [bind]; [|constructor; auto]. unfold raise_for_status.
  destruct (Z.leb_spec 400 (r_status resp)) as [A|A]; [destruct (Z.ltb_spec (r_status resp) 600) as [B|B]|]; cbn [andb bind].
  { eapply FA_status; eauto. }
  all: destruct (r_json resp) as [j|err] eqn:EJ; cbn [bind]; [|eapply FA_no_json; eauto].
  all: unfold fee_key; destruct (jget (if f then "fastestFee" else "hourFee")%string j) as [v|err] eqn:EV; cbn [bind].
  all: try (eapply FA_other_json; eauto; [rewrite EV; congruence|unfold jget in EV; destruct j; try (injection EV as <-; auto); destruct (find _ _); [discriminate|injection EV as <-; auto]]).
  all: destruct v; cbn [jint]; try (eapply FA_other_json; eauto; rewrite EV; congruence); eapply FA_fee; eauto.
Qed.
Lemma fee_answer_fun f e1 x e2 ans e3 : FeeAnswer f e1 (Ok x) e2 -> FeeAnswer f e1 ans e3 -> ans = Ok x /\ e3 = e2.
Proof.
  intros A B. inversion A as [r1 e1' j1 x1 G1 S1 J1 V1| | | |]. inversion B as [r2 e2' j2 x2 G2 S2 J2 V2|err e2' G2|r2 e2' G2 S2|r2 e2' err G2 S2 J2|r2 e2' j2 err G2 S2 J2 V2 O]; subst.
  all: rewrite G1 in G2; try discriminate G2; assert (r1 = r2) as <- by congruence.
  - assert (j1 = j2) as <- by congruence. split; congruence.
  - lia.
  - congruence.
  - assert (j1 = j2) as <- by congruence. exfalso. apply (V2 x). auto.
Qed.
Definition unreachable (err : exc) : Prop := err = ReqConnectionError \/ err = HTTPError \/ err = ReqTimeout.
Lemma fee_ignored_iff err : fee_ignored err = true <-> unreachable err.
Proof. unfold unreachable. destruct err; cbn; split; intros; try discriminate; intuition discriminate. Qed.

Lemma fee_answer_unreachable f e1 err e2 ans e3 : FeeAnswer f e1 (Raise err) e2 -> unreachable err -> FeeAnswer f e1 ans e3 -> ans = Raise err.
Proof.
  intros A U B. destruct ans as [x|err']; [destruct (fee_answer_fun _ _ _ _ _ _ B A); discriminate|]. f_equal.
  assert (NO : ~ (err = KeyError \/ err = TypeError)) by (unfold unreachable in U; intuition congruence).
  inversion A as [|? ? G1|r1 ? G1 S1|r1 ? ? G1 S1 J1|r1 ? j1 ? G1 S1 J1 V1 O1]; subst; try contradiction.
  all: inversion B as [|? ? G2|r2 ? G2 S2|r2 ? ? G2 S2 J2|r2 ? j2 ? G2 S2 J2 V2 O2]; subst; try congruence.
  all: rewrite G1 in G2; assert (r1 = r2) as <- by congruence; try lia; try congruence.
Qed.

(** A call in state s, at time t, gets the fee x from the service. *)
Definition gets_fee (s : Net E) (fast : bool) (t x : Z) : Prop := exists e1 e2, o_time (n_outside s) = (Ok t, e1) /\ FeeAnswer fast e1 (Ok x) e2.
Definition got_fee (ops : list (op E)) (s0 : Net E) (fast : bool) (t x : Z) : Prop :=
  exists pre post, ops = pre ++ FeeCached fast :: post /\ gets_fee (run pre s0) fast t x.
Definition fee_entry (f : bool) (g : Globals) : option Z * Z := if f then (g_fast g, g_fast_at g) else (g_hour g, g_hour_at g).
Definition set_fee (f : bool) (x t : Z) (g : Globals) : Globals := if f then set_fast (Some x) t g else set_hour (Some x) t g.
Lemma fee_set_same f x t g : fee_entry f (set_fee f x t g) = (Some x, t).
Proof. destruct f; reflexivity. Qed.
Lemma fee_set_other f x t g : fee_entry (negb f) (set_fee f x t g) = fee_entry (negb f) g.
Proof. destruct f; reflexivity. Qed.

(** One call, case by case. *)
Lemma fee_cases f (s : Net E) now e1 : o_time (n_outside s) = (Ok now, e1) ->
  let '(cached, t) := fee_entry f (n_globals s) in
  (exists x, cached = Some x /\ x <> 0 /\ now - t <= g_fee_time (n_globals s) /\ get_fee_cached f s = (Ok x, mkNet (n_globals s) e1)) \/
  ((cached = None \/ cached = Some 0 \/ now - t > g_fee_time (n_globals s)) /\ exists ans e2, FeeAnswer f e1 ans e2 /\
     get_fee_cached f s = match ans with
       | Ok x => (Ok x, mkNet (set_fee f x now (n_globals s)) e2)
       | Raise err => (if fee_ignored err then Ok (match cached with Some x => x | None => if f then 72 else 62 end) else Raise err, mkNet (n_globals s) e2)
       end).
Proof.
  intros ET. rewrite fee_cached_eq. cbv zeta. rewrite ET. unfold fee_entry.
  set (cached := if f then g_fast (n_globals s) else g_hour (n_globals s)). set (t := if f then g_fast_at (n_globals s) else g_hour_at (n_globals s)).
  assert (G : (if f then (g_fast (n_globals s), g_fast_at (n_globals s)) else (g_hour (n_globals s), g_hour_at (n_globals s))) = (cached, t)) by (destruct f; reflexivity).
  rewrite G. destruct (fresh cached t now (g_fee_time (n_globals s))) eqn:FR.
  - left. destruct cached as [x|]; [|discriminate]. exists x. cbn [fresh] in FR. apply negb_true_iff, orb_false_iff in FR as [F1 F2]. apply Z.eqb_neq in F1.
    destruct (Z.gtb_spec (now - t) (g_fee_time (n_globals s))); [discriminate|]. repeat split; auto.
  - right. split.
    { destruct cached as [x|]; [|auto]. cbn [fresh] in FR. apply negb_false_iff, orb_true_iff in FR as [F1|F2].
      - apply Z.eqb_eq in F1 as ->. auto.
      - destruct (Z.gtb_spec (now - t) (g_fee_time (n_globals s))); [|discriminate]. right. right. lia. }
    destruct (o_get fee_url [] None e1) as [r e2] eqn:EG. eexists. exists e2. split; [apply fee_answer; eauto|].
    destruct (resp <- r ;; _) as [x|err]; [destruct f; reflexivity|]. destruct cached, f; reflexivity.
Qed.
Lemma step_fee o (s : Net E) f : fee_entry f (n_globals (step o s)) = fee_entry f (n_globals s) \/
  (o = FeeCached f /\ exists t x, gets_fee s f t x /\ fee_entry f (n_globals (step o s)) = (Some x, t)).
Proof.
  pose proof (step_change o s) as CH. destruct o; cbn [Change] in CH; try (left; rewrite CH; reflexivity).
  - destruct CH as [->|(-> & _)]; left; reflexivity.
  - rewrite CH. destruct testnet; left; reflexivity.
  - clear CH. cbn [S_History.step]. destruct (o_time (n_outside s)) as [[now|e] e1] eqn:ET.
    2:{ left. rewrite fee_cached_eq. cbv zeta. rewrite ET. reflexivity. }
    pose proof (fee_cases fast s now e1 ET) as FC. destruct (fee_entry fast (n_globals s)) as [cached t] eqn:FE.
    destruct FC as [(x & _ & _ & _ & ->)|(_ & ans & e2 & FA & ->)]; [left; reflexivity|]. destruct ans as [x|err]; [|left; reflexivity]. cbn [snd n_globals].
    destruct (Bool.eqb f fast) eqn:FF.
    + apply Bool.eqb_prop in FF as ->. right. split; auto. exists now, x. split; [exists e1, e2; auto|apply fee_set_same].
    + left. assert (f = negb fast) as -> by (destruct f, fast; auto; discriminate). apply fee_set_other.
  - destruct CH as [->|(x & t & ->)]; left; reflexivity.
  - destruct CH as [->|(x & t & ->)]; left; reflexivity.
Qed.
Lemma cached_fee_got f ops t1 t2 e x t : fee_entry f (n_globals (run ops (start t1 t2 e))) = (Some x, t) -> got_fee ops (start t1 t2 e) f t x.
Proof.
  induction ops as [|o ops IH] using rev_ind; intros L.
  - exfalso. destruct f; discriminate.
  - rewrite run_app in L. cbn [S_History.run] in L. destruct (step_fee o (run ops (start t1 t2 e)) f) as [E1|(-> & t' & x' & G & E1)].
    + rewrite E1 in L. destruct (IH L) as (pre & post & -> & G). exists pre, (post ++ [o]). rewrite <- app_assoc. auto.
    + rewrite E1 in L. assert (x' = x) as -> by congruence. assert (t' = t) as -> by congruence. exists ops, []. auto.
Qed.
Lemma fee_never_lost f o (s : Net E) : fst (fee_entry f (n_globals s)) <> None -> fst (fee_entry f (n_globals (step o s))) <> None.
Proof. intros H. destruct (step_fee o s f) as [->|(_ & t & x & _ & ->)]; [exact H|discriminate]. Qed.
Lemma no_fee_got f t1 t2 e : forall ops, fst (fee_entry f (n_globals (run ops (start t1 t2 e)))) = None -> forall t x, ~ got_fee ops (start t1 t2 e) f t x.
Proof.
  intros ops N t x (pre & post & -> & e1 & e2 & ET & FA). rewrite run_app in N. cbn [S_History.run S_History.step] in N.
  set (s := run pre (start t1 t2 e)) in *.
  assert (K : fst (fee_entry f (n_globals (snd (get_fee_cached f s)))) <> None).
  { pose proof (fee_cases f s t e1 ET) as FC. destruct (fee_entry f (n_globals s)) as [cached t0] eqn:FE.
    destruct FC as [(y & -> & _ & _ & ->)|(_ & ans & e3 & FA' & ->)]; [cbn [snd n_globals]; rewrite FE; discriminate|].
    destruct (fee_answer_fun _ _ _ _ _ _ FA FA') as [-> _].
    cbn [snd n_globals]. rewrite fee_set_same. discriminate. }
  revert K N. generalize (snd (get_fee_cached f s)). clear. induction post as [|o post IH]; intros s K N; [contradiction|]. cbn [S_History.run] in N.
  apply (IH (step o s)); auto. apply fee_never_lost. auto.
Qed.

(** In every history a cached fee was obtained for this speed at most the cache
    time ago; or the service is asked, and if it cannot be reached an earlier fee
    is returned, or the default if there is none; any other failure raises. *)
Theorem C58_fee ops t1 t2 e fast now e1 res s' : let s := run ops (start t1 t2 e) in
  o_time (n_outside s) = (Ok now, e1) -> get_fee_cached fast s = (res, s') ->
  (exists t x, got_fee ops (start t1 t2 e) fast t x /\ now - t <= FeeTime ops /\ x <> 0 /\ res = Ok x /\ s' = mkNet (n_globals s) e1) \/
  (exists x e2, FeeAnswer fast e1 (Ok x) e2 /\ res = Ok x /\ n_outside s' = e2) \/
  (exists err e2, FeeAnswer fast e1 (Raise err) e2 /\ s' = mkNet (n_globals s) e2 /\
     ((unreachable err /\ exists t x, got_fee ops (start t1 t2 e) fast t x /\ res = Ok x) \/
      (unreachable err /\ (forall t x, ~ got_fee ops (start t1 t2 e) fast t x) /\ res = Ok (if fast then 72 else 62)) \/
      (~ unreachable err /\ res = Raise err))).
Proof.
  cbv zeta. rewrite <- (proj2 (cache_times ops t1 t2 e)). intros ET EC. pose proof (fee_cases fast _ now e1 ET) as FC. destruct (fee_entry fast _) as [cached t] eqn:FE.
  destruct FC as [(x & -> & NZ & FT & EQ)|(_ & ans & e2 & FA & EQ)]; rewrite EQ in EC.
  - left. exists t, x. split; [apply cached_fee_got; auto|]. repeat split; auto; congruence.
  - right. destruct ans as [x|err].
    + left. exists x, e2. split; auto. split; [congruence|]. match type of EC with (_, ?st) = _ => assert (s' = st) as -> by congruence end. reflexivity.
    + right. exists err, e2. split; auto. split; [congruence|]. destruct (fee_ignored err) eqn:FI.
      * apply fee_ignored_iff in FI. destruct cached as [x|].
        -- left. split; auto. exists t, x. split; [apply cached_fee_got; auto|congruence].
        -- right. left. split; auto. split; [|congruence]. apply no_fee_got. rewrite FE. reflexivity.
      * right. right. split; [|congruence]. intros U. apply fee_ignored_iff in U. congruence.
Qed.
(** If every fee obtained so far is out of date the service is asked.  The fee it
    names is returned until it is out of date in turn, and after that as long as
    the service cannot be reached, whatever other calls are made. *)
Theorem C58_reuse ops0 t1 t2 e fast now e1 x e2 ops now' e3 : let s := run ops0 (start t1 t2 e) in
  o_time (n_outside s) = (Ok now, e1) -> (forall t y, got_fee ops0 (start t1 t2 e) fast t y -> now - t > FeeTime ops0) ->
  FeeAnswer fast e1 (Ok x) e2 -> (forall o, In o ops -> o <> FeeCached fast) ->
  fst (get_fee_cached fast s) = Ok x /\
  let s2 := run ops (snd (get_fee_cached fast s)) in
  (o_time (n_outside s2) = (Ok now', e3) ->
   (x <> 0 -> now' - now <= FeeTime (ops0 ++ FeeCached fast :: ops) -> get_fee_cached fast s2 = (Ok x, mkNet (n_globals s2) e3)) /\
   (forall err e4, FeeAnswer fast e3 (Raise err) e4 -> unreachable err -> fst (get_fee_cached fast s2) = Ok x)).
Proof.
  cbv zeta. rewrite <- (proj2 (cache_times ops0 t1 t2 e)), <- (proj2 (cache_times (ops0 ++ _) t1 t2 e)), run_app. cbn [S_History.run S_History.step].
  intros ET OLD FA NA. set (s := run ops0 (start t1 t2 e)) in *.
  assert (E1 : get_fee_cached fast s = (Ok x, mkNet (set_fee fast x now (n_globals s)) e2)).
  { pose proof (fee_cases fast s now e1 ET) as FC. destruct (fee_entry fast (n_globals s)) as [cached t] eqn:FE.
    destruct FC as [(y & -> & _ & FT & _)|(_ & ans & e0 & FA' & ->)].
    - apply cached_fee_got in FE. specialize (OLD _ _ FE). lia.
    - destruct (fee_answer_fun _ _ _ _ _ _ FA FA') as [-> ->]. reflexivity. }
  rewrite E1. cbn [fst snd]. split; auto. intros ET2.
  set (s1 := mkNet (set_fee fast x now (n_globals s)) e2) in *.
  assert (KEEP : forall ops (s : Net E), (forall o, In o ops -> o <> FeeCached fast) -> fee_entry fast (n_globals (run ops s)) = fee_entry fast (n_globals s)).
  { clear. induction ops as [|o ops IH]; intros s H; [reflexivity|]. cbn [S_History.run]. rewrite IH by (intros; apply H; right; auto).
    destruct (step_fee o s fast) as [->|(-> & _)]; [reflexivity|]. exfalso. apply (H (FeeCached fast)); [left; auto|auto]. }
  assert (FE : fee_entry fast (n_globals (run ops s1)) = (Some x, now)) by (rewrite (KEEP ops s1 NA); apply fee_set_same).
  pose proof (fee_cases fast (run ops s1) now' e3 ET2) as FC. rewrite FE in FC.
  destruct FC as [(y & EY & NZ & FT & EC)|([?|[E0|FT]] & ans & e5 & FA' & EC)].
  - assert (y = x) as -> by congruence. rewrite EC. auto.
  - discriminate.
  - split; [intros NZ; congruence|]. intros err e4 FA2 U. rewrite EC. rewrite (fee_answer_unreachable _ _ _ _ _ _ FA2 U FA').
    apply fee_ignored_iff in U. rewrite U. reflexivity.
  - split; [intros NZ FT'; lia|]. intros err e4 FA2 U. rewrite EC. rewrite (fee_answer_unreachable _ _ _ _ _ _ FA2 U FA').
    apply fee_ignored_iff in U. rewrite U. reflexivity.
Qed.

End WithOutside.

(** ** Examples *)
Definition go := @run toy script scripted 5.
Definition reply (j : json) : result Response := Ok (mkResp 200 [] (Ok j)).
Definition node_reply (j : json) : result Response := reply (JObj [(str "error", JNull); (str "result", j)]).
Definition float1 : json := JFloat (str "1.23456789") (Fin false 12345678899999998900938180668163113296031951904296875 (-52)).
Definition float12 : json := JFloat (str "12.34567891") (Fin false 12345678910000000172431100509129464626312255859375 (-48)).
Definition to_node : op script := Connect (str "user") (str "pw") (str "localhost") 8332 false false [].
Definition later (t : Z) : op script := Meanwhile (fun e => (fst e, snd e + t)).

(** The full claim is false: what "1234.56789123" bitcoins are depends on
    whether a node has been asked for a balance; showing them even raises. *)
Theorem C56_refuted : exists (ops : list (op script)) (e : script),
  fst (currency_to_satoshi (str "1234.56789123") (str "btc") (start 0 0 e)) = Ok 123456789123 /\
  fst (currency_to_satoshi (str "1234.56789123") (str "btc") (go ops (start 0 0 e))) = Ok 123456789000 /\
  fst (satoshi_to_currency 123456789123 (str "btc") (start 0 0 e)) = Ok (str "1234.56789123") /\
  fst (satoshi_to_currency 123456789123 (str "btc") (go ops (start 0 0 e))) = Raise InvalidOperation.
Proof. exists [to_node; Balance Main (str "1Address")], ([node_reply float1], 5). vm_compute. auto. Qed.
(** Balances of ten bitcoins and more are read wrongly. *)
Theorem C56_balance_refuted : exists e : script,
  fst (node_balance (str "http://localhost") (str "1Address") (start 0 0 e)) = Ok 1234567890 /\ fst e = [node_reply float12].
Proof. exists ([node_reply float12], 5). vm_compute. auto. Qed.
Example C56_node_balance_hypotheses :
  fst (node_balance (str "http://localhost") (str "1Address") (start 0 0 ([node_reply float1], 5))) = Ok 123456789 /\
  10 ^ 15 * Z.abs (12345678899999998900938180668163113296031951904296875 * 10 ^ 8 - 123456789 * 10 ^ 52) <= 123456789 * 10 ^ 52.
Proof. split; [vm_compute; reflexivity|]. vm_compute. discriminate. Qed.
Example C56_history : connected Main [to_node; Balance Main (str "a")] = Some (str "http://user:pw@localhost:8332/") /\
  connected Test [to_node; Balance Main (str "a")] = None.
Proof. vm_compute. auto. Qed.

(** One request serves the conversions of a minute. *)
Example C57_case : let s := go [ToSatoshiCached (str "1") (str "usd"); later 60] (start 0 0 ([usd_price "50000"; usd_price "40000"], 5)) in
  fst (currency_to_satoshi_cached (str "3.5") (str "usd") s) = Ok 7000 /\
  fst (currency_to_satoshi_cached (str "3.5") (str "usd") (go [later 1] s)) = Ok 8750 /\
  fst (currency_to_satoshi_cached (str "3.5") (str "eur") s) = Ok 8750.
Proof. vm_compute. auto. Qed.
Example C58_case : let fees x y := reply (JObj [(str "fastestFee", JInt x); (str "hourFee", JInt y)]) in
  let s := go [FeeCached true; later 600] (start 0 0 ([fees 30 10; Raise ReqTimeout; Raise (OtherError 1)], 5)) in
  fst (get_fee_cached true s) = Ok 30 /\ fst (get_fee_cached false s) = Ok 62 /\ fst (get_fee_cached true (go [later 1] s)) = Ok 30 /\
  fst (get_fee_cached false (go [FeeCached false] s)) = Raise (OtherError 1).
Proof. vm_compute. auto. Qed.
Example C58_answer : FeeAnswer (E:=script) true ([reply (JObj [(str "fastestFee", JInt 30)])], 5) (Ok 30) ([], 5).
Proof. eapply FA_fee; [reflexivity|left; reflexivity|reflexivity|reflexivity]. Qed.

Print Assumptions C56_small_amounts.
Print Assumptions C56_without_nodes.
Print Assumptions C56_balance_of_node.
Print Assumptions C56_node_balance.
Print Assumptions C56_refuted.
Print Assumptions C56_balance_refuted.
Print Assumptions C57_fresh.
Print Assumptions C57_reuse.
Print Assumptions C57_units.
Print Assumptions C58_fee.
Print Assumptions C58_reuse.
Print Assumptions C61_services.
