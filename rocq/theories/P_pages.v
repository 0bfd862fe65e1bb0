(** C112: the requests that reading the history and the coins of an address takes. *)
From Coq Require Import String.
From Verif Require Import F_base F_decimal M_services S_Decimal S_Servers F_network F_servers P_rates P_services X_toy X_net X_server.

(** ** Specification *)
(** A question: the address asked and the parameters. *)
Definition Question : Type := pystr * list (pystr * pystr).
Section Tracked.
Context {E : Type} {OU : Outside E}.
(** The outside world, with a record of the pages asked for. *)
Definition tracked : Outside (E * list Question) := {|
  o_get := fun url ps t s => let (r, e') := o_get url ps t (fst s) in (r, (e', snd s ++ [(url, ps)]));
  o_post := fun url b t s => let (r, e') := o_post url b t (fst s) in (r, (e', snd s));
  o_rpc := fun url m args t s => let (r, e') := o_rpc url m args t (fst s) in (r, (e', snd s));
  o_time := fun s => let (r, e') := o_time (fst s) in (r, (e', snd s)) |}.
(** Whatever was asked before, the call succeeds and asks just these questions, in this order. *)
Definition Takes {A} (g : Globals) (m : IO (Net (E * list Question)) A) (qs : list Question) (P : A -> Prop) : Prop :=
  forall e before, exists a e', m (mkNet g (e, before)) = (Ok a, mkNet g (e', before ++ qs)) /\ P a.
End Tracked.
(** T things on pages of p fill k pages. *)
Definition Fill (p T k : Z) : Prop := 0 <= k /\ p * (k - 1) < T <= p * k.
(** The pages from the first on, p by p, the last one empty: k + 1 questions. *)
Definition ByOffset (p : Z) (url : pystr) (rest : list (pystr * pystr)) (k : Z) (qs : list Question) : Prop :=
  Forall2 (fun i q => exists d, Digits (p * Z.of_nat i) d /\ d <> [] /\ q = (url, (str "offset", d) :: rest)) (seq 0 (S (Z.to_nat k))) qs.
(** The last id of each page of p ids. *)
Inductive Lasts (p : nat) : list pystr -> list pystr -> Prop :=
| L_end : Lasts p [] []
| L_page l t ts : l <> [] -> (exists pre, firstn p l = pre ++ [t]) -> Lasts p (skipn p l) ts -> Lasts p l (t :: ts).

Section WithOutside.
Context {E : Type} {OU : Outside E} (rounds : nat) (g : Globals).
#[local] Existing Instance tracked | 0.
Notation TR := (@tracked E OU).

Lemma takes_bind {A B} (m : IO (Net (E * list Question)) A) (f : A -> IO (Net (E * list Question)) B) q1 q2 P Q :
  Takes g m q1 P -> (forall a, P a -> Takes g (f a) q2 Q) -> Takes g (ibind m f) (q1 ++ q2) Q.
Proof.
  intros HM HF e b. destruct (HM e b) as (a & e1 & EM & HP). destruct (HF a HP e1 (b ++ q1)) as (x & e2 & EF & HQ).
  exists x, e2. unfold ibind. rewrite EM, app_assoc. auto.
Qed.
Lemma takes_lift {A B} (r : result A) a (f : A -> IO (Net (E * list Question)) B) qs Q : r = Ok a -> Takes g (f a) qs Q -> Takes g (ibind (ilift r) f) qs Q.
Proof. intros -> H e b. unfold ibind, ilift. apply H. Qed.
Lemma takes_ret {A} (a : A) (P : A -> Prop) : P a -> Takes (E:=E) g (iret a) [] P.
Proof. intros HP e b. exists a, e. rewrite app_nil_r. auto. Qed.
Lemma takes_weaken {A} (m : IO (Net (E * list Question)) A) qs (P Q : A -> Prop) : Takes g m qs P -> (forall a, P a -> Q a) -> Takes g m qs Q.
Proof. intros H I e b. destruct (H e b) as (a & e' & EM & HP). exists a, e'. auto. Qed.
Lemma takes_get {B} url ps P (f : Response -> IO (Net (E * list Question)) B) qs Q : Replies (OU:=OU) url ps P ->
  (forall r j, r_status r = 200 -> r_json r = Ok j -> P j -> Takes g (f r) qs Q) -> Takes g (ibind (@http_get _ TR url ps) f) ((url, ps) :: qs) Q.
Proof.
  intros H HF. change ((url, ps) :: qs) with ([(url, ps)] ++ qs).
  apply (takes_bind _ _ _ _ (fun r => r_status r = 200 /\ exists j, r_json r = Ok j /\ P j)).
  - intros e b. destruct (H (g_timeout g) e) as (r & j & e' & EG & HS & EJ & HP). exists r, e'. split; [|eauto].
    unfold http_get, outside, zoom. cbn [n_outside n_globals o_get tracked fst snd]. rewrite EG. reflexivity.
  - intros r (HS & j & EJ & HP). eauto.
Qed.
Lemma ok200 (r : Response) : r_status r = 200 -> ok_status r = Ok tt.
Proof. intros H. unfold ok_status. rewrite H. reflexivity. Qed.
Lemma pages_fill T p : 0 < p -> 0 <= T -> Fill p T (Z.of_nat (pages_of T p)).
Proof.
  intros Hp HT. unfold Fill, pages_of. pose proof (Z.div_mod (T + p - 1) p ltac:(lia)). pose proof (Z.mod_pos_bound (T + p - 1) p Hp).
  assert (0 <= (T + p - 1) / p) by (apply Z.div_pos; lia). rewrite Z2Nat.id by lia. split; [lia|nia].
Qed.
Lemma fill_unique p T k k' : 0 < p -> Fill p T k -> Fill p T k' -> k = k'.
Proof. unfold Fill. intros. nia. Qed.

(** The questions after the first. *)
Definition asks (p : Z) (url : pystr) (rest : list (pystr * pystr)) (from : nat) (m : nat) : list Question :=
  map (fun i => (url, (str "offset", str_of_int (p * Z.of_nat i)) :: rest)) (seq from m).
Lemma asks_by p url rest k : 0 <= p -> ByOffset p url rest (Z.of_nat k) (asks p url rest 0 (S k)).
Proof.
  intros Hp. unfold ByOffset, asks. rewrite Nat2Z.id. generalize (seq 0 (S k)). induction l as [|i l IH]; cbn [map]; constructor; auto.
  destruct (str_of_int_digits (p * Z.of_nat i) ltac:(lia)). eauto.
Qed.

(** ** Blockchair *)
Lemma chair_takes {A B} (R : A -> B -> Prop) (full : list A) items url address (D : Z -> json -> Prop) :
  (forall k d, D k d -> exists bs, items d = Ok bs /\ Forall2 R (page k 1000 full) bs) ->
  (forall k t, 0 <= k -> Digits k t -> t <> [] ->
     Replies (OU:=OU) url [(str "offset", t); (str "limit", str "1000")] (fun j => exists data d, Has "data" data j /\ HasKey address d data /\ D k d)) ->
  forall m i d acc, D (1000 * Z.of_nat i) d ->
  Takes g (@blockchair_pages _ TR B m items url address (1000 * Z.of_nat i) d acc) (asks 1000 url [(str "limit", str "1000")] (S i) m) (fun _ => True).
Proof.
  intros HI HR. induction m as [|m IH]; intros i d acc HD; cbn [blockchair_pages].
  - apply takes_ret. exact I.
  - destruct (HI _ d HD) as (bs & EI & _). apply (takes_lift _ _ _ _ _ EI).
    replace (1000 * Z.of_nat i + 1000) with (1000 * Z.of_nat (S i)) by lia.
    change (offset_params (1000 * Z.of_nat (S i)) 1000) with [(str "offset", str_of_int (1000 * Z.of_nat (S i))); (str "limit", str "1000")].
    destruct (str_of_int_digits (1000 * Z.of_nat (S i)) ltac:(lia)) as [D1 D2].
    unfold asks. cbn [seq map]. eapply takes_get; [apply (HR (1000 * Z.of_nat (S i)) _ ltac:(lia) D1 D2)|].
    intros r j ST EJ (data & d' & J1 & J2 & J3). apply (takes_lift _ _ _ _ _ (ok200 _ ST)).
    eapply takes_lift; [rewrite EJ; cbn [bind]; rewrite (has _ _ _ J1); cbn [bind]; apply (has_key _ _ _ J2)|]. apply IH. exact J3.
Qed.
Lemma first_page rest url p k : asks p url rest 0 (S k) = (url, (str "offset", str "0") :: rest) :: asks p url rest 1 k.
Proof. unfold asks. cbn [seq map]. rewrite Z.mul_0_r. reflexivity. Qed.

(** C112: T transactions take the pages that they fill, and one more, which is empty. *)
Theorem C112_blockchair_transactions n L address k : ServesBlockchair (OU:=OU) n L address -> Fill 1000 (zlen (l_mempool L ++ l_confirmed L)) k ->
  exists qs, ByOffset 1000 (blockchair_url n address) [(str "limit", str "1000")] k qs /\
    Takes g (@blockchair_transactions _ TR n address) qs (fun _ => True).
Proof.
  intros HS HF. set (T := zlen (l_mempool L ++ l_confirmed L)) in *. assert (k = Z.of_nat (pages_of T 1000)) as ->.
  { apply (fill_unique 1000 T); [lia|exact HF|]. apply pages_fill; [lia|]. unfold T, zlen. lia. }
  exists (asks 1000 (blockchair_url n address) [(str "limit", str "1000")] 0 (S (pages_of T 1000))). split; [apply asks_by; lia|].
  unfold blockchair_transactions. rewrite blockchair_url_eq, first_page. destruct digits0 as [D0 D1].
  change (offset_params 0 1000) with [(str "offset", [48]); (str "limit", str "1000")].
  eapply takes_get; [apply (blockchair_serves n L address 0 [48] HS ltac:(lia) D0 D1)|].
  intros r j ST EJ (data & d & a & c & coins & J1 & J2 & J3 & J4 & J5 & J6 & J7 & J8 & J9 & J10 & J11 & J12). rewrite ST. cbn [Z.eqb Pos.eqb].
  apply (takes_lift _ _ _ _ _ (ok200 _ ST)).
  eapply takes_lift; [rewrite EJ; cbn [bind]; rewrite (has _ _ _ J1); cbn [bind]; rewrite (has_key _ _ _ J2); cbn [bind]; rewrite (has _ _ _ J3); cbn [bind]; rewrite (has _ _ _ J8); reflexivity|].
  cbv beta iota. apply (chair_takes eq (l_mempool L ++ l_confirmed L) _ _ _
      (fun k d => Has "transactions" (JList (map JStr (page k 1000 (l_mempool L ++ l_confirmed L)))) d)) with (i := 0%nat); auto.
  - intros k d' H. eexists. rewrite (has _ _ _ H). cbn [jlist bind]. rewrite mapM_strs. split; [reflexivity|]. apply Forall2_eq_iff. reflexivity.
  - intros k t Hk DK NE. eapply replies_weaken; [apply (blockchair_serves n L address k t HS); auto|].
    intros j' (data' & d' & a' & c' & coins' & K1 & K2 & K3 & K4 & K5 & K6 & K7 & K8 & K9 & _). eauto.
Qed.
(** C112: and so do coins. *)
Theorem C112_blockchair_unspent n L address k : ServesBlockchair (OU:=OU) n L address -> Fill 1000 (zlen (l_coins L)) k ->
  exists qs, ByOffset 1000 (blockchair_url n address) [(str "limit", str "1000")] k qs /\
    Takes g (@blockchair_unspent _ TR n address) qs (fun _ => True).
Proof.
  intros HS HF. set (T := zlen (l_coins L)) in *. assert (k = Z.of_nat (pages_of T 1000)) as ->.
  { apply (fill_unique 1000 T); [lia|exact HF|]. apply pages_fill; [lia|]. unfold T, zlen. lia. }
  exists (asks 1000 (blockchair_url n address) [(str "limit", str "1000")] 0 (S (pages_of T 1000))). split; [apply asks_by; lia|].
  unfold blockchair_unspent. rewrite blockchair_url_eq, first_page. destruct digits0 as [D0 D1].
  change (offset_params 0 1000) with [(str "offset", [48]); (str "limit", str "1000")].
  eapply takes_get; [apply (blockchair_serves n L address 0 [48] HS ltac:(lia) D0 D1)|].
  intros r j ST EJ (data & d & a & c & coins & J1 & J2 & J3 & J4 & J5 & J6 & J7 & J8 & J9 & J10 & J11 & J12). rewrite ST. cbn [Z.eqb Pos.eqb].
  apply (takes_lift _ _ _ _ _ (ok200 _ ST)).
  eapply takes_lift; [rewrite EJ; cbn [bind]; rewrite (has _ _ _ J4); cbn [bind]; rewrite (has _ _ _ J5); cbn [jint bind]; rewrite (has _ _ _ J1); cbn [bind]; rewrite (has_key _ _ _ J2); cbn [bind];
    rewrite (has _ _ _ J3); cbn [bind]; rewrite (has _ _ _ J7); cbn [jstr bind]; rewrite (has _ _ _ J10); reflexivity|].
  cbv beta iota. rewrite <- (app_nil_r (asks _ _ _ 1 _)). eapply takes_bind; [|intros; apply takes_ret; exact I].
  apply (chair_takes (fun _ (_ : Unspent) => True) (l_coins L) _ _ _
      (fun k d => exists coins, Has "utxo" (JList coins) d /\ Forall2 blockchair_coin (page k 1000 (l_coins L)) coins)) with (i := 0%nat).
  - intros k d' (cs & H & F). rewrite (has _ _ _ H). cbn [jlist bind].
    apply (mapM_Forall2 blockchair_coin _ (fun _ _ => True) _ _) with (2 := F).
    intros c0 j0 _ (A1 & A2 & A3 & A4). eexists. split; [|exact I]. unfold blockchair_utxo.
    rewrite (has _ _ _ A1). cbn [jint bind]. rewrite (has _ _ _ A2). cbn [jint bind]. rewrite (has _ _ _ A3). cbn [jstr bind]. rewrite (has _ _ _ A4). reflexivity.
  - intros k t Hk DK NE. eapply replies_weaken; [apply (blockchair_serves n L address k t HS); auto|].
    intros j' (data' & d' & a' & c' & coins' & K1 & K2 & K3 & K4 & K5 & K6 & K7 & K8 & K9 & K10 & K11 & K12). eauto 10.
  - exists coins. auto.
Qed.

(** ** Blockchain.info: 50 on a page *)
Lemma info_takes full url :
  (forall k t, 0 <= k -> Digits k t -> t <> [] -> Replies (OU:=OU) url [(str "offset", t)] (fun j =>
    exists txs, Has "txs" (JList txs) j /\ Forall2 (fun t x => Has "hash" (JStr t) x) (page k 50 full) txs)) ->
  forall m i j acc, (exists txs, Has "txs" (JList txs) j /\ Forall2 (fun t x => Has "hash" (JStr t) x) (page (50 * Z.of_nat i) 50 full) txs) ->
  Takes g (@blockchain_pages _ TR m url (50 * Z.of_nat i) j acc) (asks 50 url [] (S i) m) (fun _ => True).
Proof.
  intros HR. induction m as [|m IH]; intros i j acc (txs & J1 & J2); cbn [blockchain_pages].
  - apply takes_ret. exact I.
  - destruct (mapM_Forall2 (fun t x => Has "hash" (JStr t) x) (fun t => x <- jget "hash" t ;; jstr x) eq (page (50 * Z.of_nat i) 50 full) txs) as (bs & EM & HB).
    { intros a jc _ H. exists a. rewrite (has _ _ _ H). auto. }
    { exact J2. }
    eapply takes_lift; [rewrite (has _ _ _ J1); cbn [jlist bind]; exact EM|].
    replace (50 * Z.of_nat i + 50) with (50 * Z.of_nat (S i)) by lia. destruct (str_of_int_digits (50 * Z.of_nat (S i)) ltac:(lia)) as [D1 D2].
    unfold asks. cbn [seq map]. eapply takes_get; [apply (HR (50 * Z.of_nat (S i)) _ ltac:(lia) D1 D2)|].
    intros r j' _ EJ HJ. apply (takes_lift _ _ _ _ _ EJ). apply IH. exact HJ.
Qed.
Theorem C112_blockchain_transactions L address k : ServesBlockchain (OU:=OU) L address -> Fill 50 (zlen (l_mempool L ++ l_confirmed L)) k ->
  exists qs, ByOffset 50 (blockchain_url address) [] k qs /\ Takes g (@blockchain_transactions _ TR address) qs (fun _ => True).
Proof.
  intros (_ & HR & _) HF. set (T := zlen (l_mempool L ++ l_confirmed L)) in *. assert (k = Z.of_nat (pages_of T 50)) as ->.
  { apply (fill_unique 50 T); [lia|exact HF|]. apply pages_fill; [lia|]. unfold T, zlen. lia. }
  exists (asks 50 (blockchain_url address) [] 0 (S (pages_of T 50))). split; [apply asks_by; lia|].
  unfold blockchain_transactions. change (blockchain_address address) with (blockchain_url address). rewrite first_page. destruct digits0 as [D0 D1].
  change (str_of_int 0) with [48]. eapply takes_get; [apply (HR 0 [48] ltac:(lia) D0 D1)|]. intros r j ST EJ (J1 & J2).
  apply (takes_lift _ _ _ _ _ (ok200 _ ST)). eapply takes_lift; [rewrite EJ; cbn [bind]; rewrite (has _ _ _ J1); reflexivity|].
  cbv beta iota. apply (info_takes (l_mempool L ++ l_confirmed L)) with (i := 0%nat); auto.
  intros k t Hk DK NE. eapply replies_weaken; [apply HR; eauto|]. intros j' [_ H]. exact H.
Qed.

(** ** Blockstream: each page is asked for by the last id of the page before *)
Lemma stream_takes n p L address : (0 < p)%nat -> ServesBlockstream (OU:=OU) n p L address ->
  forall k pre j rest ts, (length rest < k)%nat -> l_confirmed L = pre ++ rest -> list_of Txid (firstn p rest) j -> Lasts p rest ts ->
  Takes g (@blockstream_pages _ TR k n address j pre) (map (fun t => (blockstream_url n "address/" ++ address ++ str "/txs/chain/" ++ t, [])) ts) (fun _ => True).
Proof.
  intros Hp HS. pose proof HS as (_ & _ & _ & _ & HN & _). cbv zeta in HN.
  induction k as [|k IH]; intros pre j rest ts HL HC HJ HT; [lia|]. cbn [blockstream_pages].
  pose proof HJ as (js & -> & F). eapply takes_lift; [reflexivity|]. destruct HT as [|rest t ts NE (new' & EN) HT].
  - rewrite firstn_nil in F. inversion F; subst. apply takes_ret. exact I.
  - destruct js as [|j0 js]; [exfalso; apply Forall2_length in F; rewrite EN, app_length in F; cbn in F; lia|].
    eapply takes_lift; [apply txids_list; exact HJ|].
    assert (EL : last (pre ++ firstn p rest) [] = t) by (rewrite EN, app_assoc; apply last_last). rewrite EL.
    assert (HC2 : l_confirmed L = (pre ++ new') ++ t :: skipn p rest).
    { rewrite HC. rewrite <- app_assoc. change (t :: skipn p rest) with ([t] ++ skipn p rest). rewrite (app_assoc new'), <- EN. f_equal. symmetry. apply firstn_skipn. }
    cbn [map]. rewrite blockstream_eq. rewrite (app_assoc (blockstream_url n "address/")).
    eapply takes_get; [apply (HN _ _ _ HC2)|]. intros r j' _ EJ HJ'. apply (takes_lift _ _ _ _ _ EJ).
    apply (IH _ _ (skipn p rest)); auto.
    + destruct rest as [|x rest]; [congruence|]. destruct p; [lia|]. rewrite skipn_length. cbn [length] in *. lia.
    + rewrite HC, <- app_assoc. f_equal. apply firstn_split.
Qed.
Lemma lasts_total p : (0 < p)%nat -> forall l, exists ts, Lasts p l ts /\ Fill (Z.of_nat p) (zlen l) (zlen ts).
Proof.
  intros Hp l. remember (length l) as m eqn:Em. assert (Hm : (length l <= m)%nat) by lia. clear Em. revert l Hm.
  induction m as [|m IH]; intros l Hm.
  - destruct l; [|cbn in Hm; lia]. exists []. split; [constructor|]. unfold Fill, zlen. cbn. lia.
  - destruct l as [|x l]; [exists []; split; [constructor|unfold Fill, zlen; cbn; lia]|].
    destruct p as [|p]; [lia|]. destruct (IH (skipn (S p) (x :: l))) as (ts & HT & HF); [rewrite skipn_length; cbn [length] in *; lia|].
    destruct (exists_last (l := firstn (S p) (x :: l))) as (pre & t & EP); [discriminate|].
    exists (t :: ts). split; [constructor; [discriminate|eauto|exact HT]|].
    unfold Fill, zlen in *. rewrite skipn_length in HF. change (Z.of_nat (length (t :: ts))) with (Z.of_nat (S (length ts))). rewrite (Nat2Z.inj_succ (length ts)).
    revert HF. generalize (length (x :: l)) (eq_refl : (0 <? length (x :: l))%nat = true). intros N HN HF. apply Nat.ltb_lt in HN.
    revert HF. set (P := S p) in *. assert (HP : (0 < P)%nat) by (unfold P; lia). clearbody P. generalize (Z.of_nat (length ts)). intros k HF.
    destruct (le_lt_dec N P) as [Q|Q].
    + replace (N - P)%nat with 0%nat in HF by lia. assert (k = 0) by nia. subst k. lia.
    + rewrite Nat2Z.inj_sub in HF by lia. lia.
Qed.
(** C112: the mempool, the newest, and what comes after the last of each page;
    with p on a page, as many pages as they fill, and two more questions (on the
    test network one more, as the mempool is not asked for). *)
Theorem C112_blockstream_transactions n p L address : ServesBlockstream (OU:=OU) n p L address -> (0 < p)%nat -> (length (l_confirmed L) < rounds)%nat ->
  zlen (l_mempool L) < 50 ->
  exists ts, Lasts p (l_confirmed L) ts /\ Fill (Z.of_nat p) (zlen (l_confirmed L)) (zlen ts) /\
    Takes g (@blockstream_transactions _ TR rounds n address)
      (map (fun path => (blockstream_url n "address/" ++ address ++ path, []))
        (match n with Main => [str "/txs/mempool"] | Test => [] end ++ str "/txs/chain/" :: map (fun t => str "/txs/chain/" ++ t) ts)) (fun _ => True).
Proof.
  intros HS Hp HR HM. destruct (lasts_total p Hp (l_confirmed L)) as (ts & HT & HF). exists ts. split; [exact HT|]. split; [exact HF|].
  unfold blockstream_transactions. pose proof HS as (_ & _ & RM & RC & _). cbv zeta in RM, RC.
  assert (FM : firstn 50 (l_mempool L) = l_mempool L) by (apply firstn_all2; unfold zlen in HM; lia). rewrite FM in RM.
  assert (G : Takes g (r <~ @http_get _ TR (blockstream_address n address ++ str "/txs/chain/") [] ;;
    if r_status r =? 400 then iret None else
    _ <~ ilift (ok_status r) ;; response <~ ilift (r_json r) ;; l <~ @blockstream_pages _ TR rounds n address response [] ;; iret (Some l))
    (map (fun path => (blockstream_url n "address/" ++ address ++ path, [])) (str "/txs/chain/" :: map (fun t => str "/txs/chain/" ++ t) ts)) (fun _ => True)).
  { rewrite blockstream_eq. cbn [map]. rewrite (app_assoc (blockstream_url n "address/")). eapply takes_get; [apply RC|]. intros r j ST EJ HJ. rewrite ST. cbn [Z.eqb Pos.eqb].
    apply (takes_lift _ _ _ _ _ (ok200 _ ST)). apply (takes_lift _ _ _ _ _ EJ). rewrite map_map.
    rewrite <- (app_nil_r (map _ ts)). eapply takes_bind; [|intros; apply takes_ret; exact I].
    apply (stream_takes n p L address Hp HS rounds [] j (l_confirmed L)); auto. }
  destruct n; cbn [app].
  - rewrite (blockstream_eq Main address (str "/txs/mempool")). cbn [map] in *. rewrite (app_assoc (blockstream_url Main "address/") address (str "/txs/mempool")).
    eapply takes_get; [apply RM|]. intros r j ST EJ HJ. rewrite ST. cbn [Z.eqb Pos.eqb]. apply (takes_lift _ _ _ _ _ (ok200 _ ST)).
    eapply takes_lift; [rewrite EJ; cbn [bind]; apply txids_list; exact HJ|]. destruct (Z.eqb_spec (zlen (l_mempool L)) 50); [lia|].
    match goal with |- Takes _ _ ?q _ => rewrite <- (app_nil_r q) end. eapply takes_bind; [exact G|intros; apply takes_ret; exact I].
  - match goal with |- Takes _ _ ?q _ => rewrite <- (app_nil_r q) end. eapply takes_bind; [exact G|intros; apply takes_ret; exact I].
Qed.
End WithOutside.

(** ** The hypotheses are met: four transactions and three coins *)
Example C112_blockchair_case : exists qs, ByOffset 1000 (blockchair_url Main addr) [(str "limit", str "1000")] 1 qs /\ length qs = 2%nat /\
  Takes (initial_globals 0 0) (@blockchair_transactions _ (@tracked _ (known_to true)) Main addr) qs (fun _ => True).
Proof.
  destruct (@C112_blockchair_transactions _ (known_to true) (initial_globals 0 0) Main known addr 1 C62_blockchair_hypotheses) as (qs & B & T); [vm_compute; intuition congruence|].
  exists qs. split; [exact B|]. split; [|exact T]. apply Forall2_length in B. etransitivity; [symmetry; exact B|reflexivity].
Qed.
Example C112_blockchair_unspent_case : Fill 1000 (zlen (l_coins known)) 1.
Proof. vm_compute. intuition congruence. Qed.
Example C112_blockchain_case : Fill 50 (zlen (l_mempool known ++ l_confirmed known)) 1 /\ ServesBlockchain (OU:=known_to true) known addr.
Proof. split; [vm_compute; intuition congruence|apply known_blockchain]. Qed.
(** Three confirmed transactions, two on a page. *)
Example C112_blockstream_case : exists ts, Lasts 2 (l_confirmed known) ts /\ ts = [str "aa02"; str "aa01"] /\
  Takes (initial_globals 0 0) (@blockstream_transactions _ (@tracked _ (known_to true)) 5 Main addr)
      (map (fun path => (blockstream_url Main "address/" ++ addr ++ path, [])) [str "/txs/mempool"; str "/txs/chain/"; str "/txs/chain/aa02"; str "/txs/chain/aa01"]) (fun _ => True).
Proof.
  destruct C62_blockstream_hypotheses as [HS HM].
  destruct (@C112_blockstream_transactions _ (known_to true) 5 (initial_globals 0 0) Main 2 known addr HS ltac:(lia) ltac:(cbn; lia) HM) as (ts & L & _ & T).
  assert (ts = [str "aa02"; str "aa01"]) as ->.
  { clear T. inversion L as [|? t ts' _ (pre & E1) L1]; subst. inversion L1 as [|? t2 ts2 _ (pre2 & E2) L2]; subst. inversion L2 as [|? ? ? NE]; subst; [|exfalso; apply NE; reflexivity].
    destruct pre as [|x [|y pre]]; [discriminate|injection E1 as _ <-|destruct pre; discriminate]. destruct pre2 as [|x2 pre2]; [injection E2 as <-; reflexivity|destruct pre2; discriminate]. }
  exists [str "aa02"; str "aa01"]. split; [exact L|]. split; [reflexivity|]. exact T.
Qed.

(** One could expect that only pages with something on them are needed.  They
    are not enough: where the page after the last one is refused, all that was
    read is lost. *)
Definition strict : Outside Z := {|
  o_get := fun url ps t e => match ps with
    | (_, d) :: _ => if list_eqb d (str "1000") then (Ok (mkResp 404 [] (Raise ValueError)), e) else @o_get _ (known_to true) url ps t e
    | [] => @o_get _ (known_to true) url ps t e end;
  o_post := @o_post _ (known_to true); o_rpc := @o_rpc _ (known_to true); o_time := @o_time _ (known_to true) |}.
Theorem C112_empty_page_refuted : ~ (forall (E : Type) (OU : Outside E) n L address s,
  (forall k t, 0 <= k < Z.max 1 (zlen (l_mempool L ++ l_confirmed L)) -> Digits k t -> t <> [] ->
    Replies (OU:=OU) (blockchair_url n address) [(str "offset", t); (str "limit", str "1000")] (blockchair_reply L address k)) ->
  exists s', blockchair_transactions n address s = (Ok (l_mempool L ++ l_confirmed L), s')).
Proof.
  intros H. destruct (H Z strict Main known addr (mkNet (initial_globals 0 0) 0)) as (s' & E).
  - intros k t Hk DK NE T e. destruct (C62_blockchair_hypotheses) as [_ R]. destruct (R k t ltac:(lia) DK NE T e) as (r & j & e' & EG & A). exists r, j, e'. split; [|exact A].
    cbn [o_get strict]. destruct (list_eqb t (str "1000")) eqn:Q; [|exact EG]. exfalso. apply list_eqb_eq in Q. subst t.
    apply Digits_num in DK. change (zlen (l_mempool known ++ l_confirmed known)) with 4 in Hk. vm_compute in DK. lia.
  - assert (G : match @blockchair_transactions _ strict Main addr (mkNet (initial_globals 0 0) 0) with (Raise _, _) => True | _ => False end) by (vm_compute; exact I).
    rewrite E in G. exact G.
Qed.

Print Assumptions C112_blockchair_transactions.
Print Assumptions C112_blockchair_unspent.
Print Assumptions C112_blockchain_transactions.
Print Assumptions C112_blockstream_transactions.
Print Assumptions C112_empty_page_refuted.
