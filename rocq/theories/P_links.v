(** C112: the requests that reading an address takes where the pages are linked (Bitcore, Smartbit). *)
From Coq Require Import String.
From Verif Require Import F_base F_decimal M_services S_Decimal S_Servers F_network F_servers P_rates P_services P_pages X_toy X_net X_server.

(** ** Specification *)
Section Spec.
Context {E : Type} {OU : Outside E}.
(** What Bitcore gives for the coins of an address, each coin with its id. *)
Definition BitcorePages (n : net) (p : nat) (L : Ledger) (address : pystr) (ids : list pystr) : Prop :=
  let url := bitcore_url n address ++ str "/?unspent=true&limit=100" in
  length ids = length (l_coins L) /\
  Replies url [] (list_of (bitcore_coin L) (firstn p (combine (l_coins L) ids))) /\
  forall pre c id post, combine (l_coins L) ids = pre ++ (c, id) :: post ->
    Replies (url ++ str "&since=" ++ id) [] (list_of (bitcore_coin L) (firstn p post)).
(** The pages behind these links, in this order, hold these items; the last page has no link. *)
Inductive LinkedBy {A} (params : list (pystr * pystr)) (shows : list A -> json -> json -> Prop) : list pystr -> json -> list A -> Prop :=
| B_end : LinkedBy params shows [] JNull []
| B_link urls url items next rest : url <> [] -> Replies url params (shows items next) -> LinkedBy params shows urls next rest ->
    LinkedBy params shows (url :: urls) (JStr url) (items ++ rest).
Lemma bitcore_ids n p L address : ServesBitcore n p L address -> exists ids, BitcorePages n p L address ids.
Proof. intros (_ & ids & H). exists ids. exact H. Qed.
Lemma linked_by {A} params (shows : list A -> json -> json -> Prop) k next rest : Linked params shows k next rest ->
  exists urls, LinkedBy params shows urls next rest /\ length urls = k.
Proof.
  induction 1 as [|k url items next rest NU RP LK (urls & HU & HL)]; [exists []; split; [constructor|reflexivity]|].
  exists (url :: urls). split; [apply B_link with (next := next); auto|cbn; lia].
Qed.
End Spec.

Section WithOutside.
Context {E : Type} {OU : Outside E} (rounds : nat) (g : Globals).
#[local] Existing Instance tracked | 0.
Notation TR := (@tracked E OU).
Ltac field H := rewrite (has _ _ _ H); cbn [bind].
Lemma takes_globals {B} (f : Globals -> IO (Net (E * list Question)) B) qs Q : Takes g (f g) qs Q -> Takes g (ibind globals f) qs Q.
Proof. intros H e b. destruct (H e b) as (a & e' & EF & HQ). exists a, e'. split; auto. Qed.

(** ** Bitcore *)
Lemma bitcore_takes n p L address ids : (0 < p)%nat -> 1 <= g_prec g <= 90000 -> Forall (fun c => Readable g (c_value c)) (l_coins L) ->
  BitcorePages (OU:=OU) n p L address ids ->
  let url := bitcore_url n address ++ str "/?unspent=true&limit=100" in
  forall k pre j rest acc ts, (length rest < k)%nat -> combine (l_coins L) ids = pre ++ rest -> list_of (bitcore_coin L) (firstn p rest) j ->
  Lasts p (map snd rest) ts ->
  Takes g (@bitcore_pages _ TR k url j acc) (map (fun id => (url ++ str "&since=" ++ id, [])) ts) (fun _ => True).
Proof.
  intros Hp HP HV (HI & _ & HN) url. cbv zeta in HN. fold url in HN.
  assert (FST : map fst (combine (l_coins L) ids) = l_coins L).
  { clear - HI. revert ids HI. induction (l_coins L) as [|c l IH]; intros [|i ids] H; cbn in *; try discriminate; auto. rewrite IH; auto. }
  induction k as [|k IH]; intros pre j rest acc ts HL HC HJ HT; [lia|]. cbn [bitcore_pages].
  pose proof HJ as (js & -> & F). eapply takes_lift; [reflexivity|]. remember (map snd rest) as ss eqn:Ess.
  destruct HT as [|ss t ts NE (new' & EN) HT].
  - destruct rest; [|discriminate]. rewrite firstn_nil in F. inversion F; subst. apply takes_ret. exact I.
  - subst ss. rewrite firstn_map in EN. rewrite skipn_map in HT.
    set (new := firstn p rest) in *. set (post := skipn p rest) in *.
    assert (SPL : rest = new ++ post) by (symmetry; apply firstn_skipn).
    apply map_eq_app in EN as (n1 & n2 & E1 & E2 & E3). destruct n2 as [|[c id] [|? ?]]; try discriminate. cbn in E3. injection E3 as E3.
    destruct js as [|j0 js]; [exfalso; apply Forall2_length in F; rewrite E1, app_length in F; cbn in F; lia|].
    apply takes_globals.
    destruct (mapM_Forall2 (bitcore_coin L) (bitcore_utxo (g_prec g)) (fun x u => Holds L (fst x) u) new (j0 :: js)) as (us & EM & HU); auto.
    { intros [c1 id1] jc I (A0 & A1 & A2 & A3 & A4 & A5). cbn [fst snd] in *. eexists. split; [|apply (plain_holds L)]. unfold bitcore_utxo.
      assert (RV : Readable g (c_value c1)).
      { rewrite Forall_forall in HV. apply HV. rewrite <- FST, HC, SPL. apply in_map_iff. exists (c1, id1). split; auto. apply in_or_app. right. apply in_or_app. auto. }
      field A1. rewrite int_read; auto; [|lia|apply (readable_len g); auto; lia]. cbn [bind]. field A2. cbn [jint bind]. field A3. cbn [jstr bind]. field A4. cbn [jstr bind]. field A5. reflexivity. }
    apply (takes_lift g _ _ _ _ _ EM).
    assert (LST : jget "_id" (last (j0 :: js) JNull) = Ok (JStr id)).
    { rewrite E1 in F. apply Forall2_app_inv_l in F as (m1 & m2 & F1 & F2 & EJS). inversion F2 as [|? jl ? m3 RJ F3]; subst m2. inversion F3; subst m3.
      rewrite EJS, last_last. apply has. apply RJ. }
    eapply takes_lift; [rewrite LST; reflexivity|].
    assert (HC2 : combine (l_coins L) ids = (pre ++ n1) ++ (c, id) :: post).
    { rewrite HC, SPL, E1, <- !app_assoc. reflexivity. }
    cbn [map]. rewrite <- E3. eapply takes_get; [apply (HN _ _ _ _ HC2)|]. intros r j' _ EJ HJ'. apply (takes_lift g _ _ _ _ _ EJ).
    apply (IH (pre ++ new) _ post); auto.
    + rewrite SPL, app_length, E1, app_length in HL. cbn [length] in HL. lia.
    + rewrite HC, SPL, app_assoc. reflexivity.
Qed.
(** C112: the coins after the last one of each page, up to an empty page. *)
Theorem C112_bitcore_unspent n p L address ids : BitcorePages (OU:=OU) n p L address ids -> (0 < p)%nat -> (length (l_coins L) < rounds)%nat ->
  1 <= g_prec g <= 90000 -> Forall (fun c => Readable g (c_value c)) (l_coins L) ->
  let url := bitcore_url n address ++ str "/?unspent=true&limit=100" in
  exists ts, Lasts p ids ts /\ Fill (Z.of_nat p) (zlen (l_coins L)) (zlen ts) /\
    Takes g (@bitcore_unspent _ TR rounds n address) ((url, []) :: map (fun id => (url ++ str "&since=" ++ id, [])) ts) (fun _ => True).
Proof.
  intros HB Hp HR HP HV url. destruct (lasts_total p Hp ids) as (ts & HT & HF). pose proof HB as (HI & RP & _). cbv zeta in RP. fold url in RP.
  exists ts. split; [exact HT|]. split; [unfold zlen in *; rewrite <- HI; exact HF|]. unfold bitcore_unspent.
  assert (EU : bitcore_endpoint n ++ str "address/" ++ address ++ str "/?unspent=true&limit=100" = url) by (destruct n; reflexivity).
  rewrite EU. eapply takes_get; [exact RP|]. intros r j ST EJ HJ. apply (takes_lift g _ _ _ _ _ (ok200 _ ST)). apply (takes_lift g _ _ _ _ _ EJ).
  apply (bitcore_takes n p L address ids Hp HP HV HB rounds [] j (combine (l_coins L) ids)); auto.
  - rewrite combine_length. lia.
  - assert (SND : map snd (combine (l_coins L) ids) = ids).
    { clear - HI. revert HI. generalize (l_coins L). induction ids as [|i ids IH]; intros [|c l] H; cbn in *; try discriminate; auto. rewrite IH; auto. }
    rewrite SND. exact HT.
Qed.

(** ** Smartbit *)
Lemma smartbit_takes {A B} (shows : list A -> json -> json -> Prop) (readp : json -> result (list B * json)) params :
  (forall items next j, shows items next j -> exists bs, readp j = Ok (bs, next)) ->
  forall urls next rest, LinkedBy (OU:=OU) params shows urls next rest -> forall k acc, (length urls < k)%nat ->
  Takes g (@smartbit_pages _ TR B k readp params next acc) (map (fun u => (u, params)) urls) (fun _ => True).
Proof.
  intros HP urls next rest LK. induction LK as [|urls url items next rest NU RP LK IH]; intros k acc Hk.
  - destruct k as [|k]; [cbn in Hk; lia|]. cbn. apply takes_ret. exact I.
  - destruct k as [|k]; [cbn in Hk; lia|]. cbn [smartbit_pages]. destruct url as [|ch url]; [congruence|]. cbn [jtrue negb map].
    eapply takes_lift; [reflexivity|]. eapply takes_get; [exact RP|]. intros r j ST EJ HJ. apply (takes_lift g _ _ _ _ _ (ok200 _ ST)).
    destruct (HP _ _ _ HJ) as (bs & EP). eapply takes_lift; [rewrite EJ; exact EP|]. apply IH. cbn in Hk. lia.
Qed.
(** C112: the first page and then each link, once; no page in excess. *)
Theorem C112_smartbit_transactions n address items next urls rest : 
  Replies (OU:=OU) (smartbit_url n address) (limit "1000") (smartbit_txs_page items next) ->
  LinkedBy (OU:=OU) (match n with Main => [] | Test => limit "1000" end) smartbit_txs_page urls next rest -> (length urls < rounds)%nat ->
  Takes g (@smartbit_transactions _ TR rounds n address)
    ((smartbit_url n address, limit "1000") :: map (fun u => (u, match n with Main => [] | Test => limit "1000" end)) urls) (fun l => l = items ++ rest).
Proof.
  intros RP LK HR. assert (EU : smartbit_address n address = smartbit_url n address) by (destruct n; reflexivity).
  unfold smartbit_transactions. rewrite EU. change limit1000 with (limit "1000"). set (params := match n with Main => [] | Test => limit "1000" end) in *.
  eapply takes_get; [exact RP|]. intros r j ST EJ HJ. apply (takes_lift g _ _ _ _ _ (ok200 _ ST)).
  destruct (smartbit_txs_read _ _ _ HJ) as (bs & EB & FB). apply Forall2_eq_iff in FB. subst bs.
  eapply takes_lift.
  { rewrite EJ. cbn [bind]. destruct HJ as (a & p & txs & J1 & J2 & _). rewrite (has _ _ _ J1). cbn [bind]. rewrite (has_jhas _ _ _ J2). cbn [bind]. exact EB. }
  cbv beta iota. clear HJ EB RP. revert HR. generalize rounds as k. generalize items as acc. clear items. induction LK as [|urls url its next rest NU RP LK IH]; intros acc k Hk.
  - destruct k as [|k]; [cbn in Hk; lia|]. cbn. apply takes_ret. rewrite app_nil_r. reflexivity.
  - destruct k as [|k]; [cbn in Hk; lia|]. cbn [smartbit_pages]. destruct url as [|ch url]; [congruence|]. cbn [jtrue negb map].
    eapply takes_lift; [reflexivity|]. eapply takes_get; [exact RP|]. intros r' j' ST' EJ' HJ. apply (takes_lift g _ _ _ _ _ (ok200 _ ST')).
    destruct (smartbit_txs_read _ _ _ HJ) as (bs & EP & FB). apply Forall2_eq_iff in FB. subst bs.
    eapply takes_lift; [rewrite EJ'; exact EP|]. cbv beta iota. rewrite app_assoc. apply IH. cbn in Hk. lia.
Qed.
Theorem C112_smartbit_unspent n L address items next urls rest : l_coins L = items ++ rest ->
  Forall (fun c => Readable g (c_value c)) (l_coins L) -> 1 <= g_prec g <= 90000 ->
  Replies (OU:=OU) (smartbit_url n address ++ str "/unspent") (limit "1000") (smartbit_coins_page L items next) ->
  LinkedBy (OU:=OU) (limit "1000") (smartbit_coins_page L) urls next rest -> (length urls < rounds)%nat ->
  Takes g (@smartbit_unspent _ TR rounds n address)
    ((smartbit_url n address ++ str "/unspent", limit "1000") :: map (fun u => (u, limit "1000")) urls) (fun _ => True).
Proof.
  intros EL HV HP RP LK HR. assert (EU : smartbit_address n address = smartbit_url n address) by (destruct n; reflexivity).
  rewrite EL in HV. apply Forall_app in HV as [HV1 HV2].
  unfold smartbit_unspent. rewrite EU. change limit1000 with (limit "1000").
  eapply takes_get; [exact RP|]. intros r j ST EJ HJ. apply (takes_lift g _ _ _ _ _ (ok200 _ ST)). apply takes_globals.
  destruct (smartbit_coins_read g L _ _ _ HV1 HP HJ) as (bs & EB & FB).
  eapply takes_lift.
  { rewrite EJ. cbn [bind]. destruct HJ as (p & coins & J1 & _). rewrite (has_jhas _ _ _ J1). cbn [bind]. exact EB. }
  cbv beta iota.
  assert (LK2 : LinkedBy (OU:=OU) (limit "1000") (fun items next j => Forall (fun c => Readable g (c_value c)) items /\ smartbit_coins_page L items next j) urls next rest).
  { clear - LK HV2. induction LK as [|m url items next rest NU RP LK IH]; [constructor|]. apply Forall_app in HV2 as [V1 V2]. apply B_link with (next := next); auto.
    eapply replies_weaken; [exact RP|]. auto. }
  apply (smartbit_takes _ _ _) with (2 := LK2); auto.
  intros ? ? ? [V J]. destruct (smartbit_coins_read g L _ _ _ V HP J) as (x & Ex & _). eauto.
Qed.
(** C112: an address without a history takes one question, and so does one without coins. *)
Theorem C112_smartbit_nothing n address :
  (Replies (OU:=OU) (smartbit_url n address) (limit "1000") (fun j => exists a, Has "address" a j /\ Lacks "transactions" a) -> (0 < rounds)%nat ->
   Takes g (@smartbit_transactions _ TR rounds n address) [(smartbit_url n address, limit "1000")] (fun l => l = [])) /\
  (Replies (OU:=OU) (smartbit_url n address ++ str "/unspent") (limit "1000") (Lacks "unspent") -> (0 < rounds)%nat ->
   Takes g (@smartbit_unspent _ TR rounds n address) [(smartbit_url n address ++ str "/unspent", limit "1000")] (fun l => l = [])).
Proof.
  assert (EU : smartbit_address n address = smartbit_url n address) by (destruct n; reflexivity).
  split; intros RP HR; (destruct rounds as [|k]; [lia|]).
  - unfold smartbit_transactions. rewrite EU. change limit1000 with (limit "1000"). eapply takes_get; [exact RP|].
    intros r j ST EJ (a & J1 & J2). apply (takes_lift g _ _ _ _ _ (ok200 _ ST)).
    eapply takes_lift; [rewrite EJ; cbn [bind]; rewrite (has _ _ _ J1); cbn [bind]; rewrite (lacks_jhas _ _ J2); reflexivity|]. apply takes_ret. reflexivity.
  - unfold smartbit_unspent. rewrite EU. change limit1000 with (limit "1000"). eapply takes_get; [exact RP|].
    intros r j ST EJ J2. apply (takes_lift g _ _ _ _ _ (ok200 _ ST)). apply takes_globals.
    eapply takes_lift; [rewrite EJ; cbn [bind]; rewrite (lacks_jhas _ _ J2); reflexivity|]. apply takes_ret. reflexivity.
Qed.
End WithOutside.

(** ** The hypotheses are met *)
(** Three coins, two on a page: three questions. *)
Example C112_bitcore_case : exists ids ts, BitcorePages (OU:=known_to true) Main 2 known addr ids /\ length ts = 2%nat /\
  Takes (initial_globals 0 0) (@bitcore_unspent _ (@tracked _ (known_to true)) 5 Main addr)
    ((bitcore_url Main addr ++ str "/?unspent=true&limit=100", []) :: map (fun id => (bitcore_url Main addr ++ str "/?unspent=true&limit=100" ++ str "&since=" ++ id, [])) ts) (fun _ => True).
Proof.
  destruct C71_bitcore_hypotheses as [HS HV]. destruct (bitcore_ids _ _ _ _ HS) as (ids & HB).
  destruct (@C112_bitcore_unspent _ (known_to true) 5 (initial_globals 0 0) Main 2 known addr ids HB) as (ts & HT & HF & TK); try lia.
  - cbn. lia.
  - vm_compute. intuition congruence.
  - exact HV.
  - exists ids, ts. split; [exact HB|]. split; [|].
    + unfold Fill in HF. change (zlen (l_coins known)) with 3 in HF. change (Z.of_nat 2) with 2 in HF. assert (Q : zlen ts = 2) by lia. apply Nat2Z.inj. exact Q.
    + exact TK.
Qed.
(** Four transactions on two pages of Smartbit. *)
Example C112_smartbit_case :
  Takes (initial_globals 0 0) (@smartbit_transactions _ (@tracked _ (known_to true)) 2 Main addr)
    [(smartbit_url Main addr, limit "1000"); (str "https://next1", [])] (fun l => l = [str "aa04"; str "aa03"; str "aa02"; str "aa01"]).
Proof.
  assert (T : forall l, Forall2 Txid l (map txid_json l)) by (intros l; induction l; cbn [map]; constructor; auto; unfold Txid, txid_json; hask).
  apply (@C112_smartbit_transactions _ (known_to true) 2 (initial_globals 0 0) Main addr [str "aa04"; str "aa03"] (jstr_ "https://next1") [str "https://next1"] [str "aa02"; str "aa01"]); [| |cbn; lia].
  - eapply replies_fixed; [reflexivity|]. eexists _, _, _. split; [hask|]. split; [hask|]. split; [apply T|]. split; hask.
  - apply B_link with (items := [str "aa02"; str "aa01"]) (rest := []) (next := JNull); [discriminate| |constructor].
    eapply replies_fixed; [reflexivity|]. eexists _, _, _. split; [hask|]. split; [hask|]. split; [apply T|]. split; hask.
Qed.
Example C112_smartbit_unspent_case : exists items next urls rest, urls <> [] /\ l_coins known = items ++ rest /\
  Replies (OU:=known_to true) (smartbit_url Main addr ++ str "/unspent") (limit "1000") (smartbit_coins_page known items next) /\
  LinkedBy (OU:=known_to true) (limit "1000") (smartbit_coins_page known) urls next rest.
Proof.
  assert (C1 : smartbit_coin known coin1 (smartbit_json coin1 "0.00150000")) by (apply (ex_smartbit_coin coin1 "0" "00150000"); (reflexivity || discriminate)).
  assert (C2 : smartbit_coin known coin2 (smartbit_json coin2 "0.00002500")) by (apply (ex_smartbit_coin coin2 "0" "00002500"); (reflexivity || discriminate)).
  assert (C3 : smartbit_coin known coin3 (smartbit_json coin3 "1.23456789")) by (apply (ex_smartbit_coin coin3 "1" "23456789"); (reflexivity || discriminate)).
  exists [coin1; coin2], (jstr_ "https://next2"), [str "https://next2"], [coin3]. split; [discriminate|]. split; [reflexivity|]. split.
  - eapply replies_fixed; [reflexivity|]. eexists _, _. split; [hask|]. split; [all2; assumption|]. split; hask.
  - apply B_link with (items := [coin3]) (rest := []) (next := JNull); [discriminate| |constructor].
    eapply replies_fixed; [reflexivity|]. eexists _, _. split; [hask|]. split; [all2; assumption|]. split; hask.
Qed.
(** The reply for an address that Smartbit does not know. *)
Example C112_smartbit_nothing_case : exists OU : Outside Z,
  Replies (OU:=OU) (smartbit_url Main addr) (limit "1000") (fun j => exists a, Has "address" a j /\ Lacks "transactions" a) /\
  Replies (OU:=OU) (smartbit_url Main addr ++ str "/unspent") (limit "1000") (Lacks "unspent").
Proof.
  exists {| o_get := fun _ _ _ e => (Ok (mkResp 200 [] (Ok (JObj [(str "address", JObj [])]))), e); o_post := @o_post _ (known_to true);
            o_rpc := @o_rpc _ (known_to true); o_time := @o_time _ (known_to true) |}.
  split.
  - intros t e. eexists _, _, _. split; [reflexivity|]. split; [reflexivity|]. split; [reflexivity|]. exists (JObj []). split; [hask|]. exists []. split; [reflexivity|]. intros [].
  - intros t e. eexists _, _, _. split; [reflexivity|]. split; [reflexivity|]. split; [reflexivity|]. eexists. split; [reflexivity|]. intros [H|[]]. discriminate H.
Qed.

Print Assumptions C112_bitcore_unspent.
Print Assumptions C112_smartbit_transactions.
Print Assumptions C112_smartbit_unspent.
Print Assumptions C112_smartbit_nothing.
