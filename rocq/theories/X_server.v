(** Servers that know one address, for examples. *)
From Coq Require Import String.
From Verif Require Import F_base F_decimal M_services S_Decimal S_Servers F_servers X_toy X_net.

Definition addr : pystr := str "bc1qw508d6qejxtdg4y5r3zarvary0c5xw7kv8f3t4".
Definition addr_script : pystr := str "0014751e76e8199196d454941c45d1b3a323f1433bd6".
Example addr_script_ok : exists b, @address_to_scriptpubkey toy addr = Ok (Some b) /\ addr_script = bytes_to_hex b.
Proof. eexists. split; [vm_compute; reflexivity|vm_compute; reflexivity]. Qed.

Definition coin1 : Coin := mkCoin 150000 (Some 699999) (str "aa01") 0.
Definition coin2 : Coin := mkCoin 2500 None (str "aa04") 1.
Definition coin3 : Coin := mkCoin 123456789 (Some 600000) (str "aa02") 7.
Definition known : Ledger := mkLedger 700000 addr_script [coin1; coin2; coin3] [str "aa03"; str "aa02"; str "aa01"] [str "aa04"].

Definition obj (l : list (string * json)) : json := JObj (map (fun p => (str (fst p), snd p)) l).
Definition jstr_ (s : string) : json := JStr (str s).
Definition blockchair_json (c : Coin) : json :=
  obj [("block_id", JInt (match c_height c with Some h => h | None => -1 end)); ("transaction_hash", JStr (c_txid c));
       ("index", JInt (c_index c)); ("value", JInt (c_value c))]%string.
Definition blockchair_page (k : Z) : json :=
  obj [("data", JObj [(addr, obj
        [("address", obj [("type", jstr_ "witness_v0_scripthash"); ("script_hex", JStr (l_script known)); ("balance", JInt 123609289);
                          ("unspent_output_count", JInt 3); ("transaction_count", JInt 4)]);
         ("transactions", JList (map JStr (page k 1000 (l_mempool known ++ l_confirmed known))));
         ("utxo", JList (map blockchair_json (page k 1000 (l_coins known))))])]);
       ("context", obj [("code", JInt 200); ("state", JInt 700000)])]%string.
Definition txid_json (t : pystr) : json := obj [("version", JInt 2); ("txid", JStr t)]%string.
Definition blockstream_json (c : Coin) : json :=
  obj [("txid", JStr (c_txid c)); ("vout", JInt (c_index c));
       ("status", match c_height c with Some h => obj [("confirmed", JBool true); ("block_height", JInt h)] | None => obj [("confirmed", JBool false)] end);
       ("value", JInt (c_value c))]%string.
Definition bitcore_json (c : Coin) (id : string) : json :=
  obj [("_id", jstr_ id); ("mintIndex", JInt (c_index c)); ("mintTxid", JStr (c_txid c)); ("value", JInt (c_value c));
       ("script", JStr addr_script); ("confirmations", JInt (confirmations known c))]%string.
Definition smartbit_json (c : Coin) (amount : string) : json :=
  obj [("txid", JStr (c_txid c)); ("n", JInt (c_index c)); ("value", jstr_ amount); ("value_int", JInt (c_value c));
       ("script_pub_key", obj [("asm", jstr_ ""); ("hex", JStr addr_script)]); ("confirmations", JInt (confirmations known c))]%string.
Definition blockchain_json (c : Coin) : json :=
  obj [("tx_hash_big_endian", JStr (c_txid c)); ("tx_output_n", JInt (c_index c)); ("script", JStr addr_script); ("value", JInt (c_value c));
       ("confirmations", JInt (confirmations known c))]%string.
Definition node_json (c : Coin) (repr : string) : json :=
  obj [("txid", JStr (c_txid c)); ("vout", JInt (c_index c)); ("scriptPubKey", JStr addr_script); ("amount", JFloat (str repr) (NaN false));
       ("confirmations", JInt (confirmations known c))]%string.

(** The pages with fixed addresses. *)
Definition fixed_pages : list (pystr * list (pystr * pystr) * json) :=
  let bs := str "https://blockstream.info/api/address/" ++ addr in
  let bc := str "https://api.bitcore.io/api/BTC/mainnet/address/" ++ addr in
  let sb := str "https://api.smartbit.com.au/v1/blockchain/address/" ++ addr in
  let txs l next := obj [("address", obj [("transactions", JList (map txid_json l)); ("transaction_paging", obj [("next_link", next)])])]%string in
  let coins l next := obj [("unspent", JList l); ("paging", obj [("limit", JInt 2); ("next_link", next)])]%string in
  [(bs ++ str "/utxo", [], JList (map blockstream_json (l_coins known)));
   (bs ++ str "/txs/mempool", [], JList (map txid_json (l_mempool known)));
   (bs ++ str "/txs/chain/", [], JList (map txid_json [str "aa03"; str "aa02"]));
   (bs ++ str "/txs/chain/aa03", [], JList (map txid_json [str "aa02"; str "aa01"]));
   (bs ++ str "/txs/chain/aa02", [], JList (map txid_json [str "aa01"]));
   (bs ++ str "/txs/chain/aa01", [], JList []);
   (bs, [], obj [("chain_stats", obj [("funded_txo_sum", JInt 500000000); ("spent_txo_sum", JInt 376393211)]);
                 ("mempool_stats", obj [("funded_txo_sum", JInt 2500); ("spent_txo_sum", JInt 0)])]%string);
   (bc ++ str "/balance", [], obj [("balance", JInt 123609289)]%string);
   (bc ++ str "/?unspent=true&limit=100", [], JList [bitcore_json coin1 "x1"; bitcore_json coin2 "x2"]);
   (bc ++ str "/?unspent=true&limit=100&since=x1", [], JList [bitcore_json coin2 "x2"; bitcore_json coin3 "x3"]);
   (bc ++ str "/?unspent=true&limit=100&since=x2", [], JList [bitcore_json coin3 "x3"]);
   (bc ++ str "/?unspent=true&limit=100&since=x3", [], JList []);
   (sb, limit "1", obj [("address", obj [("total", obj [("balance_int", JInt 123609289)])])]%string);
   (sb, limit "1000", txs [str "aa04"; str "aa03"] (jstr_ "https://next1"));
   (str "https://next1", [], txs [str "aa02"; str "aa01"] JNull);
   (sb ++ str "/unspent", limit "1000", coins [smartbit_json coin1 "0.00150000"; smartbit_json coin2 "0.00002500"] (jstr_ "https://next2"));
   (str "https://next2", limit "1000", coins [smartbit_json coin3 "1.23456789"] JNull);
   (str "https://blockchain.info/address/" ++ addr ++ str "?format=json&limit=0", [], obj [("final_balance", JInt 123609289)]%string);
   (str "https://blockchain.info/unspent", [(str "active", addr); (str "offset", str "0"); (str "limit", str "1000")],
     obj [("unspent_outputs", JList (map blockchain_json (l_coins known)))]%string)].
Definition same_params (a b : list (pystr * pystr)) : bool :=
  list_eqb (flat_map (fun p => fst p ++ [-1] ++ snd p ++ [-2]) a) (flat_map (fun p => fst p ++ [-1] ++ snd p ++ [-2]) b).
(** Blockchair may be out of order. *)
Definition answer_json (alive : bool) (url : pystr) (ps : list (pystr * pystr)) : option json :=
  if list_eqb url (str "https://api.blockchair.com/bitcoin/dashboards/address/" ++ addr)
  then (if alive then Some (blockchair_page (match ps with (_, t) :: _ => num t | [] => 0 end)) else None)
  else if list_eqb url (str "https://blockchain.info/address/" ++ addr ++ str "?format=json")
  then Some (obj [("n_tx", JInt 4); ("txs", JList (map (fun t => obj [("hash", JStr t)]%string)
                                              (page (match ps with (_, t) :: _ => num t | [] => 0 end) 50 (l_mempool known ++ l_confirmed known))))]%string)
  else match find (fun p => list_eqb (fst (fst p)) url && same_params (snd (fst p)) ps) fixed_pages with Some p => Some (snd p) | None => None end.
Definition node_answer (method : pystr) : option json :=
  if list_eqb method (str "listunspent") then Some (JList [node_json coin1 "0.0015"; node_json coin2 "2.5e-05"; node_json coin3 "1.23456789"])
  else if list_eqb method (str "listreceivedbyaddress") then Some (JList [obj [("address", JStr addr); ("txids", JList (map JStr [str "aa01"; str "aa02"; str "aa04"]))]%string])
  else if list_eqb method (str "getreceivedbyaddress") then Some (JFloat (str "5.0") (Fin false 5 0))
  else None.
(** The clock ticks with every request. *)
Definition known_to (alive : bool) : Outside Z := {|
  o_get := fun url ps _ e => (match answer_json alive url ps with
                            | Some j => Ok (mkResp 200 [] (Ok j))
                            | None => if list_eqb url (str "https://blockstream.info/api/blocks/tip/height") then Ok (mkResp 200 (str "700000") (Raise ValueError))
                                      else Ok (mkResp 503 [] (Raise ValueError)) end, e + 1);
  o_post := fun _ _ _ e => (Ok (mkResp 400 [] (Raise ValueError)), e + 1);
  o_rpc := fun _ method _ _ e => (match node_answer method with
                                | Some v => Ok (mkResp 200 [] (Ok (obj [("result", v); ("error", JNull); ("id", JNull)]%string)))
                                | None => Ok (mkResp 500 [] (Ok (obj [("result", JNull); ("error", jstr_ "?")]%string))) end, e + 1);
  o_time := fun e => (Ok e, e) |}.

(** ** They answer as specified *)
Fixpoint nodupb (l : list pystr) : bool := match l with [] => true | x :: r => negb (in_listb x r) && nodupb r end.
Lemma nodupb_ok l : nodupb l = true -> NoDup l.
Proof.
  induction l as [|x l IH]; cbn; [constructor|]. intros H. apply andb_true_iff in H as [H1 H2]. constructor; auto. intros I.
  apply negb_true_iff in H1. unfold in_listb in H1. assert (existsb (list_eqb x) l = true) by (apply existsb_exists; exists x; split; auto; apply list_eqb_eq; auto). congruence.
Qed.
Lemma has_key_ok k v fs : nodupb (map fst fs) = true -> find (fun p => list_eqb (fst p) k) fs = Some (k, v) -> HasKey k v (JObj fs).
Proof. intros ND F. exists fs. split; [reflexivity|]. split; [apply nodupb_ok; auto|]. apply find_some in F as [I _]. exact I. Qed.
Lemma has_ok k v fs : nodupb (map fst fs) = true -> find (fun p => list_eqb (fst p) (str k)) fs = Some (str k, v) -> Has k v (JObj fs).
Proof. apply has_key_ok. Qed.
Ltac hask := unfold obj; cbn [map fst snd]; first [apply has_ok | apply has_key_ok]; [vm_compute; reflexivity|cbn -[page str addr map]; reflexivity].
Lemma replies_fixed alive url ps j (P : json -> Prop) : answer_json alive url ps = Some j -> P j -> Replies (OU:=known_to alive) url ps P.
Proof. intros EA HP t e. eexists _, j, _. cbn [o_get known_to]. rewrite EA. cbn. auto. Qed.

Definition ex_blockchair_coin c : blockchair_coin c (blockchair_json c).
Proof. repeat split; unfold blockchair_json; hask. Qed.
Lemma digits_of ds : forallb is_digit ds = true -> Digits (num ds) ds.
Proof.
  induction ds as [|d ds IH] using rev_ind; [constructor|]. rewrite forallb_app. cbn [forallb]. intros H. apply andb_true_iff in H as [H1 H2].
  unfold num. rewrite fold_left_app. cbn [fold_left]. unfold is_digit in H2. replace d with (48 + (d - 48)) at 2 by lia.
  replace (fold_left (fun n c => 10 * n + (c - 48)) ds 0 * 10) with (10 * num ds) by (unfold num; lia) || idtac.
  constructor; [auto|lia].
Qed.
Lemma amount_of ds fs : forallb is_digit (ds ++ fs) = true -> ds ++ fs <> [] -> Amount (num (ds ++ fs)) (zlen fs) (ds ++ 46 :: fs).
Proof. intros. constructor; auto. apply digits_of. auto. Qed.
Ltac fixed := eapply replies_fixed; [vm_compute; reflexivity|].
Ltac all2 := repeat first [apply Forall2_nil | apply Forall2_cons].

Example known_blockchair : ServesBlockchair (OU:=known_to true) Main known addr.
Proof.
  assert (P : forall k, blockchair_reply known addr k (blockchair_page k)).
  { intros k. unfold blockchair_page. eexists _, _, _, _, _.
    split; [hask|]. split; [hask|]. split; [hask|]. split; [hask|]. repeat (split; [hask|]).
    change [coin1; coin2; coin3] with (l_coins known). generalize (page k 1000 (l_coins known)). intros l. induction l; cbn [map]; constructor; auto using ex_blockchair_coin. }
  assert (Q : forall ps, answer_json true (blockchair_url Main addr) ps = Some (blockchair_page (match ps with (_, t) :: _ => num t | [] => 0 end))) by reflexivity.
  split.
  - eapply replies_fixed; [apply Q|apply P].
  - intros k t Hk D _. eapply replies_fixed; [apply Q|]. cbv beta iota. rewrite (Digits_num _ _ D). apply P.
Qed.
Lemma ex_txids l : list_of Txid l (JList (map txid_json l)).
Proof. eexists. split; [reflexivity|]. induction l; cbn [map]; constructor; auto. unfold Txid, txid_json. hask. Qed.
Ltac ends H := repeat match type of H with
  | _ = ?pre ++ _ :: _ => destruct pre; cbn [app] in H; injection H; clear H; intros H; intros; subst
  end.
Example known_blockstream alive : ServesBlockstream (OU:=known_to alive) Main 2 known addr.
Proof.
  split; [|split; [|split; [|split; [|split]]]].
  - intros e. eexists _, _. split; [reflexivity|]. split; [reflexivity|]. split; [apply (digits_of (str "700000")); reflexivity|discriminate].
  - eapply replies_fixed; [reflexivity|]. eexists. split; [reflexivity|]. all2; eexists; (split; [unfold blockstream_json; hask|split; [hask|split; [hask|split; [hask|cbn; try split; hask]]]]).
  - eapply replies_fixed; [reflexivity|]. apply ex_txids.
  - eapply replies_fixed; [reflexivity|]. apply ex_txids.
  - intros pre t post H. cbn [known l_confirmed] in H.
    destruct pre as [|x1 pre]; [injection H as <- <-; eapply replies_fixed; [reflexivity|]; apply ex_txids|].
    destruct pre as [|x2 pre]; [injection H as _ <- <-; eapply replies_fixed; [reflexivity|]; apply ex_txids|].
    destruct pre as [|x3 pre]; [injection H as _ _ <- <-; eapply replies_fixed; [reflexivity|]; apply (ex_txids [])|].
    exfalso. injection H as _ _ _ H. destruct pre; discriminate.
  - eapply replies_fixed; [reflexivity|]. eexists _, _, _, _, _, _. repeat (split; [hask|]). vm_compute. reflexivity.
Qed.
Example known_bitcore alive : ServesBitcore (OU:=known_to alive) Main 2 known addr.
Proof.
  split; [eapply replies_fixed; [reflexivity|]; hask|].
  exists [str "x1"; str "x2"; str "x3"]. split; [reflexivity|].
  assert (C : forall c id, bitcore_coin known (c, str id) (bitcore_json c id)) by (intros c id; repeat split; unfold bitcore_json; hask).
  split; [eapply replies_fixed; [reflexivity|]; eexists; split; [reflexivity|]; all2; apply C|].
  intros pre c id post H. cbn [known l_coins combine] in H.
  destruct pre as [|x1 pre]; [injection H as <- <- <-; eapply replies_fixed; [reflexivity|]; eexists; split; [reflexivity|]; all2; apply C|].
  destruct pre as [|x2 pre]; [injection H as _ <- <- <-; eapply replies_fixed; [reflexivity|]; eexists; split; [reflexivity|]; all2; apply C|].
  destruct pre as [|x3 pre]; [injection H as _ _ <- <- <-; eapply replies_fixed; [reflexivity|]; eexists; split; [reflexivity|]; all2; apply C|].
  exfalso. injection H as _ _ _ H. destruct pre; discriminate.
Qed.
Lemma ex_smartbit_coin c i f : forallb is_digit (str i ++ str f) = true -> str i ++ str f <> [] ->
  num (str i ++ str f) * 10 ^ 8 = c_value c * 10 ^ zlen (str f) -> zlen (str i ++ 46 :: str f) < 1000 ->
  forall t, str t = str i ++ 46 :: str f -> smartbit_coin known c (smartbit_json c t).
Proof.
  intros H1 H2 H3 H4 t Et. unfold smartbit_json. eexists _, _. split; [hask|]. split.
  - exists (num (str i ++ str f)), (zlen (str f)). rewrite Et. split; [apply amount_of; auto|]. auto.
  - repeat split; hask.
Qed.
Example known_smartbit alive : ServesSmartbit (OU:=known_to alive) Main 1 known addr.
Proof.
  split; [eapply replies_fixed; [reflexivity|]; eexists _, _; split; [hask|]; split; [hask|]; hask|].
  assert (T : forall l, Forall2 Txid l (map txid_json l)) by (intros l; induction l; cbn [map]; constructor; auto; unfold Txid, txid_json; hask).
  split; right.
  - exists [str "aa04"; str "aa03"], (jstr_ "https://next1"), [str "aa02"; str "aa01"], 1%nat. split; [lia|]. split; [reflexivity|]. split.
    + eapply replies_fixed; [reflexivity|]. eexists _, _, _. split; [hask|]. split; [hask|]. split; [apply T|]. split; hask.
    + apply L_link with (items := [str "aa02"; str "aa01"]) (rest := []) (next := JNull); [discriminate| |constructor].
      eapply replies_fixed; [reflexivity|]. eexists _, _, _. split; [hask|]. split; [hask|]. split; [apply T|]. split; hask.
  - assert (C1 : smartbit_coin known coin1 (smartbit_json coin1 "0.00150000")) by (apply (ex_smartbit_coin coin1 "0" "00150000"); (reflexivity || discriminate)).
    assert (C2 : smartbit_coin known coin2 (smartbit_json coin2 "0.00002500")) by (apply (ex_smartbit_coin coin2 "0" "00002500"); (reflexivity || discriminate)).
    assert (C3 : smartbit_coin known coin3 (smartbit_json coin3 "1.23456789")) by (apply (ex_smartbit_coin coin3 "1" "23456789"); (reflexivity || discriminate)).
    exists [coin1; coin2], (jstr_ "https://next2"), [coin3], 1%nat. split; [lia|]. split; [reflexivity|]. split.
    + eapply replies_fixed; [reflexivity|]. eexists _, _. split; [hask|]. split; [all2; assumption|]. split; hask.
    + apply L_link with (items := [coin3]) (rest := []) (next := JNull); [discriminate| |constructor].
      eapply replies_fixed; [reflexivity|]. eexists _, _. split; [hask|]. split; [all2; assumption|]. split; hask.
Qed.
Example known_blockchain alive : ServesBlockchain (OU:=known_to alive) known addr.
Proof.
  split; [eapply replies_fixed; [reflexivity|]; hask|]. split.
  - intros k t Hk D _. eapply replies_fixed; [reflexivity|]. cbv beta iota. rewrite (Digits_num _ _ D). split; [hask|].
    eexists. split; [hask|]. change [str "aa04"; str "aa03"; str "aa02"; str "aa01"] with (l_mempool known ++ l_confirmed known). generalize (page k 50 (l_mempool known ++ l_confirmed known)). intros l. induction l; cbn [map]; constructor; auto. hask.
  - right. eapply replies_fixed; [reflexivity|]. eexists. split; [hask|]. all2; repeat split; unfold blockchain_json; hask.
Qed.
Example known_node alive url : ServesNode (OU:=known_to alive) url known [str "aa01"; str "aa02"; str "aa04"] addr.
Proof.
  assert (C : forall c r d k, Scientific d k (str r) -> d * 10 ^ 8 = c_value c * 10 ^ k -> zlen (str r) < 1000 -> k < 1000 -> node_coin known c (node_json c r)).
  { intros c r d k H1 H2 H3 H4. unfold node_json. eexists _, _. split; [hask|]. split; [exists d, k; auto|]. repeat split; hask. }
  split; intros e; eexists _, _, _, _.
  - split; [reflexivity|]. split; [reflexivity|]. split; [reflexivity|]. split; [right; hask|]. split; [hask|]. eexists. split; [reflexivity|]. all2.
    + apply (C coin1 _ 15 4); try reflexivity. constructor. apply (amount_of (str "0") (str "0015")); (reflexivity || discriminate).
    + apply (C coin2 _ 25 (1 + 5)); try reflexivity. apply (Sc_exp 25 1 (str "2.5") 5 (str "05")); [apply (amount_of (str "2") (str "5")); (reflexivity || discriminate)|apply (digits_of (str "05")); reflexivity|discriminate].
    + apply (C coin3 _ 123456789 8); try reflexivity. constructor. apply (amount_of (str "1") (str "23456789")); (reflexivity || discriminate).
  - split; [reflexivity|]. split; [reflexivity|]. split; [reflexivity|]. split; [right; hask|]. split; [hask|]. right. eexists. split; [reflexivity|]. hask.
Qed.
Example known_serves alive rounds sv : (4 < rounds)%nat -> (sv = Blockchair -> alive = true) -> Serves (OU:=known_to alive) rounds Main known addr sv.
Proof.
  intros HR HA. destruct sv; cbn [Serves].
  - rewrite HA by reflexivity. apply known_blockchair.
  - exists 2%nat. split; [lia|]. split; [cbn; lia|]. apply known_blockstream.
  - exists 2%nat. split; [lia|]. split; [cbn; lia|]. apply known_bitcore.
  - exists 1%nat. split; [lia|]. apply known_smartbit.
  - split; [reflexivity|]. apply known_blockchain.
  - eexists. apply known_node.
Qed.
