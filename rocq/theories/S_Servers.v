(** Specification: what the public services and a node answer about an address. *)
From Coq Require Import String.
From Coq Require Import Permutation.
From Verif Require Import M_services S_Decimal.

(** ** What there is to know about an address *)
Record Coin := mkCoin { c_value : Z; c_height : option Z (* None: not in a block yet *); c_txid : pystr; c_index : Z }.
Record Ledger := mkLedger {
  l_tip : Z;                     (* height of the last block *)
  l_script : pystr;              (* the output script of the address, in hex *)
  l_coins : list Coin;
  l_confirmed : list pystr;      (* transaction ids, newest first *)
  l_mempool : list pystr
}.
Definition total (L : Ledger) : Z := fold_right Z.add 0 (map c_value (l_coins L)).
Definition confirmations (L : Ledger) (c : Coin) : Z :=
  match c_height c with Some h => l_tip L - h + 1 | None => 0 end.
(** The Unspent object for a coin. *)
Definition Holds (L : Ledger) (c : Coin) (u : Unspent) : Prop :=
  u = mkU (c_value c) (confirmations L c) (l_script L) (c_txid c) (c_index c) P2PKH (4 * 148) (Some false) 4294967295.

(** Page: the p elements from number k on. *)
Definition page {A} (k p : Z) (l : list A) : list A := firstn (Z.to_nat p) (skipn (Z.to_nat k) l).

(** ** JSON *)
Definition HasKey (k : pystr) (v j : json) : Prop := exists fs, j = JObj fs /\ NoDup (map fst fs) /\ In (k, v) fs.
Definition Has (k : string) (v j : json) : Prop := HasKey (str k) v j.
Definition Lacks (k : string) (j : json) : Prop := exists fs, j = JObj fs /\ ~ In (str k) (map fst fs).
Definition Txid (t : pystr) (j : json) : Prop := Has "txid" (JStr t) j.

Section WithOutside.
Context {E : Type} {OU : Outside E}.

(** Whenever it is asked, the server answers with status 200 and JSON as given. *)
Definition Replies (url : pystr) (params : list (pystr * pystr)) (P : json -> Prop) : Prop :=
  forall t e, exists r j e', o_get url params t e = (Ok r, e') /\ r_status r = 200 /\ r_json r = Ok j /\ P j.
Definition RepliesText (url : pystr) (P : pystr -> Prop) : Prop :=
  forall t e, exists r e', o_get url [] t e = (Ok r, e') /\ r_status r = 200 /\ P (r_text r).

(** ** Blockchair: pages of 1000 by offset *)
Definition blockchair_url (n : net) (address : pystr) : pystr :=
  (match n with Main => str "https://api.blockchair.com/bitcoin/dashboards/address/"
              | Test => str "https://api.blockchair.com/bitcoin/testnet/dashboards/address/" end) ++ address.
Definition blockchair_coin (c : Coin) (j : json) : Prop :=
  Has "value" (JInt (c_value c)) j /\ Has "block_id" (JInt (match c_height c with Some h => h | None => -1 end)) j /\
  Has "transaction_hash" (JStr (c_txid c)) j /\ Has "index" (JInt (c_index c)) j.
Definition blockchair_reply (L : Ledger) (address : pystr) (k : Z) (j : json) : Prop :=
  exists data d a c coins,
    Has "data" data j /\ HasKey address d data /\ Has "address" a d /\ Has "context" c j /\ Has "state" (JInt (l_tip L)) c /\
    Has "balance" (JInt (total L)) a /\ Has "script_hex" (JStr (l_script L)) a /\
    Has "transaction_count" (JInt (zlen (l_mempool L ++ l_confirmed L))) a /\
    Has "transactions" (JList (map JStr (page k 1000 (l_mempool L ++ l_confirmed L)))) d /\
    Has "unspent_output_count" (JInt (zlen (l_coins L))) a /\
    Has "utxo" (JList coins) d /\ Forall2 blockchair_coin (page k 1000 (l_coins L)) coins.
Definition ServesBlockchair (n : net) (L : Ledger) (address : pystr) : Prop :=
  Replies (blockchair_url n address) [] (blockchair_reply L address 0) /\
  forall k t, 0 <= k -> Digits k t -> t <> [] ->
    Replies (blockchair_url n address) [(str "offset", t); (str "limit", str "1000")] (blockchair_reply L address k).

(** ** Blockstream: pages of p transactions, continued after the last id *)
Definition blockstream_url (n : net) (path : string) : pystr :=
  match n with Main => str "https://blockstream.info/api/" | Test => str "https://blockstream.info/testnet/api/" end ++ str path.
Definition blockstream_coin (c : Coin) (j : json) : Prop := exists st,
  Has "value" (JInt (c_value c)) j /\ Has "status" st j /\ Has "txid" (JStr (c_txid c)) j /\ Has "vout" (JInt (c_index c)) j /\
  match c_height c with
  | Some h => Has "confirmed" (JBool true) st /\ Has "block_height" (JInt h) st
  | None => Has "confirmed" (JBool false) st
  end.
Definition list_of {A} (P : A -> json -> Prop) (l : list A) (j : json) : Prop := exists js, j = JList js /\ Forall2 P l js.
Definition ServesBlockstream (n : net) (p : nat) (L : Ledger) (address : pystr) : Prop :=
  let a := blockstream_url n "address/" ++ address in
  RepliesText (blockstream_url n "blocks/tip/height") (fun t => Digits (l_tip L) t /\ t <> []) /\
  Replies (a ++ str "/utxo") [] (list_of blockstream_coin (l_coins L)) /\
  Replies (a ++ str "/txs/mempool") [] (list_of Txid (firstn 50 (l_mempool L))) /\
  Replies (a ++ str "/txs/chain/") [] (list_of Txid (firstn p (l_confirmed L))) /\
  (forall pre t post, l_confirmed L = pre ++ t :: post -> Replies (a ++ str "/txs/chain/" ++ t) [] (list_of Txid (firstn p post))) /\
  Replies a [] (fun j => exists chain mempool f1 s1 f2 s2,
    Has "chain_stats" chain j /\ Has "mempool_stats" mempool j /\
    Has "funded_txo_sum" (JInt f1) chain /\ Has "spent_txo_sum" (JInt s1) chain /\
    Has "funded_txo_sum" (JInt f2) mempool /\ Has "spent_txo_sum" (JInt s2) mempool /\
    total L = (f1 - s1) + (f2 - s2)).

(** ** Bitcore: pages of coins, continued after an id *)
Definition bitcore_url (n : net) (address : pystr) : pystr :=
  match n with Main => str "https://api.bitcore.io/api/BTC/mainnet/address/" | Test => str "https://api.bitcore.io/api/BTC/testnet/address/" end ++ address.
Definition bitcore_coin (L : Ledger) (x : Coin * pystr) (j : json) : Prop := let c := fst x in
  Has "_id" (JStr (snd x)) j /\ Has "value" (JInt (c_value c)) j /\ Has "confirmations" (JInt (confirmations L c)) j /\
  Has "script" (JStr (l_script L)) j /\ Has "mintTxid" (JStr (c_txid c)) j /\ Has "mintIndex" (JInt (c_index c)) j.
Definition ServesBitcore (n : net) (p : nat) (L : Ledger) (address : pystr) : Prop :=
  let url := bitcore_url n address ++ str "/?unspent=true&limit=100" in
  Replies (bitcore_url n address ++ str "/balance") [] (Has "balance" (JInt (total L))) /\
  exists ids, length ids = length (l_coins L) /\
    Replies url [] (list_of (bitcore_coin L) (firstn p (combine (l_coins L) ids))) /\
    forall pre c id post, combine (l_coins L) ids = pre ++ (c, id) :: post ->
      Replies (url ++ str "&since=" ++ id) [] (list_of (bitcore_coin L) (firstn p post)).

(** ** Smartbit: pages linked by URLs *)
Definition limit (n : string) : list (pystr * pystr) := [(str "limit", str n)].
(** The items on the pages from the link on. *)
Inductive Linked {A} (params : list (pystr * pystr)) (shows : list A -> json -> json -> Prop) : nat -> json -> list A -> Prop :=
| L_end : Linked params shows 0 JNull []
| L_link k url items next rest : url <> [] -> Replies url params (shows items next) -> Linked params shows k next rest ->
    Linked params shows (S k) (JStr url) (items ++ rest).
Definition smartbit_txs_page (items : list pystr) (next j : json) : Prop := exists a p txs,
  Has "address" a j /\ Has "transactions" (JList txs) a /\ Forall2 Txid items txs /\ Has "transaction_paging" p a /\ Has "next_link" next p.
Definition smartbit_coin (L : Ledger) (c : Coin) (j : json) : Prop := exists s t,
  Has "value" (JStr t) j /\ (exists d k, Amount d k t /\ d * 10 ^ 8 = c_value c * 10 ^ k /\ zlen t < 1000) /\
  Has "confirmations" (JInt (confirmations L c)) j /\ Has "script_pub_key" s j /\ Has "hex" (JStr (l_script L)) s /\
  Has "txid" (JStr (c_txid c)) j /\ Has "n" (JInt (c_index c)) j.
Definition smartbit_coins_page (L : Ledger) (items : list Coin) (next j : json) : Prop := exists p coins,
  Has "unspent" (JList coins) j /\ Forall2 (smartbit_coin L) items coins /\ Has "paging" p j /\ Has "next_link" next p.
Definition smartbit_url (n : net) (address : pystr) : pystr :=
  match n with Main => str "https://api.smartbit.com.au/v1/blockchain/address/"
             | Test => str "https://testnet-api.smartbit.com.au/v1/blockchain/address/" end ++ address.
Definition ServesSmartbit (n : net) (pages : nat) (L : Ledger) (address : pystr) : Prop :=
  Replies (smartbit_url n address) (limit "1") (fun j => exists a t, Has "address" a j /\ Has "total" t a /\ Has "balance_int" (JInt (total L)) t) /\
  ((l_mempool L ++ l_confirmed L = [] /\
    Replies (smartbit_url n address) (limit "1000") (fun j => exists a, Has "address" a j /\ Lacks "transactions" a)) \/
   exists items next rest k, (k <= pages)%nat /\ l_mempool L ++ l_confirmed L = items ++ rest /\
    Replies (smartbit_url n address) (limit "1000") (smartbit_txs_page items next) /\
    Linked (match n with Main => [] | Test => limit "1000" end) smartbit_txs_page k next rest) /\
  ((l_coins L = [] /\ Replies (smartbit_url n address ++ str "/unspent") (limit "1000") (Lacks "unspent")) \/
   exists items next rest k, (k <= pages)%nat /\ l_coins L = items ++ rest /\
    Replies (smartbit_url n address ++ str "/unspent") (limit "1000") (smartbit_coins_page L items next) /\
    Linked (limit "1000") (smartbit_coins_page L) k next rest).

(** ** blockchain.info: pages of 50 transactions by offset; at most 1000 coins *)
Definition blockchain_url (address : pystr) : pystr := str "https://blockchain.info/address/" ++ address ++ str "?format=json".
Definition blockchain_coin (L : Ledger) (c : Coin) (j : json) : Prop :=
  Has "value" (JInt (c_value c)) j /\ Has "confirmations" (JInt (confirmations L c)) j /\ Has "script" (JStr (l_script L)) j /\
  Has "tx_hash_big_endian" (JStr (c_txid c)) j /\ Has "tx_output_n" (JInt (c_index c)) j.
Definition ServesBlockchain (L : Ledger) (address : pystr) : Prop :=
  Replies (blockchain_url address ++ str "&limit=0") [] (Has "final_balance" (JInt (total L))) /\
  (forall k t, 0 <= k -> Digits k t -> t <> [] -> Replies (blockchain_url address) [(str "offset", t)] (fun j =>
    Has "n_tx" (JInt (zlen (l_mempool L ++ l_confirmed L))) j /\
    exists txs, Has "txs" (JList txs) j /\ Forall2 (fun t x => Has "hash" (JStr t) x) (page k 50 (l_mempool L ++ l_confirmed L)) txs)) /\
  (let request := [(str "active", address); (str "offset", str "0"); (str "limit", str "1000")] in
   (l_coins L = [] /\ forall t e, exists r e', o_get (str "https://blockchain.info/unspent") request t e = (Ok r, e') /\ r_status r = 500) \/
   Replies (str "https://blockchain.info/unspent") request
     (fun j => exists coins, Has "unspent_outputs" (JList coins) j /\ Forall2 (blockchain_coin L) (firstn 1000 (l_coins L)) coins)).

(** ** A node: it has no error to report *)
Definition RepliesRpc (url : pystr) (method : string) (args : list json) (P : json -> Prop) : Prop :=
  forall t e, exists r j v e', o_rpc url (str method) args t e = (Ok r, e') /\ r_status r = 200 /\ r_json r = Ok j /\
    (Lacks "error" j \/ Has "error" JNull j) /\ Has "result" v j /\ P v.
Definition node_coin (L : Ledger) (c : Coin) (j : json) : Prop := exists repr x,
  Has "amount" (JFloat repr x) j /\ (exists d k, Scientific d k repr /\ d * 10 ^ 8 = c_value c * 10 ^ k /\ zlen repr < 1000 /\ k < 1000) /\
  Has "confirmations" (JInt (confirmations L c)) j /\ Has "scriptPubKey" (JStr (l_script L)) j /\
  Has "txid" (JStr (c_txid c)) j /\ Has "vout" (JInt (c_index c)) j.
Definition ServesNode (url : pystr) (L : Ledger) (received : list pystr) (address : pystr) : Prop :=
  RepliesRpc url "listunspent" [JInt 0; JInt 9999999; JList [JStr address]] (list_of (node_coin L) (l_coins L)) /\
  RepliesRpc url "listreceivedbyaddress" [JInt 0; JBool true; JBool true; JStr address] (fun j =>
    (received = [] /\ j = JList []) \/ exists x, j = JList [x] /\ Has "txids" (JList (map JStr received)) x).

(** The sum of all amounts ever received, as a float close to V / 10^8. *)
Definition NodeReceived (url : pystr) (V : Z) (address : pystr) : Prop :=
  RepliesRpc url "getreceivedbyaddress" [JStr address; JInt 0] (fun j => exists repr c k,
    j = JFloat repr (Fin false c (- k)) /\ 0 < c /\ 0 <= k < 2000 /\ Z.abs (c * 10 ^ 8 - V * 10 ^ k) * 10 ^ 15 <= V * 10 ^ k).

(** ** Any service.  Pages are not empty and the loops may run [rounds] times. *)
Definition Serves (rounds : nat) (n : net) (L : Ledger) (address : pystr) (sv : service) : Prop :=
  match sv with
  | Blockchair => ServesBlockchair n L address
  | Blockstream => exists p, (0 < p)%nat /\ (length (l_confirmed L) < rounds)%nat /\ ServesBlockstream n p L address
  | Bitcore => exists p, (0 < p)%nat /\ (length (l_coins L) < rounds)%nat /\ ServesBitcore n p L address
  | Smartbit => exists pages, (pages < rounds)%nat /\ ServesSmartbit n pages L address
  | BlockchainInfo => n = Main /\ ServesBlockchain L address
  | Node url => exists received, ServesNode url L received address
  end.
(** The same, but for the order of the coins. *)
Definition Alike (L L' : Ledger) : Prop :=
  l_tip L' = l_tip L /\ l_script L' = l_script L /\ Permutation (l_coins L) (l_coins L') /\
  l_confirmed L' = l_confirmed L /\ l_mempool L' = l_mempool L.
End WithOutside.
