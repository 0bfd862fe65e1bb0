(** Model of bit/network/services.py.  The getters for the two networks, which
    the code writes twice, are one definition with the network as parameter. *)
From Coq Require Import String.
From Verif Require Export M_rates M_unspent M_tx.

Section WithOutside.
Context {CR : Crypto} {E : Type} {OU : Outside E}.
(** Bound on the number of rounds of the loops that a server can keep running. *)
Context (rounds : nat).

Definition ok_status (r : Response) : result unit := if r_status r =? 200 then Ok tt else Raise ConnectionError.
Definition offset_params (offset limit : Z) : list (pystr * pystr) :=
  [(str "offset", str_of_int offset); (str "limit", str_of_int limit)].

(** ** Nodes *)

(* repo: bit/network/services.py:93-104 RPCMethod.__call__; __getattr__ makes the method name *)
Definition rpc (url : pystr) (method : string) (args : list json) : IO (Net E) json :=
  r <~ itry (outside (o_rpc url (str method) args None))
         (fun e => ilift (Raise (match e with ReqConnectionError => ConnectionError | e => e end))) ;;
  if negb ((r_status r =? 200) || (r_status r =? 500)) then ilift (Raise BitcoinNodeException)
  else
    ilift (j <- r_json r ;;
           has <- jhas "error" j ;;
           err <- (if has then e <- jget "error" j ;; Ok (match e with JNull => false | _ => true end) else Ok false) ;;
           if err then Raise BitcoinNodeException else jget "result" j).

(* repo: bit/network/services.py:33-39 RPCHost.get_balance, get_balance_testnet, with the Decimal of
   the module decimal; len(str(BTC)) is 9 *)
Definition node_balance (url address : pystr) : IO (Net E) Z :=
  _ <~ modify_globals (set_prec (ndigits BTC)) ;;
  b <~ rpc url "getreceivedbyaddress" [JStr address; JInt 0] ;;
  g <~ globals ;;
  ilift (b <- jdec b ;; x <- dec_mul (g_prec g) b (dec_of_int BTC) ;; dec_to_int x).

(* repo: bit/network/services.py:41-48 RPCHost.get_transactions, get_transactions_testnet *)
Definition node_transactions (url address : pystr) : IO (Net E) (list pystr) :=
  r <~ rpc url "listreceivedbyaddress" [JInt 0; JBool true; JBool true; JStr address] ;;
  ilift (l <- jlist r ;;
         match l with
         | [] => Ok []
         | first :: _ => txids <- jget "txids" first ;; l <- jlist txids ;; mapM jstr l
         end).

(* repo: bit/network/services.py:50-54 RPCHost.get_transaction_by_id, get_transaction_by_id_testnet *)
Definition node_by_id (url txid : pystr) : IO (Net E) (option pystr) :=
  r <~ rpc url "getrawtransaction" [JStr txid; JBool false] ;;
  ilift (match r with JNull => Ok None | _ => rmap Some (jstr r) end).

(** Unspent(value, confirmations, script, txid, index) *)
Definition plain_unspent (amount confirmations : Z) (script txid : pystr) (txindex : Z) : Unspent :=
  new_unspent amount confirmations script txid txindex (str "p2pkh") None None 4294967295.

(** currency_to_satoshi(j, unit) for the units btc and satoshi, which asks nobody *)
Definition unit_to_satoshi (prec : Z) (j : json) (unit_ : Z) : result Z := times_amount prec unit_ (jtext j).

(* repo: bit/network/services.py:56-70 RPCHost.get_unspent, get_unspent_testnet *)
Definition node_utxo (prec : Z) (tx : json) : result Unspent :=
  amount <- jget "amount" tx ;; amount <- unit_to_satoshi prec amount BTC ;;
  confirmations <- jget "confirmations" tx ;; confirmations <- jint confirmations ;;
  script <- jget "scriptPubKey" tx ;; script <- jstr script ;;
  txid <- jget "txid" tx ;; txid <- jstr txid ;;
  vout <- jget "vout" tx ;; vout <- jint vout ;;
  Ok (plain_unspent amount confirmations script txid vout).
Definition node_unspent (url address : pystr) : IO (Net E) (list Unspent) :=
  r <~ rpc url "listunspent" [JInt 0; JInt 9999999; JList [JStr address]] ;;
  g <~ globals ;;
  ilift (l <- jlist r ;; mapM (node_utxo (g_prec g)) l).

(* repo: bit/network/services.py:72-81 RPCHost.broadcast_tx, broadcast_tx_testnet *)
Definition node_broadcast (url tx_hex : pystr) : IO (Net E) bool :=
  itry (_ <~ rpc url "sendrawtransaction" [JStr tx_hex] ;; iret true)
       (fun e => match e with BitcoinNodeException => iret false | e => ilift (Raise e) end).

(** ** BlockchairAPI *)

(* repo: bit/network/services.py:108-116 *)
Definition blockchair_endpoint (n : net) : pystr :=
  match n with Main => str "https://api.blockchair.com/bitcoin/" | Test => str "https://api.blockchair.com/bitcoin/testnet/" end.
Definition blockchair_address (n : net) (address : pystr) : pystr := blockchair_endpoint n ++ str "dashboards/address/" ++ address.

(* repo: bit/network/services.py:118-131 get_balance *)
Definition blockchair_balance (n : net) (address : pystr) : IO (Net E) Z :=
  r <~ http_get (blockchair_address n address) [] ;;
  _ <~ ilift (ok_status r) ;;
  ilift (j <- r_json r ;; data <- jget "data" j ;; d <- jget_key address data ;; a <- jget "address" d ;;
         b <- jget "balance" a ;; jint b).

(* repo: bit/network/services.py:150-160, 181-191, 241-261, 284-304: the loops over the
   pages; k is the number of rounds left *)
Fixpoint blockchair_pages {A} (k : nat) (items : json -> result (list A)) (url address : pystr) (offset : Z) (response : json)
    (acc : list A) : IO (Net E) (list A) :=
  match k with
  | O => iret acc
  | S k =>
      new <~ ilift (items response) ;;
      r <~ http_get url (offset_params (offset + 1000) 1000) ;;
      _ <~ ilift (ok_status r) ;;
      response <~ ilift (j <- r_json r ;; data <- jget "data" j ;; jget_key address data) ;;
      blockchair_pages k items url address (offset + 1000) response (acc ++ new)
  end.
(** while total > 0: ...; total -= 1000 *)
Definition pages_of (total per_page : Z) : nat := Z.to_nat ((total + per_page - 1) / per_page).

(* repo: bit/network/services.py:132-193 get_transactions *)
Definition blockchair_transactions (n : net) (address : pystr) : IO (Net E) (list pystr) :=
  r <~ http_get (blockchair_address n address) (offset_params 0 1000) ;;
  if r_status r =? 404 then iret []
  else
    _ <~ ilift (ok_status r) ;;
    ' (response, total) <~ ilift (j <- r_json r ;; data <- jget "data" j ;; d <- jget_key address data ;;
                               a <- jget "address" d ;; t <- jget "transaction_count" a ;; t <- jint t ;; Ok (d, t)) ;;
    blockchair_pages (pages_of total 1000) (fun d => l <- jget "transactions" d ;; l <- jlist l ;; mapM jstr l)
      (blockchair_address n address) address 0 response [].

(* repo: bit/network/services.py:194-218 get_transaction_by_id *)
Definition blockchair_by_id (n : net) (txid : pystr) : IO (Net E) (option pystr) :=
  r <~ http_get (blockchair_endpoint n ++ str "raw/transaction/" ++ txid) [] ;;
  if r_status r =? 404 then iret None
  else
    _ <~ ilift (ok_status r) ;;
    ilift (j <- r_json r ;; data <- jget "data" j ;;
           if negb (jtrue data) then Ok None
           else t <- jget_key txid data ;; x <- jget "raw_transaction" t ;; rmap Some (jstr x)).

(* repo: bit/network/services.py:220-304 get_unspent; None on status 404 *)
Definition blockchair_utxo (height : Z) (script : pystr) (utxo : json) : result Unspent :=
  value <- jget "value" utxo ;; value <- jint value ;;
  block <- jget "block_id" utxo ;; block <- jint block ;;
  txid <- jget "transaction_hash" utxo ;; txid <- jstr txid ;;
  index <- jget "index" utxo ;; index <- jint index ;;
  Ok (plain_unspent value (if negb (block =? -1) then height - block + 1 else 0) script txid index).
Definition blockchair_unspent (n : net) (address : pystr) : IO (Net E) (option (list Unspent)) :=
  r <~ http_get (blockchair_address n address) (offset_params 0 1000) ;;
  if r_status r =? 404 then iret None
  else
    _ <~ ilift (ok_status r) ;;
    ' (response, height, script, total) <~ ilift (
      j <- r_json r ;; c <- jget "context" j ;; h <- jget "state" c ;; h <- jint h ;;
      data <- jget "data" j ;; d <- jget_key address data ;;
      a <- jget "address" d ;; s <- jget "script_hex" a ;; s <- jstr s ;;
      t <- jget "unspent_output_count" a ;; t <- jint t ;; Ok (d, h, s, t)) ;;
    l <~ blockchair_pages (pages_of total 1000) (fun d => l <- jget "utxo" d ;; l <- jlist l ;; mapM (blockchair_utxo height script) l)
           (blockchair_address n address) address 0 response [] ;;
    iret (Some l).

(** post and compare the status with 200 *)
Definition push (url : pystr) (body : content) : IO (Net E) bool :=
  r <~ http_post url body ;; iret (r_status r =? 200).
(* repo: bit/network/services.py:306-316 *)
Definition blockchair_broadcast (n : net) (tx_hex : pystr) : IO (Net E) bool :=
  push (blockchair_endpoint n ++ str "push/transaction") (Form [(str "data", tx_hex)]).

(** ** BlockstreamAPI *)

(* repo: bit/network/services.py:320-330 *)
Definition blockstream_endpoint (n : net) : pystr :=
  match n with Main => str "https://blockstream.info/api/" | Test => str "https://blockstream.info/testnet/api/" end.
Definition blockstream_address (n : net) (address : pystr) : pystr := blockstream_endpoint n ++ str "address/" ++ address.

(* repo: bit/network/services.py:332-350 get_balance *)
Definition blockstream_balance (n : net) (address : pystr) : IO (Net E) Z :=
  r <~ http_get (blockstream_address n address) [] ;;
  _ <~ ilift (ok_status r) ;;
  ilift (j <- r_json r ;; c <- jget "chain_stats" j ;; cf <- jget "funded_txo_sum" c ;; cf <- jint cf ;;
         m <- jget "mempool_stats" j ;; mf <- jget "funded_txo_sum" m ;; mf <- jint mf ;;
         cs <- jget "spent_txo_sum" c ;; cs <- jint cs ;; ms <- jget "spent_txo_sum" m ;; ms <- jint ms ;;
         Ok (cf + mf - (cs + ms))).

Definition txids_of (j : json) : result (list pystr) :=
  l <- jlist j ;; mapM (fun t => x <- jget "txid" t ;; jstr x) l.
(* repo: bit/network/services.py:388-392, 415-419: the loop; the status of later pages is not looked at *)
Fixpoint blockstream_pages (k : nat) (n : net) (address : pystr) (response : json) (acc : list pystr) : IO (Net E) (list pystr) :=
  match k with
  | O => ilift (Raise Diverges)
  | S k =>
      l <~ ilift (jlist response) ;;
      match l with
      | [] => iret acc
      | _ =>
          new <~ ilift (txids_of response) ;;
          r <~ http_get (blockstream_address n address ++ str "/txs/chain/" ++ last (acc ++ new) []) [] ;;
          response <~ ilift (r_json r) ;;
          blockstream_pages k n address response (acc ++ new)
      end
  end.
(* repo: bit/network/services.py:352-421 get_transactions, get_transactions_testnet *)
Definition blockstream_transactions (n : net) (address : pystr) : IO (Net E) (list pystr) :=
  let confirmed :=
    r <~ http_get (blockstream_address n address ++ str "/txs/chain/") [] ;;
    if r_status r =? 400 then iret None
    else
      _ <~ ilift (ok_status r) ;;
      response <~ ilift (r_json r) ;;
      l <~ blockstream_pages rounds n address response [] ;;
      iret (Some l) in
  match n with
  | Main =>
      r <~ http_get (blockstream_address n address ++ str "/txs/mempool") [] ;;
      if r_status r =? 400 then iret []
      else
        _ <~ ilift (ok_status r) ;;
        unconfirmed <~ ilift (j <- r_json r ;; txids_of j) ;;
        if zlen unconfirmed =? 50 then ilift (Raise ExcessiveAddress)
        else l <~ confirmed ;; iret (match l with Some l => l ++ unconfirmed | None => [] end)
  | Test => l <~ confirmed ;; iret (match l with Some l => l | None => [] end)
  end.

(* repo: bit/network/services.py:423-439 get_transaction_by_id *)
Definition blockstream_by_id (n : net) (txid : pystr) : IO (Net E) (option pystr) :=
  r <~ http_get (blockstream_endpoint n ++ str "tx/" ++ txid ++ str "/hex") [] ;;
  if r_status r =? 404 then iret None else _ <~ ilift (ok_status r) ;; iret (Some (r_text r)).

(** sorted(l, key=lambda u: u.confirmations) *)
Fixpoint insert_conf (u : Unspent) (l : list Unspent) : list Unspent :=
  match l with
  | [] => [u]
  | v :: r => if u_confirmations u <=? u_confirmations v then u :: l else v :: insert_conf u r
  end.
Definition sort_conf (l : list Unspent) : list Unspent := fold_right insert_conf [] l.

(** int(s) of the text of a response: a sign and digits, which single underscores
    may separate, between white space.  Of the digits only those of ASCII. *)
Fixpoint grouped (after_digit : bool) (s : pystr) : option pystr :=
  match s with
  | [] => if after_digit then Some [] else None
  | c :: r =>
      if is_digit c then option_map (cons c) (grouped true r)
      else if after_digit && (c =? 95) then grouped false r else None
  end.
Definition int_of_text (s : pystr) : result Z :=
  let '(neg, ds) := sign_of (strip s) in
  match grouped false ds with
  | Some ds => Ok (if neg then - num ds else num ds)
  | None => Raise ValueError
  end.
Definition blockstream_utxo (height : Z) (script : pystr) (tx : json) : result Unspent :=
  value <- jget "value" tx ;; value <- jint value ;;
  status <- jget "status" tx ;; confirmed <- jget "confirmed" status ;;
  conf <- (if jtrue confirmed then b <- jget "block_height" status ;; b <- jint b ;; Ok (height - b + 1) else Ok 0) ;;
  txid <- jget "txid" tx ;; txid <- jstr txid ;;
  vout <- jget "vout" tx ;; vout <- jint vout ;;
  Ok (plain_unspent value conf script txid vout).
(* repo: bit/network/services.py:441-499 get_unspent, get_unspent_testnet *)
Definition blockstream_unspent (n : net) (address : pystr) : IO (Net E) (list Unspent) :=
  b <~ http_get (blockstream_endpoint n ++ str "blocks/tip/height") [] ;;
  _ <~ ilift (ok_status b) ;;
  height <~ ilift (int_of_text (r_text b)) ;;
  r <~ http_get (blockstream_address n address ++ str "/utxo") [] ;;
  let rest :=
    _ <~ ilift (ok_status r) ;;
    ilift (o <- address_to_scriptpubkey address ;;
           script <- (match o with Some b => Ok (bytes_to_hex b) | None => Raise AttributeError end) ;;
           j <- r_json r ;; l <- jlist j ;; us <- mapM (blockstream_utxo height script) l ;;
           Ok (match n with Main => sort_conf us | Test => us end)) in
  match n with
  | Main => if (r_status r =? 400) && list_eqb (r_text r) (str "Too many history entries")
            then ilift (Raise ExcessiveAddress) else rest
  | Test => if r_status r =? 400 then iret [] else rest
  end.

(* repo: bit/network/services.py:501-509 *)
Definition blockstream_broadcast (n : net) (tx_hex : pystr) : IO (Net E) bool :=
  push (blockstream_endpoint n ++ str "tx") (Form [(str "data", tx_hex)]).

(** ** BitcoreAPI (its inherited get_transactions and get_transaction_by_id are not used by NetworkAPI) *)

(* repo: bit/network/services.py:569-584 *)
Definition bitcore_endpoint (n : net) : pystr :=
  match n with Main => str "https://api.bitcore.io/api/BTC/mainnet/" | Test => str "https://api.bitcore.io/api/BTC/testnet/" end.

(* repo: bit/network/services.py:614-624 get_balance *)
Definition bitcore_balance (n : net) (address : pystr) : IO (Net E) Z :=
  r <~ http_get (bitcore_endpoint n ++ str "address/" ++ address ++ str "/balance") [] ;;
  _ <~ ilift (raise_for_status r) ;;
  ilift (j <- r_json r ;; b <- jget "balance" j ;; jint b).

Definition bitcore_utxo (prec : Z) (tx : json) : result Unspent :=
  value <- jget "value" tx ;; value <- unit_to_satoshi prec value SATOSHI ;;
  confirmations <- jget "confirmations" tx ;; confirmations <- jint confirmations ;;
  script <- jget "script" tx ;; script <- jstr script ;;
  txid <- jget "mintTxid" tx ;; txid <- jstr txid ;;
  index <- jget "mintIndex" tx ;; index <- jint index ;;
  Ok (plain_unspent value confirmations script txid index).
(* repo: bit/network/services.py:597-612, 638-652: the loop *)
Fixpoint bitcore_pages (k : nat) (url : pystr) (response : json) (acc : list Unspent) : IO (Net E) (list Unspent) :=
  match k with
  | O => ilift (Raise Diverges)
  | S k =>
      l <~ ilift (jlist response) ;;
      match l with
      | [] => iret acc
      | _ =>
          g <~ globals ;;
          new <~ ilift (mapM (bitcore_utxo (g_prec g)) l) ;;
          id <~ ilift (x <- jget "_id" (last l JNull) ;; jstr x) ;;
          r <~ http_get (url ++ str "&since=" ++ id) [] ;;
          response <~ ilift (r_json r) ;;
          bitcore_pages k url response (acc ++ new)
      end
  end.
(* repo: bit/network/services.py:585-612, 626-653 get_unspent *)
Definition bitcore_unspent (n : net) (address : pystr) : IO (Net E) (list Unspent) :=
  let url := bitcore_endpoint n ++ str "address/" ++ address ++ str "/?unspent=true&limit=100" in
  r <~ http_get url [] ;;
  _ <~ ilift (ok_status r) ;;
  response <~ ilift (r_json r) ;;
  bitcore_pages rounds url response [].

(* repo: bit/network/services.py:560-563, 655-662 *)
Definition bitcore_broadcast (n : net) (tx_hex : pystr) : IO (Net E) bool :=
  push (bitcore_endpoint n ++ str "tx/send")
    (match n with Main => Form [(str "rawTx", tx_hex)]
                | Test => JsonBody [(str "rawTx", tx_hex); (str "network", str "testnet"); (str "coin", str "BCH")] end).

(** ** SmartbitAPI *)

(* repo: bit/network/services.py:748-758 *)
Definition smartbit_endpoint (n : net) : pystr :=
  match n with Main => str "https://api.smartbit.com.au/v1/blockchain/" | Test => str "https://testnet-api.smartbit.com.au/v1/blockchain/" end.
Definition smartbit_address (n : net) (address : pystr) : pystr := smartbit_endpoint n ++ str "address/" ++ address.

(* repo: bit/network/services.py:760-772 get_balance *)
Definition smartbit_balance (n : net) (address : pystr) : IO (Net E) Z :=
  r <~ http_get (smartbit_address n address) [(str "limit", str "1")] ;;
  _ <~ ilift (ok_status r) ;;
  ilift (j <- r_json r ;; a <- jget "address" j ;; t <- jget "total" a ;; b <- jget "balance_int" t ;; jint b).

Definition limit1000 : list (pystr * pystr) := [(str "limit", str "1000")].
(* repo: bit/network/services.py:791-797, 827-833, 872-887, 917-932: the loops over the links *)
Fixpoint smartbit_pages {A} (k : nat) (page : json -> result (list A * json)) (params : list (pystr * pystr)) (next_link : json)
    (acc : list A) : IO (Net E) (list A) :=
  match k with
  | O => ilift (Raise Diverges)
  | S k =>
      if negb (jtrue next_link) then iret acc
      else
        url <~ ilift (jstr next_link) ;;
        r <~ http_get url params ;;
        _ <~ ilift (ok_status r) ;;
        ' (new, next_link) <~ ilift (j <- r_json r ;; page j) ;;
        smartbit_pages k page params next_link (acc ++ new)
  end.
Definition smartbit_txs (j : json) : result (list pystr * json) :=
  a <- jget "address" j ;; l <- jget "transactions" a ;; ids <- txids_of l ;;
  p <- jget "transaction_paging" a ;; next <- jget "next_link" p ;; Ok (ids, next).
(* repo: bit/network/services.py:774-799, 810-835 get_transactions *)
Definition smartbit_transactions (n : net) (address : pystr) : IO (Net E) (list pystr) :=
  r <~ http_get (smartbit_address n address) limit1000 ;;
  _ <~ ilift (ok_status r) ;;
  ' (first, next_link) <~ ilift (j <- r_json r ;; a <- jget "address" j ;; has <- jhas "transactions" a ;;
                             if has then smartbit_txs j else Ok ([], JNull)) ;;
  smartbit_pages rounds smartbit_txs (match n with Main => [] | Test => limit1000 end) next_link first.

(* repo: bit/network/services.py:801-808, 837-844 get_transaction_by_id *)
Definition smartbit_by_id (n : net) (txid : pystr) : IO (Net E) (option pystr) :=
  r <~ http_get (smartbit_endpoint n ++ str "tx/" ++ txid ++ str "/hex?limit=1000") [] ;;
  if r_status r =? 400 then iret None
  else
    _ <~ ilift (ok_status r) ;;
    ilift (j <- r_json r ;; h <- jget "hex" j ;; l <- jlist h ;; x <- py_index l 0 ;; h <- jget "hex" x ;; rmap Some (jstr h)).

Definition smartbit_utxo (prec : Z) (tx : json) : result Unspent :=
  value <- jget "value" tx ;; value <- unit_to_satoshi prec value BTC ;;
  confirmations <- jget "confirmations" tx ;; confirmations <- jint confirmations ;;
  s <- jget "script_pub_key" tx ;; script <- jget "hex" s ;; script <- jstr script ;;
  txid <- jget "txid" tx ;; txid <- jstr txid ;;
  index <- jget "n" tx ;; index <- jint index ;;
  Ok (plain_unspent value confirmations script txid index).
Definition smartbit_utxos (prec : Z) (j : json) : result (list Unspent * json) :=
  l <- jget "unspent" j ;; l <- jlist l ;; us <- mapM (smartbit_utxo prec) l ;;
  p <- jget "paging" j ;; next <- jget "next_link" p ;; Ok (us, next).
(* repo: bit/network/services.py:846-934 get_unspent *)
Definition smartbit_unspent (n : net) (address : pystr) : IO (Net E) (list Unspent) :=
  r <~ http_get (smartbit_address n address ++ str "/unspent") limit1000 ;;
  _ <~ ilift (ok_status r) ;;
  g <~ globals ;;
  ' (first, next_link) <~ ilift (j <- r_json r ;; has <- jhas "unspent" j ;;
                             if has then smartbit_utxos (g_prec g) j else Ok ([], JNull)) ;;
  smartbit_pages rounds (smartbit_utxos (g_prec g)) limit1000 next_link first.

(* repo: bit/network/services.py:936-944 *)
Definition smartbit_broadcast (n : net) (tx_hex : pystr) : IO (Net E) bool :=
  push (smartbit_endpoint n ++ str "pushtx") (JsonBody [(str "hex", tx_hex)]).

(** ** BlockchainAPI (main network only) *)

Definition blockchain_endpoint : pystr := str "https://blockchain.info/".
Definition blockchain_address (address : pystr) : pystr := blockchain_endpoint ++ str "address/" ++ address ++ str "?format=json".
(* repo: bit/network/services.py:673-678 get_balance *)
Definition blockchain_balance (address : pystr) : IO (Net E) Z :=
  r <~ http_get (blockchain_address address ++ str "&limit=0") [] ;;
  _ <~ ilift (ok_status r) ;;
  ilift (j <- r_json r ;; b <- jget "final_balance" j ;; jint b).

(* repo: bit/network/services.py:695-701: the loop; the status of later pages is not looked at *)
Fixpoint blockchain_pages (k : nat) (url : pystr) (offset : Z) (response : json) (acc : list pystr) : IO (Net E) (list pystr) :=
  match k with
  | O => iret acc
  | S k =>
      new <~ ilift (l <- jget "txs" response ;; l <- jlist l ;; mapM (fun t => x <- jget "hash" t ;; jstr x) l) ;;
      r <~ http_get url [(str "offset", str_of_int (offset + 50))] ;;
      response <~ ilift (r_json r) ;;
      blockchain_pages k url (offset + 50) response (acc ++ new)
  end.
(* repo: bit/network/services.py:680-703 get_transactions *)
Definition blockchain_transactions (address : pystr) : IO (Net E) (list pystr) :=
  r <~ http_get (blockchain_address address) [(str "offset", str_of_int 0)] ;;
  _ <~ ilift (ok_status r) ;;
  ' (response, total) <~ ilift (j <- r_json r ;; t <- jget "n_tx" j ;; t <- jint t ;; Ok (j, t)) ;;
  blockchain_pages (pages_of total 50) (blockchain_address address) 0 response [].

(* repo: bit/network/services.py:705-712 get_transaction_by_id *)
Definition blockchain_by_id (txid : pystr) : IO (Net E) (option pystr) :=
  r <~ http_get (blockchain_endpoint ++ str "rawtx/" ++ txid ++ str "?limit=0&format=hex") [] ;;
  if (r_status r =? 500) && list_eqb (r_text r) (str "Transaction not found") then iret None
  else _ <~ ilift (ok_status r) ;; iret (Some (r_text r)).

Definition blockchain_utxo (tx : json) : result Unspent :=
  value <- jget "value" tx ;; value <- jint value ;;
  confirmations <- jget "confirmations" tx ;; confirmations <- jint confirmations ;;
  script <- jget "script" tx ;; script <- jstr script ;;
  txid <- jget "tx_hash_big_endian" tx ;; txid <- jstr txid ;;
  index <- jget "tx_output_n" tx ;; index <- jint index ;;
  Ok (plain_unspent value confirmations script txid index).
(* repo: bit/network/services.py:714-739 get_unspent *)
Definition blockchain_unspent (address : pystr) : IO (Net E) (list Unspent) :=
  r <~ http_get (blockchain_endpoint ++ str "unspent") ((str "active", address) :: offset_params 0 1000) ;;
  if r_status r =? 500 then iret []
  else
    _ <~ ilift (ok_status r) ;;
    us <~ ilift (j <- r_json r ;; l <- jget "unspent_outputs" j ;; l <- jlist l ;; mapM blockchain_utxo l) ;;
    if zlen us =? 1000 then ilift (Raise ExcessiveAddress) else iret (rev us).

(* repo: bit/network/services.py:741-744 *)
Definition blockchain_broadcast (tx_hex : pystr) : IO (Net E) bool := push (blockchain_endpoint ++ str "pushtx") (Form [(str "tx", tx_hex)]).

(** ** NetworkAPI *)

(* repo: bit/network/services.py:948-954 IGNORED_ERRORS *)
Definition net_ignored (e : exc) : bool :=
  match e with ConnectionError | ReqConnectionError | ReqTimeout | ExcessiveAddress => true | _ => false end.

(* repo: bit/network/services.py:956-1017: the lists at import.  BlockchainAPI has
   no methods for the test network and is in no list for it. *)
Definition initial_main : Apis :=
  mkApis [Blockchair; Blockstream; Bitcore; Smartbit; BlockchainInfo]
         [Blockchair; Blockstream; Smartbit; BlockchainInfo]
         [Blockchair; Blockstream; Smartbit; BlockchainInfo]
         [Blockstream; Blockchair; Smartbit; BlockchainInfo; Bitcore]
         [Blockchair; Blockstream; Bitcore; Smartbit; BlockchainInfo].
Definition initial_test : Apis :=
  mkApis [Blockchair; Blockstream; Bitcore; Smartbit]
         [Blockchair; Blockstream; Smartbit]
         [Blockchair; Blockstream; Smartbit]
         [Blockstream; Blockchair; Smartbit; Bitcore]
         [Blockchair; Blockstream; Bitcore; Smartbit].

(* repo: bit/network/rates.py:11, 606-609, bit/network/fees.py:11, 35-40: the state at
   import, at the clock readings rates_at and fees_at; 28 is decimal's default precision *)
Definition initial_globals (rates_at fees_at : Z) : Globals :=
  mkGlobals 28 (map (fun p => (fst p, (None, rates_at))) CURRENCY_PRECISION) 60 None fees_at None fees_at 600 initial_main initial_test (Some 10).

(** The methods by service; the combinations that are in no list (and do not
    exist in the code) raise AttributeError. *)
Definition call_balance (n : net) (address : pystr) (s : service) : IO (Net E) Z :=
  match s, n with
  | Node url, _ => node_balance url address
  | Blockchair, _ => blockchair_balance n address
  | Blockstream, _ => blockstream_balance n address
  | Bitcore, _ => bitcore_balance n address
  | Smartbit, _ => smartbit_balance n address
  | BlockchainInfo, Main => blockchain_balance address
  | BlockchainInfo, Test => ilift (Raise AttributeError)
  end.
Definition call_transactions (n : net) (address : pystr) (s : service) : IO (Net E) (list pystr) :=
  match s, n with
  | Node url, _ => node_transactions url address
  | Blockchair, _ => blockchair_transactions n address
  | Blockstream, _ => blockstream_transactions n address
  | Smartbit, _ => smartbit_transactions n address
  | BlockchainInfo, Main => blockchain_transactions address
  | Bitcore, _ | BlockchainInfo, Test => ilift (Raise AttributeError)
  end.
Definition call_by_id (n : net) (txid : pystr) (s : service) : IO (Net E) (option pystr) :=
  match s, n with
  | Node url, _ => node_by_id url txid
  | Blockchair, _ => blockchair_by_id n txid
  | Blockstream, _ => blockstream_by_id n txid
  | Smartbit, _ => smartbit_by_id n txid
  | BlockchainInfo, Main => blockchain_by_id txid
  | Bitcore, _ | BlockchainInfo, Test => ilift (Raise AttributeError)
  end.
Definition call_unspent (n : net) (address : pystr) (s : service) : IO (Net E) (option (list Unspent)) :=
  let some (m : IO (Net E) (list Unspent)) := l <~ m ;; iret (Some l) in
  match s, n with
  | Node url, _ => some (node_unspent url address)
  | Blockchair, _ => blockchair_unspent n address
  | Blockstream, _ => some (blockstream_unspent n address)
  | Bitcore, _ => some (bitcore_unspent n address)
  | Smartbit, _ => some (smartbit_unspent n address)
  | BlockchainInfo, Main => some (blockchain_unspent address)
  | BlockchainInfo, Test => ilift (Raise AttributeError)
  end.
Definition call_broadcast (n : net) (tx_hex : pystr) (s : service) : IO (Net E) bool :=
  match s, n with
  | Node url, _ => node_broadcast url tx_hex
  | Blockchair, _ => blockchair_broadcast n tx_hex
  | Blockstream, _ => blockstream_broadcast n tx_hex
  | Bitcore, _ => bitcore_broadcast n tx_hex
  | Smartbit, _ => smartbit_broadcast n tx_hex
  | BlockchainInfo, Main => blockchain_broadcast tx_hex
  | BlockchainInfo, Test => ilift (Raise AttributeError)
  end.

(* repo: bit/network/services.py:1060-1204: the getters.  get_unspent may return None. *)
Definition get_balance (n : net) (address : pystr) : IO (Net E) Z :=
  g <~ globals ;; first_working net_ignored (map (call_balance n address) (a_balance (apis n g))).
Definition get_transactions (n : net) (address : pystr) : IO (Net E) (list pystr) :=
  g <~ globals ;; first_working net_ignored (map (call_transactions n address) (a_transactions (apis n g))).
Definition get_transaction_by_id (n : net) (txid : pystr) : IO (Net E) (option pystr) :=
  g <~ globals ;; first_working net_ignored (map (call_by_id n txid) (a_by_id (apis n g))).
Definition get_unspent (n : net) (address : pystr) : IO (Net E) (option (list Unspent)) :=
  g <~ globals ;; first_working net_ignored (map (call_unspent n address) (a_unspent (apis n g))).

(* repo: bit/network/services.py:1206-1252 broadcast_tx: both ends of the loop raise
   ConnectionError, with different messages *)
Fixpoint broadcast_loop (calls : list (IO (Net E) bool)) : IO (Net E) unit :=
  match calls with
  | [] => ilift (Raise ConnectionError)
  | call :: r =>
      done <~ itry call (fun e => if net_ignored e then iret false else ilift (Raise e)) ;;
      if done then iret tt else broadcast_loop r
  end.
Definition broadcast_tx (n : net) (tx_hex : pystr) : IO (Net E) unit :=
  g <~ globals ;; broadcast_loop (map (call_broadcast n tx_hex) (a_broadcast (apis n g))).

(* repo: bit/network/services.py:22-28 RPCHost.__init__: the URL; use_https stands for its truth value *)
Definition node_url (user password host : pystr) (port : Z) (use_https : bool) (path : pystr) : pystr :=
  str "http" ++ (if use_https then str "s" else []) ++ str "://" ++ user ++ str ":" ++ password ++ str "@" ++ host ++
  str ":" ++ str_of_int port ++ str "/" ++ path.
(* repo: bit/network/services.py:1019-1058 connect_to_node *)
Definition connect_to_node (user password host : pystr) (port : Z) (use_https testnet : bool) (path : pystr) : IO (Net E) pystr :=
  let node := node_url user password host port use_https path in
  let s := [Node node] in
  _ <~ modify_globals (set_apis (if testnet then Test else Main) (mkApis s s s s s)) ;;
  iret node.

End WithOutside.
