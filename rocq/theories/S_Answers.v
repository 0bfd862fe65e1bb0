(** Specification: what an answer of a service says, whatever its shape (C97, C98). *)
From Coq Require Import String.
From Verif Require Import M_services S_Requests S_Numeral.

(** ** Following names in a JSON value *)
(** j[k1][k2]... is w.  (Parsed objects have no name twice; if one had, the first
    field of that name counts.) *)
Inductive Walk : list pystr -> json -> json -> Prop :=
| W_here j : Walk [] j j
| W_field k path before v after w : (forall x, ~ In (k, x) before) -> Walk path v w ->
    Walk (k :: path) (JObj (before ++ (k, v) :: after)) w.
(** On the way there is an object without the name. *)
Definition Missing (path : list pystr) (j : json) : Prop := exists front k back fields,
  path = front ++ k :: back /\ Walk front j (JObj fields) /\ forall x, ~ In (k, x) fields.
(** On the way there is something without names. *)
Definition Nameless (path : list pystr) (j : json) : Prop := exists front k back w,
  path = front ++ k :: back /\ Walk front j w /\ forall fields, w <> JObj fields.
Definition names (l : list string) : list pystr := map str l.

(** ** Balances: the fields in the order in which they are read, and the sum *)
Definition balance_fields (address : pystr) (sv : service) : list (list pystr) :=
  match sv with
  | Blockchair => [[str "data"; address; str "address"; str "balance"]]
  | Blockstream => map names [["chain_stats"; "funded_txo_sum"]; ["mempool_stats"; "funded_txo_sum"];
                              ["chain_stats"; "spent_txo_sum"]; ["mempool_stats"; "spent_txo_sum"]]%string
  | Bitcore => [names ["balance"]]%string
  | Smartbit => [names ["address"; "total"; "balance_int"]]%string
  | BlockchainInfo => [names ["final_balance"]]%string
  | Node _ => [names ["result"]]%string
  end.
Definition balance_value (l : list Z) : Z := match l with [v] => v | [a; b; c; d] => a - c + (b - d) | _ => 0 end.
Definition balance_request (n : net) (address : pystr) (sv : service) : pystr * list (pystr * pystr) :=
  match sv, n with
  | Blockchair, Main => (str "https://api.blockchair.com/bitcoin/dashboards/address/" ++ address, [])
  | Blockchair, Test => (str "https://api.blockchair.com/bitcoin/testnet/dashboards/address/" ++ address, [])
  | Blockstream, Main => (str "https://blockstream.info/api/address/" ++ address, [])
  | Blockstream, Test => (str "https://blockstream.info/testnet/api/address/" ++ address, [])
  | Bitcore, Main => (str "https://api.bitcore.io/api/BTC/mainnet/address/" ++ address ++ str "/balance", [])
  | Bitcore, Test => (str "https://api.bitcore.io/api/BTC/testnet/address/" ++ address ++ str "/balance", [])
  | Smartbit, Main => (str "https://api.smartbit.com.au/v1/blockchain/address/" ++ address, [(str "limit", str "1")])
  | Smartbit, Test => (str "https://testnet-api.smartbit.com.au/v1/blockchain/address/" ++ address, [(str "limit", str "1")])
  | BlockchainInfo, _ => (str "https://blockchain.info/address/" ++ address ++ str "?format=json&limit=0", [])
  | Node url, _ => (url, [])
  end.

(** What a node says before it comes to the result: an error, no result, or nothing
    that has names. *)
Inductive NodeFails (j : json) : exc -> Prop :=
| NF_error v : Walk (names ["error"]%string) j v -> v <> JNull -> NodeFails j BitcoinNodeException
| NF_missing : (Missing (names ["error"]%string) j \/ Walk (names ["error"]%string) j JNull) -> Missing (names ["result"]%string) j -> NodeFails j KeyError
| NF_nameless : (forall fields, j <> JObj fields) -> NodeFails j TypeError.

(** j does not mention the name: no field of an object, no element of a list, no
    part of a text. *)
Definition Unmentioned (k : string) (j : json) : Prop :=
  match j with
  | JObj fields => forall x, ~ In (str k, x) fields
  | JList l => ~ In (JStr (str k)) l
  | JStr s => forall before after, s <> before ++ str k ++ after
  | _ => False
  end.

(** ** Coins *)
Definition coin_list (address : pystr) (sv : service) : list pystr :=
  match sv with
  | Blockchair => [str "data"; address; str "utxo"]
  | Blockstream | Bitcore => []
  | Smartbit => names ["unspent"]%string
  | BlockchainInfo => names ["unspent_outputs"]%string
  | Node _ => names ["result"]%string
  end.
Definition txid_field (sv : service) : string :=
  match sv with Blockchair => "transaction_hash" | Bitcore => "mintTxid" | BlockchainInfo => "tx_hash_big_endian" | _ => "txid" end%string.
Definition index_field (sv : service) : string :=
  match sv with Blockchair => "index" | Blockstream | Node _ => "vout" | Bitcore => "mintIndex" | Smartbit => "n" | BlockchainInfo => "tx_output_n" end%string.
Definition amount_field (sv : service) : string := match sv with Node _ => "amount" | _ => "value" end%string.
Definition script_field (sv : service) : list string :=
  match sv with Smartbit => ["script_pub_key"; "hex"] | Node _ => ["scriptPubKey"] | _ => ["script"] end%string.

(** Values that count as false. *)
Definition Falsy (j : json) : Prop := In j [JNull; JBool false; JInt 0; JStr []; JList []; JObj []] \/ exists r neg e, j = JFloat r (Fin neg 0 e).

Section WithOutside.
Context {CR : Crypto} {E : Type} {OU : Outside E}.

(** An answer in the log, and its JSON. *)
Definition Got (l : Log) (r : Response) : Prop := exists url, In (url, Ok r) l.
Definition Seen (l : Log) (j : json) : Prop := exists r, Got l r /\ r_json r = Ok j.

(** The amount: a number of satoshi, or a text or number in satoshi or bitcoin that
    currency_to_satoshi converts. *)
Definition AmountSaid (g : Globals) (sv : service) (v : json) (amount : Z) : Prop :=
  match sv with
  | Bitcore => forall e : E, currency_to_satoshi (jtext v) (str "satoshi") (mkNet g e) = (Ok amount, mkNet g e)
  | Smartbit | Node _ => forall e : E, currency_to_satoshi (jtext v) (str "btc") (mkNet g e) = (Ok amount, mkNet g e)
  | _ => v = JInt amount
  end.
(** The script: said with the coin, said of the address, or that of the address. *)
Definition ScriptSaid (address : pystr) (sv : service) (l : Log) (x : json) (script : pystr) : Prop :=
  match sv with
  | Blockchair => exists j, Seen l j /\ Walk [str "data"; address; str "address"; str "script_hex"] j (JStr script)
  | Blockstream => exists b, address_to_scriptpubkey address = Ok (Some b) /\ script = bytes_to_hex b
  | _ => Walk (names (script_field sv)) x (JStr script)
  end.
(** The confirmations: said, or counted from the height of the last block. *)
Definition ConfirmationsSaid (sv : service) (l : Log) (x : json) (n : Z) : Prop :=
  match sv with
  | Blockchair => exists j h b, Seen l j /\ Walk (names ["context"; "state"]%string) j (JInt h) /\ Walk (names ["block_id"]%string) x (JInt b) /\
      n = if b =? -1 then 0 else h - b + 1
  | Blockstream => exists c, Walk (names ["status"; "confirmed"]%string) x c /\
      ((Falsy c /\ n = 0) \/
       (~ Falsy c /\ exists r h b, Got l r /\ ReadsInt h (r_text r) /\ Walk (names ["status"; "block_height"]%string) x (JInt b) /\ n = h - b + 1))
  | _ => Walk (names ["confirmations"]%string) x (JInt n)
  end.
Definition CoinSaid (g : Globals) (address : pystr) (sv : service) (l : Log) (u : Unspent) : Prop := exists j coins x v,
  Seen l j /\ Walk (coin_list address sv) j (JList coins) /\ In x coins /\
  Walk (names [txid_field sv]) x (JStr (u_txid u)) /\ Walk (names [index_field sv]) x (JInt (u_txindex u)) /\
  Walk (names [amount_field sv]) x v /\ AmountSaid g sv v (u_amount u) /\
  ScriptSaid address sv l x (u_script u) /\ ConfirmationsSaid sv l x (u_confirmations u) /\
  u_type u = P2PKH /\ u_vsize u = 4 * 148 /\ u_segwit u = Some false /\ u_sequence u = 4294967295.

(** ** Histories *)
Definition TxidSaid (address : pystr) (sv : service) (l : Log) (t : pystr) : Prop := exists j txs,
  Seen l j /\
  match sv with
  | Blockchair => Walk [str "data"; address; str "transactions"] j (JList txs) /\ In (JStr t) txs
  | Blockstream => j = JList txs /\ exists x, In x txs /\ Walk (names ["txid"]%string) x (JStr t)
  | Smartbit => Walk (names ["address"; "transactions"]%string) j (JList txs) /\ exists x, In x txs /\ Walk (names ["txid"]%string) x (JStr t)
  | BlockchainInfo => Walk (names ["txs"]%string) j (JList txs) /\ exists x, In x txs /\ Walk (names ["hash"]%string) x (JStr t)
  | Node _ => exists x r, Walk (names ["result"]%string) j (JList (x :: r)) /\ Walk (names ["txids"]%string) x (JList txs) /\ In (JStr t) txs
  | Bitcore => False
  end.
(** ** Transactions by id *)
Definition RawSaid (txid : pystr) (sv : service) (l : Log) (raw : pystr) : Prop := exists r,
  Got l r /\
  match sv with
  | Blockchair => exists j, r_json r = Ok j /\ Walk [str "data"; txid; str "raw_transaction"] j (JStr raw)
  | Blockstream | BlockchainInfo => raw = r_text r
  | Smartbit => exists j x rest, r_json r = Ok j /\ Walk (names ["hex"]%string) j (JList (x :: rest)) /\ Walk (names ["hex"]%string) x (JStr raw)
  | Node _ => exists j, r_json r = Ok j /\ Walk (names ["result"]%string) j (JStr raw)
  | Bitcore => False
  end.
End WithOutside.
