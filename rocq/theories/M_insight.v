(** Model of bit/network/services.py: InsightAPI, and what BitcoreAPI inherits of it
    (NetworkAPI uses broadcast_tx only, which is in M_services). *)
From Coq Require Import String.
From Verif Require Export M_services.

(** str.format with one argument.  The fields {} and {0}; other fields are not
    modelled (an error here). *)
Fixpoint fmt (used : bool) (template arg : pystr) : result pystr :=
  match template with
  | [] => Ok []
  | c :: r =>
      if c =? 123 then
        match r with
        | d :: r2 =>
            if d =? 123 then s <- fmt used r2 arg ;; Ok (123 :: s)
            else if d =? 125 then (if used then Raise IndexError else s <- fmt true r2 arg ;; Ok (arg ++ s))
            else Raise ValueError
        | [] => Raise ValueError
        end
      else if c =? 125 then
        match r with
        | d :: r2 => if d =? 125 then s <- fmt used r2 arg ;; Ok (125 :: s) else Raise ValueError
        | [] => Raise ValueError
        end
      else s <- fmt used r arg ;; Ok (c :: s)
  end.
Definition format1 (template arg : pystr) : result pystr := fmt false template arg.

(* repo: bit/network/services.py:513-519: the attributes of the class that are used *)
Record Insight := mkInsight {
  i_address : pystr; i_balance : pystr; i_unspent : pystr; i_push : pystr; i_tx : pystr; i_param : pystr
}.
(* repo: bit/network/services.py:569-584 *)
Definition bitcore : Insight :=
  let endpoint := str "https://api.bitcore.io/api/BTC/mainnet/" in
  mkInsight (endpoint ++ str "address/{}") (endpoint ++ str "address/{}" ++ str "/balance") (endpoint ++ str "address/{}" ++ str "/?unspent=true")
    (endpoint ++ str "tx/send") (endpoint ++ str "tx/{}") (str "rawTx").

Section WithOutside.
Context {E : Type} {OU : Outside E}.
(* repo: bit/network/services.py:521-526 get_balance: the JSON as it is *)
Definition insight_balance (I : Insight) (address : pystr) : IO (Net E) json :=
  url <~ ilift (format1 (i_balance I) address) ;;
  r <~ http_get url [] ;;
  _ <~ ilift (ok_status r) ;;
  ilift (r_json r).
(* repo: bit/network/services.py:528-533 get_transactions: the JSON as it is *)
Definition insight_transactions (I : Insight) (address : pystr) : IO (Net E) json :=
  r <~ http_get (i_address I ++ address) [] ;;
  _ <~ ilift (ok_status r) ;;
  ilift (j <- r_json r ;; jget "transactions" j).
(* repo: bit/network/services.py:535-542 get_transaction_by_id *)
Definition insight_by_id (I : Insight) (txid : pystr) : IO (Net E) (option json) :=
  r <~ http_get (i_tx I ++ txid) [] ;;
  if r_status r =? 404 then iret None
  else _ <~ ilift (ok_status r) ;;
       ilift (j <- r_json r ;; x <- jget "rawtx" j ;; Ok (Some x)).
(* repo: bit/network/services.py:549-558: one coin; fields of other kinds are errors *)
Definition insight_utxo (prec : Z) (tx : json) : result Unspent :=
  amount <- jget "amount" tx ;; amount <- unit_to_satoshi prec amount BTC ;;
  confirmations <- jget "confirmations" tx ;; confirmations <- jint confirmations ;;
  script <- jget "scriptPubKey" tx ;; script <- jstr script ;;
  txid <- jget "txid" tx ;; txid <- jstr txid ;;
  vout <- jget "vout" tx ;; vout <- jint vout ;;
  Ok (plain_unspent amount confirmations script txid vout).
(* repo: bit/network/services.py:544-558 get_unspent *)
Definition insight_unspent (I : Insight) (address : pystr) : IO (Net E) (list Unspent) :=
  url <~ ilift (format1 (i_unspent I) address) ;;
  r <~ http_get url [] ;;
  _ <~ ilift (ok_status r) ;;
  j <~ ilift (r_json r) ;;
  l <~ ilift (jlist j) ;;
  g <~ globals ;;
  ilift (mapM (insight_utxo (g_prec g)) l).
(* repo: bit/network/services.py:560-563 broadcast_tx *)
Definition insight_broadcast (I : Insight) (tx_hex : pystr) : IO (Net E) bool :=
  r <~ http_post (i_push I) (Form [(i_param I, tx_hex)]) ;; iret (r_status r =? 200).
End WithOutside.
