(** Model of bit/network/rates.py. *)
From Coq Require Import String.
From Verif Require Export M_network.

(* repo: bit/constants.py:48-51 *)
Definition SATOSHI : Z := 1.
Definition uBTC : Z := 10 ^ 2.
Definition mBTC : Z := 10 ^ 5.
Definition BTC : Z := 10 ^ 8.

(* repo: bit/network/rates.py:48-74 CURRENCY_PRECISION; SUPPORTED_CURRENCIES and
   EXCHANGE_RATES have the same keys *)
Definition CURRENCY_PRECISION : list (pystr * Z) :=
  map (fun p => (str (fst p), snd p))
  [("satoshi", 0); ("ubtc", 2); ("mbtc", 5); ("btc", 8); ("usd", 2); ("eur", 2); ("gbp", 2); ("jpy", 0); ("cny", 2);
   ("cad", 2); ("aud", 2); ("nzd", 2); ("rub", 2); ("brl", 2); ("chf", 2); ("sek", 2); ("dkk", 2); ("isk", 2); ("pln", 2);
   ("hkd", 2); ("krw", 0); ("sgd", 2); ("thb", 2); ("twd", 2); ("clp", 0)]%string.
Definition precision_of (currency : pystr) : result Z :=
  match find (fun p => list_eqb (fst p) currency) CURRENCY_PRECISION with Some p => Ok (snd p) | None => Raise KeyError end.

Section WithOutside.
Context {E : Type} {OU : Outside E}.

(* repo: bit/network/rates.py:106-112 BitpayRates.currency_to_satoshi; headers not modelled *)
Definition bitpay_rate (currency : pystr) : IO (Net E) Z :=
  r <~ get_untimed (str "https://bitpay.com/rates/BTC/" ++ currency) ;;
  _ <~ ilift (raise_for_status r) ;;
  g <~ globals ;;
  ilift (j <- r_json r ;; data <- jget "data" j ;; rate <- jget "rate" data ;;
         d <- Decimal (jtext rate) ;;
         x <- dec_div (g_prec g) (dec_of_int 1) d ;;
         y <- dec_mul (g_prec g) x (dec_of_int BTC) ;;
         dec_to_int y).

(* repo: bit/network/rates.py:202-207 BlockchainRates.currency_to_satoshi *)
Definition blockchain_rate (currency : pystr) : IO (Net E) Z :=
  r <~ get_untimed (str "https://blockchain.info/tobtc?currency=" ++ currency ++ str "&value=1") ;;
  _ <~ ilift (raise_for_status r) ;;
  g <~ globals ;;
  ilift (d <- Decimal (r_text r) ;; y <- dec_mul (g_prec g) d (dec_of_int BTC) ;; dec_to_int y).

(* repo: bit/network/rates.py:299 RatesAPI.IGNORED_ERRORS *)
Definition rates_ignored (e : exc) : bool :=
  match e with ReqConnectionError | HTTPError | ReqTimeout => true | _ => false end.

(* repo: bit/network/rates.py:82-95, 301-581 EXCHANGE_RATES[currency](); the 21
   methods for other currencies are alike (spelled out in M_methods.v) *)
Definition exchange_rate (currency : pystr) : IO (Net E) Z :=
  if list_eqb currency (str "satoshi") then iret SATOSHI
  else if list_eqb currency (str "ubtc") then iret uBTC
  else if list_eqb currency (str "mbtc") then iret mBTC
  else if list_eqb currency (str "btc") then iret BTC
  else _ <~ ilift (precision_of currency) ;;
       first_working rates_ignored [bitpay_rate currency; blockchain_rate (upper currency)].

(** int(satoshis * Decimal(amount)) *)
Definition times_amount (prec satoshis : Z) (amount : pystr) : result Z :=
  d <- Decimal amount ;; x <- dec_mul prec (dec_of_int satoshis) d ;; dec_to_int x.

(* repo: bit/network/rates.py:584-595 currency_to_satoshi; the amount is given by
   its str() *)
Definition currency_to_satoshi (amount currency : pystr) : IO (Net E) Z :=
  satoshis <~ exchange_rate currency ;;
  g <~ globals ;;
  ilift (times_amount (g_prec g) satoshis amount).

Fixpoint cache_set (currency : pystr) (x : option Z * Z) (c : RateCache) : RateCache :=
  match c with
  | [] => []
  | (k, y) :: r => if list_eqb k currency then (k, x) :: r else (k, y) :: cache_set currency x r
  end.

(* repo: bit/network/rates.py:606-642 currency_to_satoshi_cached *)
Definition currency_to_satoshi_cached (amount currency : pystr) : IO (Net E) Z :=
  now <~ outside o_time ;;
  g <~ globals ;;
  match find (fun p => list_eqb (fst p) currency) (g_rates g) with
  | None => ilift (Raise KeyError)
  | Some (_, (satoshis, last_update)) =>
      satoshis <~ (match satoshis with
                   | Some s => if (s =? 0) || (now - last_update >? g_rate_time g)
                               then x <~ exchange_rate currency ;;
                                    _ <~ modify_globals (fun g => set_rates (cache_set currency (Some x, now) (g_rates g)) g) ;;
                                    iret x
                               else iret s
                   | None => x <~ exchange_rate currency ;;
                             _ <~ modify_globals (fun g => set_rates (cache_set currency (Some x, now) (g_rates g)) g) ;;
                             iret x
                   end) ;;
      g <~ globals ;;
      ilift (times_amount (g_prec g) satoshis amount)
  end.

(** '{:f}'.format(Decimal(num / Decimal(rate)).quantize(...).normalize()); the
    inner Decimal() reads back the str() of a Decimal, which changes nothing *)
Definition show_amount (prec num rate places : Z) : result pystr :=
  x <- dec_div prec (dec_of_int num) (dec_of_int rate) ;;
  y <- quantize_down prec x places ;;
  z <- normalize prec y ;;
  Ok (format_f z).

(* repo: bit/network/rates.py:645-659 satoshi_to_currency *)
Definition satoshi_to_currency (num : Z) (currency : pystr) : IO (Net E) pystr :=
  rate <~ exchange_rate currency ;;
  places <~ ilift (precision_of currency) ;;
  g <~ globals ;;
  ilift (show_amount (g_prec g) num rate places).

(* repo: bit/network/rates.py:662-677 satoshi_to_currency_cached *)
Definition satoshi_to_currency_cached (num : Z) (currency : pystr) : IO (Net E) pystr :=
  rate <~ currency_to_satoshi_cached (str "1") currency ;;
  places <~ ilift (precision_of currency) ;;
  g <~ globals ;;
  ilift (show_amount (g_prec g) num rate places).

End WithOutside.
