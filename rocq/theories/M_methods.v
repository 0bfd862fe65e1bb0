(** Model of the methods that rates.py and services.py spell out one by one. *)
From Coq Require Import String.
From Verif Require Export M_rates M_services.

Definition named {A} (table : list (string * A)) (name : string) : option A :=
  match find (fun p => String.eqb (fst p) name) table with Some p => Some (snd p) | None => None end.

(* repo: bit/network/rates.py:114-196 BitpayRates: what each method gives to
   currency_to_satoshi *)
Definition BitpayRates : list (string * string) :=
  [("usd_to_satoshi", "usd"); ("eur_to_satoshi", "eur"); ("gbp_to_satoshi", "gbp"); ("jpy_to_satoshi", "jpy");
   ("cny_to_satoshi", "cny"); ("hkd_to_satoshi", "hkd"); ("cad_to_satoshi", "cad"); ("aud_to_satoshi", "aud");
   ("nzd_to_satoshi", "nzd"); ("rub_to_satoshi", "rub"); ("brl_to_satoshi", "brl"); ("chf_to_satoshi", "chf");
   ("sek_to_satoshi", "sek"); ("dkk_to_satoshi", "dkk"); ("isk_to_satoshi", "isk"); ("pln_to_satoshi", "pln");
   ("krw_to_satoshi", "krw"); ("clp_to_satoshi", "clp"); ("sgd_to_satoshi", "sgd"); ("thb_to_satoshi", "thb");
   ("twd_to_satoshi", "twd")]%string.
(* repo: bit/network/rates.py:209-291 BlockchainRates, likewise *)
Definition BlockchainRates : list (string * string) :=
  [("usd_to_satoshi", "USD"); ("eur_to_satoshi", "EUR"); ("gbp_to_satoshi", "GBP"); ("jpy_to_satoshi", "JPY");
   ("cny_to_satoshi", "CNY"); ("hkd_to_satoshi", "HKD"); ("cad_to_satoshi", "CAD"); ("aud_to_satoshi", "AUD");
   ("nzd_to_satoshi", "NZD"); ("rub_to_satoshi", "RUB"); ("brl_to_satoshi", "BRL"); ("chf_to_satoshi", "CHF");
   ("sek_to_satoshi", "SEK"); ("dkk_to_satoshi", "DKK"); ("isk_to_satoshi", "ISK"); ("pln_to_satoshi", "PLN");
   ("krw_to_satoshi", "KRW"); ("clp_to_satoshi", "CLP"); ("sgd_to_satoshi", "SGD"); ("thb_to_satoshi", "THB");
   ("twd_to_satoshi", "TWD")]%string.
(* repo: bit/network/rates.py:301-321 RatesAPI: the lists of methods *)
Inductive rate_service := Bitpay | BlockchainInfo.
Definition RatesLists : list (string * list (rate_service * string)) :=
  [("USD_RATES", [(Bitpay, "usd_to_satoshi"); (BlockchainInfo, "usd_to_satoshi")]);
   ("EUR_RATES", [(Bitpay, "eur_to_satoshi"); (BlockchainInfo, "eur_to_satoshi")]);
   ("GBP_RATES", [(Bitpay, "gbp_to_satoshi"); (BlockchainInfo, "gbp_to_satoshi")]);
   ("JPY_RATES", [(Bitpay, "jpy_to_satoshi"); (BlockchainInfo, "jpy_to_satoshi")]);
   ("CNY_RATES", [(Bitpay, "cny_to_satoshi"); (BlockchainInfo, "cny_to_satoshi")]);
   ("HKD_RATES", [(Bitpay, "hkd_to_satoshi"); (BlockchainInfo, "hkd_to_satoshi")]);
   ("CAD_RATES", [(Bitpay, "cad_to_satoshi"); (BlockchainInfo, "cad_to_satoshi")]);
   ("AUD_RATES", [(Bitpay, "aud_to_satoshi"); (BlockchainInfo, "aud_to_satoshi")]);
   ("NZD_RATES", [(Bitpay, "nzd_to_satoshi"); (BlockchainInfo, "nzd_to_satoshi")]);
   ("RUB_RATES", [(Bitpay, "rub_to_satoshi"); (BlockchainInfo, "rub_to_satoshi")]);
   ("BRL_RATES", [(Bitpay, "brl_to_satoshi"); (BlockchainInfo, "brl_to_satoshi")]);
   ("CHF_RATES", [(Bitpay, "chf_to_satoshi"); (BlockchainInfo, "chf_to_satoshi")]);
   ("SEK_RATES", [(Bitpay, "sek_to_satoshi"); (BlockchainInfo, "sek_to_satoshi")]);
   ("DKK_RATES", [(Bitpay, "dkk_to_satoshi"); (BlockchainInfo, "dkk_to_satoshi")]);
   ("ISK_RATES", [(Bitpay, "isk_to_satoshi"); (BlockchainInfo, "isk_to_satoshi")]);
   ("PLN_RATES", [(Bitpay, "pln_to_satoshi"); (BlockchainInfo, "pln_to_satoshi")]);
   ("KRW_RATES", [(Bitpay, "krw_to_satoshi"); (BlockchainInfo, "krw_to_satoshi")]);
   ("CLP_RATES", [(Bitpay, "clp_to_satoshi"); (BlockchainInfo, "clp_to_satoshi")]);
   ("SGD_RATES", [(Bitpay, "sgd_to_satoshi"); (BlockchainInfo, "sgd_to_satoshi")]);
   ("THB_RATES", [(Bitpay, "thb_to_satoshi"); (BlockchainInfo, "thb_to_satoshi")]);
   ("TWD_RATES", [(Bitpay, "twd_to_satoshi"); (BlockchainInfo, "twd_to_satoshi")])]%string.
(* repo: bit/network/rates.py:323-551 RatesAPI: the list that each method goes
   through *)
Definition RatesAPI : list (string * string) :=
  [("usd_to_satoshi", "USD_RATES"); ("eur_to_satoshi", "EUR_RATES"); ("gbp_to_satoshi", "GBP_RATES"); ("jpy_to_satoshi", "JPY_RATES");
   ("cny_to_satoshi", "CNY_RATES"); ("hkd_to_satoshi", "HKD_RATES"); ("cad_to_satoshi", "CAD_RATES"); ("aud_to_satoshi", "AUD_RATES");
   ("nzd_to_satoshi", "NZD_RATES"); ("rub_to_satoshi", "RUB_RATES"); ("brl_to_satoshi", "BRL_RATES"); ("chf_to_satoshi", "CHF_RATES");
   ("sek_to_satoshi", "SEK_RATES"); ("dkk_to_satoshi", "DKK_RATES"); ("isk_to_satoshi", "ISK_RATES"); ("pln_to_satoshi", "PLN_RATES");
   ("krw_to_satoshi", "KRW_RATES"); ("clp_to_satoshi", "CLP_RATES"); ("sgd_to_satoshi", "SGD_RATES"); ("thb_to_satoshi", "THB_RATES");
   ("twd_to_satoshi", "TWD_RATES")]%string.
(* repo: bit/network/rates.py:555-581 EXCHANGE_RATES; left: the functions of lines
   82-95, right: methods of RatesAPI *)
Definition EXCHANGE_RATES : list (string * (string + string)) :=
  [("satoshi", inl "satoshi_to_satoshi"); ("ubtc", inl "ubtc_to_satoshi"); ("mbtc", inl "mbtc_to_satoshi"); ("btc", inl "btc_to_satoshi");
   ("usd", inr "usd_to_satoshi"); ("eur", inr "eur_to_satoshi"); ("gbp", inr "gbp_to_satoshi"); ("jpy", inr "jpy_to_satoshi");
   ("cny", inr "cny_to_satoshi"); ("cad", inr "cad_to_satoshi"); ("aud", inr "aud_to_satoshi"); ("nzd", inr "nzd_to_satoshi");
   ("rub", inr "rub_to_satoshi"); ("brl", inr "brl_to_satoshi"); ("chf", inr "chf_to_satoshi"); ("sek", inr "sek_to_satoshi");
   ("dkk", inr "dkk_to_satoshi"); ("isk", inr "isk_to_satoshi"); ("pln", inr "pln_to_satoshi"); ("hkd", inr "hkd_to_satoshi");
   ("krw", inr "krw_to_satoshi"); ("sgd", inr "sgd_to_satoshi"); ("thb", inr "thb_to_satoshi"); ("twd", inr "twd_to_satoshi");
   ("clp", inr "clp_to_satoshi")]%string.
(* repo: bit/network/rates.py:82-95 *)
Definition unit_functions : list (string * Z) :=
  [("satoshi_to_satoshi", SATOSHI); ("ubtc_to_satoshi", uBTC); ("mbtc_to_satoshi", mBTC); ("btc_to_satoshi", BTC)]%string.
(* repo: bit/network/rates.py:17-45 SUPPORTED_CURRENCIES *)
Definition SUPPORTED_CURRENCIES : list (string * string) :=
  [("satoshi", "Satoshi"); ("ubtc", "Microbitcoin"); ("mbtc", "Millibitcoin"); ("btc", "Bitcoin");
   ("usd", "United States Dollar"); ("eur", "Eurozone Euro"); ("gbp", "Pound Sterling"); ("jpy", "Japanese Yen");
   ("cny", "Chinese Yuan"); ("cad", "Canadian Dollar"); ("aud", "Australian Dollar"); ("nzd", "New Zealand Dollar");
   ("rub", "Russian Ruble"); ("brl", "Brazilian Real"); ("chf", "Swiss Franc"); ("sek", "Swedish Krona");
   ("dkk", "Danish Krone"); ("isk", "Icelandic Krona"); ("pln", "Polish Zloty"); ("hkd", "Hong Kong Dollar");
   ("krw", "South Korean Won"); ("sgd", "Singapore Dollar"); ("thb", "Thai Baht"); ("twd", "New Taiwan Dollar");
   ("clp", "Chilean Peso")]%string.

Section WithOutside.
Context {E : Type} {OU : Outside E}.
(** BitpayRates.name(), BlockchainRates.name(); AttributeError if there is none *)
Definition rate_method (m : rate_service * string) : IO (Net E) Z :=
  match fst m with
  | Bitpay => match named BitpayRates (snd m) with Some a => bitpay_rate (str a) | None => ilift (Raise AttributeError) end
  | BlockchainInfo => match named BlockchainRates (snd m) with Some a => blockchain_rate (str a) | None => ilift (Raise AttributeError) end
  end.
(** RatesAPI.name() *)
Definition rates_api (name : string) : IO (Net E) Z :=
  match named RatesAPI name with
  | Some l => match named RatesLists l with
              | Some calls => first_working rates_ignored (map rate_method calls)
              | None => ilift (Raise AttributeError)
              end
  | None => ilift (Raise AttributeError)
  end.
(** EXCHANGE_RATES[currency]() *)
Definition spelled_rate (currency : pystr) : IO (Net E) Z :=
  match find (fun p => list_eqb (str (fst p)) currency) EXCHANGE_RATES with
  | Some (_, inl f) => match named unit_functions f with Some x => iret x | None => ilift (Raise AttributeError) end
  | Some (_, inr m) => rates_api m
  | None => ilift (Raise KeyError)
  end.
End WithOutside.
