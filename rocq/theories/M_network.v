(** The process-wide state of bit.network, and what it reaches outside. *)
From Coq Require Import String.
From Verif Require Export M_io M_format M_decimal.

(** ** JSON values, as json.loads returns them *)
(** A float is given by its repr() and by its exact value (the two agree for a
    real float; nothing is assumed about them). *)
Inductive json :=
| JNull | JBool (b : bool) | JInt (n : Z) | JFloat (repr : pystr) (exact : dec) | JStr (s : pystr)
| JList (l : list json) | JObj (fields : list (pystr * json)).

(** j[key] for a string key *)
Definition jget (key : string) (j : json) : result json :=
  match j with
  | JObj fields => match find (fun p => list_eqb (fst p) (str key)) fields with Some p => Ok (snd p) | None => Raise KeyError end
  | _ => Raise TypeError
  end.
Definition jget_key (key : pystr) (j : json) : result json :=
  match j with
  | JObj fields => match find (fun p => list_eqb (fst p) key) fields with Some p => Ok (snd p) | None => Raise KeyError end
  | _ => Raise TypeError
  end.
(** key in j for a string key: a name of an object, an element of a list or a part
    of a string *)
Fixpoint begins (prefix s : pystr) : bool :=
  match prefix, s with
  | [], _ => true
  | c :: p, d :: r => (c =? d) && begins p r
  | _ :: _, [] => false
  end.
Fixpoint contains (part s : pystr) : bool :=
  begins part s || match s with [] => false | _ :: r => contains part r end.
Definition jhas (key : string) (j : json) : result bool :=
  match j with
  | JObj fields => Ok (existsb (fun p => list_eqb (fst p) (str key)) fields)
  | JList l => Ok (existsb (fun x => match x with JStr s => list_eqb s (str key) | _ => false end) l)
  | JStr s => Ok (contains (str key) s)
  | _ => Raise TypeError
  end.
(** Values of one kind.  The code stores most values without looking at their
    kind; the model raises TypeError when it is not the documented one. *)
Definition jint (j : json) : result Z := match j with JInt n => Ok n | _ => Raise TypeError end.
Definition jstr (j : json) : result pystr := match j with JStr s => Ok s | _ => Raise TypeError end.
Definition jlist (j : json) : result (list json) := match j with JList l => Ok l | _ => Raise TypeError end.
(** [if x] *)
Definition jtrue (j : json) : bool :=
  match j with JNull | JBool false | JInt 0 | JStr [] | JList [] | JObj [] => false | JFloat _ (Fin _ 0 _) => false | _ => true end.
(** str(j), as far as Decimal can read it *)
Definition jtext (j : json) : pystr :=
  match j with JInt n => str_of_int n | JFloat r _ => r | JStr s => s | _ => str "?" end.
(** decimal.Decimal(j): exact for a float *)
Definition jdec (j : json) : result dec :=
  match j with JInt n => Ok (dec_of_int n) | JFloat _ d => Ok d | JStr s => parse_dec s | _ => Raise TypeError end.

(** ** The outside *)
Record Response := mkResp { r_status : Z; r_text : pystr; r_json : result json }.

(** What requests.post sends: data= a form, json= an object, of the same fields *)
Inductive content := Form (fields : list (pystr * pystr)) | JsonBody (fields : list (pystr * pystr)).

(** E is the state of everything outside the process.  A request may raise. *)
Class Outside (E : Type) := {
  (* requests.get(url, params, timeout), where None means no time-out; headers are not modelled *)
  o_get : pystr -> list (pystr * pystr) -> option Z -> IO E Response;
  (* requests.post(url, data or json, timeout) *)
  o_post : pystr -> content -> option Z -> IO E Response;
  (* Session.post(url, json.dumps of method and params, timeout) *)
  o_rpc : pystr -> pystr -> list json -> option Z -> IO E Response;
  (* time.time(), in any unit; the rounding of float subtraction is not modelled *)
  o_time : IO E Z
}.

(** ** Module and class attributes *)

(** The services that NetworkAPI may call; a node is given by its URL. *)
Inductive service := Blockchair | Blockstream | Bitcore | Smartbit | BlockchainInfo | Node (url : pystr).

(* repo: bit/network/services.py:956-1017: the lists of one network *)
Record Apis := mkApis {
  a_balance : list service; a_transactions : list service; a_by_id : list service;
  a_unspent : list service; a_broadcast : list service
}.

(* repo: bit/network/rates.py:598-610 the cache: satoshis and last_update of a currency *)
Definition RateCache := list (pystr * (option Z * Z)).

Record Globals := mkGlobals {
  g_prec : Z;                                    (* decimal.getcontext().prec *)
  g_rates : RateCache; g_rate_time : Z;          (* repo: bit/network/rates.py:11, 606-610 *)
  g_fast : option Z; g_fast_at : Z;              (* repo: bit/network/fees.py:37, 39 *)
  g_hour : option Z; g_hour_at : Z;              (* repo: bit/network/fees.py:38, 40 *)
  g_fee_time : Z;                                (* repo: bit/network/fees.py:11 *)
  g_main : Apis; g_test : Apis;
  g_timeout : option Z                           (* repo: bit/network/services.py:13 DEFAULT_TIMEOUT; None is no time-out *)
}.
Definition set_prec p g := mkGlobals p (g_rates g) (g_rate_time g) (g_fast g) (g_fast_at g) (g_hour g) (g_hour_at g) (g_fee_time g) (g_main g) (g_test g) (g_timeout g).
Definition set_rates r g := mkGlobals (g_prec g) r (g_rate_time g) (g_fast g) (g_fast_at g) (g_hour g) (g_hour_at g) (g_fee_time g) (g_main g) (g_test g) (g_timeout g).
Definition set_fast f at_ g := mkGlobals (g_prec g) (g_rates g) (g_rate_time g) f at_ (g_hour g) (g_hour_at g) (g_fee_time g) (g_main g) (g_test g) (g_timeout g).
Definition set_hour f at_ g := mkGlobals (g_prec g) (g_rates g) (g_rate_time g) (g_fast g) (g_fast_at g) f at_ (g_fee_time g) (g_main g) (g_test g) (g_timeout g).
Definition set_apis n a g :=
  match n with
  | Main => mkGlobals (g_prec g) (g_rates g) (g_rate_time g) (g_fast g) (g_fast_at g) (g_hour g) (g_hour_at g) (g_fee_time g) a (g_test g) (g_timeout g)
  | Test => mkGlobals (g_prec g) (g_rates g) (g_rate_time g) (g_fast g) (g_fast_at g) (g_hour g) (g_hour_at g) (g_fee_time g) (g_main g) a (g_timeout g)
  end.
(* repo: bit/network/rates.py:77-79 set_rate_cache_time, bit/network/fees.py:15-17 set_fee_cache_time *)
Definition set_rate_cache_time seconds g := mkGlobals (g_prec g) (g_rates g) seconds (g_fast g) (g_fast_at g) (g_hour g) (g_hour_at g) (g_fee_time g) (g_main g) (g_test g) (g_timeout g).
Definition set_fee_cache_time seconds g := mkGlobals (g_prec g) (g_rates g) (g_rate_time g) (g_fast g) (g_fast_at g) (g_hour g) (g_hour_at g) seconds (g_main g) (g_test g) (g_timeout g).
(* repo: bit/network/services.py:16-18 set_service_timeout *)
Definition set_service_timeout seconds g := mkGlobals (g_prec g) (g_rates g) (g_rate_time g) (g_fast g) (g_fast_at g) (g_hour g) (g_hour_at g) (g_fee_time g) (g_main g) (g_test g) seconds.
Definition apis (n : net) (g : Globals) : Apis := match n with Main => g_main g | Test => g_test g end.

Section WithOutside.
Context {E : Type} {OU : Outside E}.

Record Net := mkNet { n_globals : Globals; n_outside : E }.
Definition outside {A} (m : IO E A) : IO Net A := zoom n_outside (fun e s => mkNet (n_globals s) e) m.
Definition globals : IO Net Globals := s <~ iget ;; iret (n_globals s).
Definition modify_globals (f : Globals -> Globals) : IO Net unit := s <~ iget ;; iput (mkNet (f (n_globals s)) (n_outside s)).

(** requests.get(..., timeout=DEFAULT_TIMEOUT), the form used in services.py; the
    time-out is the one of the moment *)
Definition http_get (url : pystr) (params : list (pystr * pystr)) : IO Net Response :=
  fun s => outside (o_get url params (g_timeout (n_globals s))) s.
Definition http_post (url : pystr) (body : content) : IO Net Response :=
  fun s => outside (o_post url body (g_timeout (n_globals s))) s.
(** requests.get(...), the form used in rates.py and fees.py *)
Definition get_untimed (url : pystr) : IO Net Response := outside (o_get url [] None).
(** Response.raise_for_status *)
Definition raise_for_status (r : Response) : result unit :=
  if (400 <=? r_status r) && (r_status r <? 600) then Raise HTTPError else Ok tt.

(* repo: bit/network/rates.py:324-331 etc., bit/network/services.py:1070-1076 etc.:
   the loop over the services *)
Fixpoint first_working {A} (ignored : exc -> bool) (calls : list (IO Net A)) : IO Net A :=
  match calls with
  | [] => ilift (Raise ConnectionError)
  | call :: r => itry call (fun e => if ignored e then first_working ignored r else ilift (Raise e))
  end.

End WithOutside.
Arguments Net E : clear implicits.
