(** Model of bit/network/fees.py. *)
From Coq Require Import String.
From Verif Require Export M_network.

(* repo: bit/network/fees.py:9-10 *)
Definition DEFAULT_FEE_FAST : Z := 72.
Definition DEFAULT_FEE_HOUR : Z := 62.

Section WithOutside.
Context {E : Type} {OU : Outside E}.

Definition fee_url : pystr := str "https://mempool.space/api/v1/fees/recommended".
Definition fee_key (fast : bool) : string := if fast then "fastestFee" else "hourFee".

(* repo: bit/network/fees.py:20-32 get_fee *)
Definition get_fee (fast : bool) : IO (Net E) Z :=
  r <~ get_untimed fee_url ;; ilift (j <- r_json r ;; x <- jget (fee_key fast) j ;; jint x).

(** except (ConnectionError, HTTPError, Timeout), all of requests *)
Definition fee_ignored (e : exc) : bool :=
  match e with ReqConnectionError | HTTPError | ReqTimeout => true | _ => false end.

(* repo: bit/network/fees.py:35-115 get_fee_local_cache, get_fee_local_cached,
   get_fee_cached: the wrapper, whose two branches are alike; the cached value None or 0 is false.  Logging is not modelled. *)
Definition get_fee_cached (fast : bool) : IO (Net E) Z :=
  now <~ outside o_time ;;
  g <~ globals ;;
  let cached := if fast then g_fast g else g_hour g in
  let last_update := if fast then g_fast_at g else g_hour_at g in
  let fetch :=
    itry (r <~ get_untimed fee_url ;;
          _ <~ ilift (raise_for_status r) ;;
          x <~ ilift (j <- r_json r ;; x <- jget (fee_key fast) j ;; jint x) ;;
          _ <~ modify_globals (if fast then set_fast (Some x) now else set_hour (Some x) now) ;;
          iret x)
         (fun e => if fee_ignored e
                   then iret (match cached with None => if fast then DEFAULT_FEE_FAST else DEFAULT_FEE_HOUR | Some c => c end)
                   else ilift (Raise e)) in
  match cached with
  | Some c => if (c =? 0) || (now - last_update >? g_fee_time g) then fetch else iret c
  | None => fetch
  end.

End WithOutside.
