(** Model of json.loads, and of prepare_transaction and sign_transaction with the
    texts they pass on. *)
From Coq Require Import String.
From Verif Require Export M_json M_wallet.

(** ** json.loads (Modules/_json.c, Lib/json/decoder.py)
    Not modelled: the limits on nesting and on the length of integers. *)

(** float() of a text.  Exact for texts that count in quarters, of at most 15 digits
    before the point; what any others are rounded to is left open. *)
Class Floats := { rounded : pystr -> pystr * dec }.

Definition is_blank (c : Z) : bool := (c =? 32) || (c =? 9) || (c =? 10) || (c =? 13).
Fixpoint skip (s : pystr) : pystr := match s with c :: r => if is_blank c then skip r else s | [] => [] end.

(** _parse_object and others take strings apart here: scanstring with strict=True.
    [None] is a JSONDecodeError.  Every round reads a character, so [length s] + 1
    rounds are enough. *)
Definition hex4 (s : pystr) : option (Z * pystr) :=
  match s with
  | a :: b :: c :: d :: r =>
      match hex_val a, hex_val b, hex_val c, hex_val d with
      | Some a, Some b, Some c, Some d => Some (4096 * a + 256 * b + 16 * c + d, r)
      | _, _, _, _ => None
      end
  | _ => None
  end.
Definition letter (e : Z) : option Z :=
  if e =? 34 then Some 34 else if e =? 92 then Some 92 else if e =? 47 then Some 47 else if e =? 98 then Some 8
  else if e =? 102 then Some 12 else if e =? 110 then Some 10 else if e =? 114 then Some 13 else if e =? 116 then Some 9 else None.
Definition with_char (c : Z) (x : option (pystr * pystr)) : option (pystr * pystr) :=
  match x with Some (s, r) => Some (c :: s, r) | None => None end.
Definition high (u : Z) : bool := (55296 <=? u) && (u <? 56320).
Definition low (u : Z) : bool := (56320 <=? u) && (u <? 57344).
(** After the backslash and u: the character and the rest. *)
Definition unicode_escape (s : pystr) : option (Z * pystr) :=
  match hex4 s with
  | None => None
  | Some (u, r) =>
      if high u
      then match r with
           | b :: c :: r2 =>
               if (b =? 92) && (c =? 117)
               then match hex4 r2 with
                    | None => None
                    | Some (v, r3) => if low v then Some (65536 + 1024 * (u - 55296) + (v - 56320), r3) else Some (u, r)
                    end
               else Some (u, r)
           | _ => Some (u, r)
           end
      else Some (u, r)
  end.
Fixpoint scanstring (fuel : nat) (s : pystr) : option (pystr * pystr) :=
  match fuel with
  | O => None
  | S f =>
      match s with
      | [] => None
      | c :: r =>
          if c =? 34 then Some ([], r)
          else if c =? 92
          then match r with
               | [] => None
               | e :: r2 =>
                   if e =? 117 then match unicode_escape r2 with Some (x, r3) => with_char x (scanstring f r3) | None => None end
                   else match letter e with Some x => with_char x (scanstring f r2) | None => None end
               end
          else if c <? 32 then None
          else with_char c (scanstring f r)
      end
  end.
Definition read_string (s : pystr) : option (pystr * pystr) := scanstring (S (length s)) s.

Section WithFloats.
Context {FL : Floats}.

(** _match_number_unicode.  A point or an e that no digit follows is left. *)
Definition fraction (s : pystr) : pystr * pystr :=
  match s with
  | c :: r => if c =? 46 then match span_digits r with ([], _) => ([], s) | (ds, t) => (ds, t) end else ([], s)
  | [] => ([], [])
  end.
Definition exponent (s : pystr) : pystr * pystr :=
  match s with
  | c :: r =>
      if (c =? 101) || (c =? 69)
      then let '(sg, r) := match r with x :: r' => if (x =? 43) || (x =? 45) then ([x], r') else ([], r) | [] => ([], r) end in
           match span_digits r with ([], _) => ([], s) | (ds, t) => (c :: sg ++ ds, t) end
      else ([], s)
  | [] => ([], [])
  end.
Definition float_of (neg : bool) (i f x : pystr) : json :=
  let text := (if neg then [45] else []) ++ i ++ (match f with [] => [] | _ => 46 :: f end) ++ x in
  let other := let '(r, d) := rounded text in JFloat r d in
  match neg, x with
  | false, [] =>
      if zlen i <=? 15
      then if list_eqb f (str "0") then JFloat text (Fin false (num i) 0)
           else if list_eqb f (str "5") then JFloat text (Fin false (num (i ++ f)) (-1))
           else if list_eqb f (str "25") || list_eqb f (str "75") then JFloat text (Fin false (num (i ++ f)) (-2))
           else other
      else other
  | _, _ => other
  end.
Definition read_number (s : pystr) : option (json * pystr) :=
  let '(neg, s) := match s with c :: r => if c =? 45 then (true, r) else (false, s) | [] => (false, s) end in
  let '(i, s) := match s with c :: r => if c =? 48 then ([48], r) else span_digits s | [] => ([], []) end in
  match i with
  | [] => None
  | _ =>
      let '(f, s) := fraction s in
      let '(x, s) := exponent s in
      match f, x with
      | [], [] => Some (JInt (if neg then - num i else num i), s)
      | _, _ => Some (float_of neg i f x, s)
      end
  end.
(** The constants of scan_once, with those that JSON does not have. *)
Definition constants : list (pystr * json) :=
  [(str "null", JNull); (str "true", JBool true); (str "false", JBool false); (str "NaN", JFloat (str "nan") (NaN false));
   (str "Infinity", JFloat (str "inf") (Inf false)); (str "-Infinity", JFloat (str "-inf") (Inf true))].

(** scan_once, _parse_array and _parse_object.  From a list or object to its elements
    at least one character is read, so twice the length and some is enough. *)
Fixpoint value (fuel : nat) (s : pystr) : option (json * pystr) :=
  match fuel with
  | O => None
  | S k =>
      match s with
      | [] => None
      | c :: r =>
          if c =? 34 then match read_string r with Some (x, r) => Some (JStr x, r) | None => None end
          else if c =? 123
          then match skip r with
               | [] => None
               | d :: r2 => if d =? 125 then Some (JObj [], r2) else match members k (d :: r2) with Some (l, r) => Some (JObj l, r) | None => None end
               end
          else if c =? 91
          then match skip r with
               | [] => None
               | d :: r2 => if d =? 93 then Some (JList [], r2) else match elements k (d :: r2) with Some (l, r) => Some (JList l, r) | None => None end
               end
          else match find (fun p => begins (fst p) s) constants with
               | Some (t, j) => Some (j, skipn (length t) s)
               | None => read_number s
               end
      end
  end
with elements (fuel : nat) (s : pystr) : option (list json * pystr) :=
  match fuel with
  | O => None
  | S k =>
      match value k s with
      | None => None
      | Some (v, r) =>
          match skip r with
          | [] => None
          | c :: r =>
              if c =? 93 then Some ([v], r)
              else if c =? 44 then match elements k (skip r) with Some (l, r) => Some (v :: l, r) | None => None end
              else None
          end
      end
  end
with members (fuel : nat) (s : pystr) : option (list (pystr * json) * pystr) :=
  match fuel with
  | O => None
  | S k =>
      match s with
      | [] => None
      | q :: r =>
          if negb (q =? 34) then None
          else match read_string r with
          | None => None
          | Some (key, r) =>
              match skip r with
              | [] => None
              | c :: r =>
                  if negb (c =? 58) then None
                  else match value k (skip r) with
                  | None => None
                  | Some (v, r) =>
                      match skip r with
                      | [] => None
                      | c :: r =>
                          if c =? 125 then Some ([(key, v)], r)
                          else if c =? 44 then match members k (skip r) with Some (l, r) => Some ((key, v) :: l, r) | None => None end
                          else None
                      end
                  end
              end
          end
      end
  end.
(** The whole text is one value; names may come twice. *)
Definition parse (s : pystr) : option json :=
  match value (2 * length s + 2) (skip s) with
  | Some (v, r) => match skip r with [] => Some v | _ => None end
  | None => None
  end.
(** A dict keeps the place of the first and the value of the last. *)
Fixpoint set_item (k : pystr) (v : json) (d : list (pystr * json)) : list (pystr * json) :=
  match d with
  | [] => [(k, v)]
  | (k', v') :: r => if list_eqb k' k then (k', v) :: r else (k', v') :: set_item k v r
  end.
Fixpoint as_dicts (j : json) : json :=
  match j with
  | JList l => JList (map as_dicts l)
  | JObj fs => JObj (fold_left (fun d p => set_item (fst p) (snd p) d) (map (fun p => (fst p, as_dicts (snd p))) fs) [])
  | _ => j
  end.
Definition loads (s : pystr) : result json := match parse s with Some j => Ok (as_dicts j) | None => Raise ValueError end.

(** ** What is written *)
(** json.dumps(data, separators=(',', ':')) *)
Fixpoint join (l : list pystr) : pystr := match l with [] => [] | [a] => a | a :: r => a ++ 44 :: join r end.
Fixpoint compact (j : json) : pystr :=
  match j with
  | JList l => 91 :: join (map compact l) ++ [93]
  | JObj fs => 123 :: join (map (fun p => json_str (fst p) ++ 58 :: compact (snd p)) fs) ++ [125]
  | _ => dumps j
  end.
(** A vsize, kept in quarters: an int, or a float if it is no whole number, or if the
    caller gave one. *)
Definition vsize_json (as_float : bool) (v : Z) : json :=
  let n := v / 4 in
  let t := str_of_int n in
  match v mod 4 with
  | 0 => if as_float then JFloat (t ++ str ".0") (Fin false n 0) else JInt n
  | 1 => JFloat (t ++ str ".25") (Fin false (100 * n + 25) (-2))
  | 2 => JFloat (t ++ str ".5") (Fin false (10 * n + 5) (-1))
  | _ => JFloat (t ++ str ".75") (Fin false (100 * n + 75) (-2))
  end.
(* repo: bit/network/meta.py:28, 42-43 Unspent.to_dict as it is written in JSON *)
Definition udict_json (p : bool * udict) : json :=
  let d := snd p in
  JObj [(str "amount", JInt (d_amount d)); (str "confirmations", JInt (d_confirmations d)); (str "script", JStr (d_script d));
        (str "txid", JStr (d_txid d)); (str "txindex", JInt (d_txindex d)); (str "type", JStr (d_type d));
        (str "vsize", vsize_json (fst p) (d_vsize d)); (str "segwit", match d_segwit d with Some b => JBool b | None => JNull end);
        (str "sequence", JInt (d_sequence d))].
(* repo: bit/wallet.py:456-458, 855-857, 1226-1228, 1554-1556: the text; [floats] tells
   which sizes are floats *)
Definition prepared_text (floats : list bool) (us : list udict) (outs : list (pystr * Z)) : pystr :=
  compact (JObj [(str "unspents", JList (map udict_json (combine floats us)));
                 (str "outputs", JList (map (fun o => JList [JStr (fst o); JInt (snd o)]) outs))]).

(** ** What is read
    Simplified: fields of other kinds than prepare_transaction writes are errors. *)
Definition read_vsize (j : json) : result Z :=
  match j with
  | JNull => Ok 0
  | JInt n => Ok (4 * n)
  | JFloat _ (Fin neg c e) =>
      if (e <=? 0) && (4 * c mod 10 ^ (- e) =? 0) then Ok ((if neg then -1 else 1) * (4 * c / 10 ^ (- e))) else Raise TypeError
  | _ => Raise TypeError
  end.
(* repo: bit/network/meta.py:45-47 Unspent.from_dict: the lookups; segwit is not looked at *)
Definition read_udict (j : json) : result udict :=
  a <- jget "amount" j ;; a <- jint a ;; c <- jget "confirmations" j ;; c <- jint c ;; s <- jget "script" j ;; s <- jstr s ;;
  t <- jget "txid" j ;; t <- jstr t ;; i <- jget "txindex" j ;; i <- jint i ;; y <- jget "type" j ;; y <- jstr y ;;
  v <- jget "vsize" j ;; v <- read_vsize v ;; w <- jget "segwit" j ;; q <- jget "sequence" j ;; q <- jint q ;;
  Ok (mkD a c s t i y v (match w with JBool b => Some b | _ => None end) q).
Definition read_output (j : json) : result (dest * Z) :=
  match j with JList [JStr a; JInt n] => Ok (Addr a, n) | _ => Raise TypeError end.

Context {CR : Crypto} {W Amt : Type} {WD : World W Amt}.
(* repo: bit/wallet.py:460-490, 859-889, 1230-1260, 1558-1588 sign_transaction, for the
   text as it is given *)
Definition sign_text (sg : signer) (tx_data : pystr) (unspents : option (list Unspent)) : IO (Wallet (W:=W)) pystr :=
  let second (unspents : option (list Unspent)) : IO Wallet pystr :=
    us <~ (match nonempty unspents with Some us => iret us | None => get_unspents sg end) ;;
    tx <~ ilift (deserialize_hex tx_data) ;;
    ilift (sign_tx sg tx us) in
  match loads tx_data, unspents with
  | Ok data, None =>
      match (us <- jget "unspents" data ;; us <- jlist us ;; mapM read_udict us) with
      | Raise _ => second None
      | Ok us =>
          let us := map from_dict us in
          itry (outs <~ ilift (outs <- jget "outputs" data ;; outs <- jlist outs ;; mapM read_output outs) ;;
                ilift (create_new_transaction sg us outs)) (fun _ => second (Some us))
      end
  | _, _ => second unspents
  end.
End WithFloats.
