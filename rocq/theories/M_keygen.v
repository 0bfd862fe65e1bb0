(** bit/keygen.py: random keys and vanity addresses.  The search runs in several
    processes; it is modelled as a transition system that may interleave them in
    any way. *)
From Coq Require Import String.
From Verif Require Export M_key.

Section WithCrypto.
Context {CR : Crypto}.

(** What ECPrivateKey() may give: any secret that coincurve accepts. *)
Definition NewSecret (s : bytes) : Prop := ec_secret s = Ok s /\ length s = 32%nat /\ bytes_ok s = true.

(* repo: bit/keygen.py:12-15 generate_key_address_pair; [secret] is the random secret *)
Definition generate_key_address_pair (secret : bytes) : result (pystr * pystr) :=
  address <- public_key_to_address (ec_pubkey secret true) Main ;;
  Ok (bytes_to_wif secret Main false, address).

(* repo: bit/keygen.py:77 the address of a key made by a worker *)
Definition pair_address (secret : bytes) : pystr :=
  b58encode_check ([0x00] ++ ripemd160_sha256 (ec_pubkey secret true)).

(** str.startswith *)
Fixpoint startswith (prefix s : pystr) : bool :=
  match prefix, s with
  | [], _ => true
  | c :: p, d :: r => (c =? d) && startswith p r
  | _ :: _, [] => false
  end.

(** The argument cores: the string 'all', something int() reads, or anything else. *)
Inductive cores_arg := AllCores | SomeCores (n : Z) | BadCores.

(** Where a worker process is: not started yet; at the head of the loop; about to
    take the lock; about to read and to write the counter inside the lock; about
    to release it; about to make a key; with a key; about to set the event; about
    to put the key into the queue; the key in the buffer of the queue's feeder
    thread; ended. *)
Inductive worker :=
| Waiting | Check | Locking | Reading | Writing (n : Z) | Unlocking | Generating
| Trying (s : bytes) | Setting (s : bytes) (a : pystr) | Putting (s : bytes) (a : pystr) | Feeding (s : bytes) (a : pystr) | Exited.
(** Where the main process is: starting worker [i]; sleeping, then looking at the
    counter, where [k] is the count seen before; waiting for the queue; with a
    key; returned. *)
Inductive mainpc := Starting (i : nat) | Sleeping (k : Z) | Looking (k : Z) | Getting | Got (s : bytes) (a : pystr) | Finished.

(** What can be seen: keys made, matches announced, the count shown, the result printed. *)
Inductive event := Generated (i : nat) (s : bytes) | Matched (i : nat) | Shown (k : Z) | Printed (wif address : pystr).

Record kstate := mkK {
  counter : Z;                       (* Value('i') *)
  lock : option nat;                 (* who holds the counter's lock *)
  is_set : bool;                     (* the event match *)
  queue : list (bytes * pystr);
  workers : list worker;
  main : mainpc
}.

(** A C int wraps around; ctypes does not check. *)
Definition c_int (z : Z) : Z := (z + 2 ^ 31) mod 2 ^ 32 - 2 ^ 31.

Fixpoint upd (l : list worker) (i : nat) (w : worker) : list worker :=
  match l, i with
  | [], _ => []
  | _ :: r, O => w :: r
  | a :: r, S j => a :: upd r j w
  end.

(* repo: bit/keygen.py:18-36 generate_matching_address up to the number of
   processes; [available] is cpu_count() and [secret] the random secret of the
   case without prefix.  [inl]: the pair returned; [inr]: the search for a prefix
   with a number of processes. *)
Definition generate_matching_address (prefix : pystr) (cores : cores_arg) (available : Z) (secret : bytes)
  : result ((pystr * pystr) + (pystr * nat)) :=
  if negb (forallb (fun c => existsb (Z.eqb c) BASE58_ALPHABET) prefix) then Raise ValueError
  else match prefix with
       | [] => rmap inl (generate_key_address_pair secret)
       | _ =>
         let prefix := if negb (startswith (str "1") prefix) then str "1" ++ prefix else prefix in
         match cores with
         | AllCores => Ok (inr (prefix, Z.to_nat available))
         | BadCores => Raise ValueError
         | SomeCores n =>
           if (0 <? n) && (n <=? available) then Ok (inr (prefix, Z.to_nat n)) else Ok (inr (prefix, 1%nat))
         end
       end.

(* repo: bit/keygen.py:38-45 the processes and what they share *)
Definition search (cores : nat) : kstate := mkK 0 None false [] (repeat Waiting cores) (Starting 0).

(** One step of one process.
    Simplified: processes do not die; reading the counter is one step and needs
    the lock to be free (multiprocessing's synchronised wrapper takes it). *)
Inductive step (prefix : pystr) : kstate -> list event -> kstate -> Prop :=
(* repo: bit/keygen.py:71-72 *)
| W_stop i c l q ws m : nth_error ws i = Some Check ->
    step prefix (mkK c l true q ws m) [] (mkK c l true q (upd ws i Exited) m)
| W_go i c l q ws m : nth_error ws i = Some Check ->
    step prefix (mkK c l false q ws m) [] (mkK c l false q (upd ws i Locking) m)
(* repo: bit/keygen.py:74-75 *)
| W_lock i c e q ws m : nth_error ws i = Some Locking ->
    step prefix (mkK c None e q ws m) [] (mkK c (Some i) e q (upd ws i Reading) m)
| W_read i c l e q ws m : nth_error ws i = Some Reading ->
    step prefix (mkK c l e q ws m) [] (mkK c l e q (upd ws i (Writing c)) m)
| W_write i c l e q ws m n : nth_error ws i = Some (Writing n) ->
    step prefix (mkK c l e q ws m) [] (mkK (c_int (n + 1)) l e q (upd ws i Unlocking) m)
| W_unlock i c l e q ws m : nth_error ws i = Some Unlocking ->
    step prefix (mkK c l e q ws m) [] (mkK c None e q (upd ws i Generating) m)
(* repo: bit/keygen.py:77 *)
| W_new i c l e q ws m s : nth_error ws i = Some Generating -> NewSecret s ->
    step prefix (mkK c l e q ws m) [Generated i s] (mkK c l e q (upd ws i (Trying s)) m)
(* repo: bit/keygen.py:78-80 *)
| W_match i c l e q ws m s : nth_error ws i = Some (Trying s) -> startswith prefix (pair_address s) = true ->
    step prefix (mkK c l e q ws m) [] (mkK c l e q (upd ws i (Setting s (pair_address s))) m)
| W_miss i c l e q ws m s : nth_error ws i = Some (Trying s) -> startswith prefix (pair_address s) = false ->
    step prefix (mkK c l e q ws m) [] (mkK c l e q (upd ws i Check) m)
(* repo: bit/keygen.py:81 *)
| W_set i c l e q ws m s a : nth_error ws i = Some (Setting s a) ->
    step prefix (mkK c l e q ws m) [Matched i] (mkK c l true q (upd ws i (Putting s a)) m)
(* repo: bit/keygen.py:82-83; put_nowait leaves the pair to a thread, which the
   process waits for when it ends *)
| W_put i c l e q ws m s a : nth_error ws i = Some (Putting s a) ->
    step prefix (mkK c l e q ws m) [] (mkK c l e q (upd ws i (Feeding s a)) m)
| W_feed i c l e q ws m s a : nth_error ws i = Some (Feeding s a) ->
    step prefix (mkK c l e q ws m) [] (mkK c l e (q ++ [(s, a)]) (upd ws i Exited) m)
(* repo: bit/keygen.py:47-48 *)
| M_start i c l e q ws : nth_error ws i = Some Waiting ->
    step prefix (mkK c l e q ws (Starting i)) [] (mkK c l e q (upd ws i Check) (Starting (S i)))
| M_started c l e q ws :
    step prefix (mkK c l e q ws (Starting (length ws))) [] (mkK c l e q ws (Sleeping 0))
(* repo: bit/keygen.py:50-61 *)
| M_sleep c l e q ws k :
    step prefix (mkK c l e q ws (Sleeping k)) [] (mkK c l e q ws (Looking k))
| M_zero c e q ws k : c = k -> c = 0 ->
    step prefix (mkK c None e q ws (Looking k)) [] (mkK c None e q ws (Sleeping k))
| M_break c e q ws k : c = k -> c <> 0 ->
    step prefix (mkK c None e q ws (Looking k)) [] (mkK c None e q ws Getting)
| M_show c e q ws k : c <> k ->
    step prefix (mkK c None e q ws (Looking k)) [Shown c] (mkK c None e q ws (Sleeping c))
(* repo: bit/keygen.py:63-64 *)
| M_get c l e q ws s a :
    step prefix (mkK c l e ((s, a) :: q) ws Getting) [] (mkK c l e q ws (Got s a))
| M_print c l e q ws s a :
    step prefix (mkK c l e q ws (Got s a)) [Printed (bytes_to_wif s Main false) a] (mkK c l e q ws Finished).

(** Any number of steps, with the events in order. *)
Inductive steps (prefix : pystr) : kstate -> list event -> kstate -> Prop :=
| R_refl st : steps prefix st [] st
| R_step st t st1 es st2 : steps prefix st t st1 -> step prefix st1 es st2 -> steps prefix st (t ++ es) st2.
End WithCrypto.
