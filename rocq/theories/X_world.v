(** A toy world around the wallet, to show that hypotheses can be met: fixed
    coins, amounts in satoshi, a shuffle that reverses; the state is the list of
    transactions sent. *)
From Coq Require Import String Permutation.
From Verif Require Export X_toy M_wallet.

Definition wkey : PrivateKey := @make_key toy Main (repeat 7 32) true.
Definition other_key : PrivateKey := @make_key toy Main (repeat 9 32) true.
Definition test_key : PrivateKey := @make_key toy Test (repeat 9 32) true.
Definition addr_of (k : PrivateKey) : pystr := match @key_address toy k with Ok a => a | Raise _ => [] end.
Definition segwit_addr_of (k : PrivateKey) : pystr := match @key_segwit_address toy k with Ok (Some a) => a | _ => [] end.
Definition hex_script (a : pystr) : pystr := match @script_hex toy a with Ok s => s | Raise _ => [] end.
(** A coin of the given address, with a txid made of one byte. *)
Definition wcoin (a : pystr) (type : string) (b n amount : Z) : Unspent :=
  new_unspent amount 3 (hex_script a) (bytes_to_hex (repeat b 32)) n (str type) None None 0xffffffff.
Definition legacy_coins : list Unspent := [wcoin (addr_of wkey) "p2pkh" 1 0 20000; wcoin (addr_of wkey) "p2pkh" 2 5 30000].
Definition segwit_coins : list Unspent := [wcoin (segwit_addr_of wkey) "np2wkh" 3 1 40000].

Definition toy_world : World (list pystr) Z := {|
  w_convert := fun amount currency => if list_eqb currency (str "satoshi") then iret amount else ilift (Raise ValueError);
  w_fee := iret 2;
  w_unspent := fun n a =>
    if list_eqb a (addr_of wkey) then iret legacy_coins
    else if list_eqb a (segwit_addr_of wkey) then iret segwit_coins
    else ilift (Raise ConnectionError);
  w_history := fun n a => if list_eqb a (addr_of wkey) then iret [str "a"] else iret [str "b"];
  w_broadcast := fun n tx s => (Ok tt, s ++ [tx]);
  w_random := iret (mkRandom (fun _ => false) (@rev Unspent))
|}.
