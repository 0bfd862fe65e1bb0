(** Model of bit/base58.py. *)
From Coq Require Import String.
From Verif Require Export M_crypto.

(* repo: bit/base58.py:6-8 *)
Definition BASE58_ALPHABET : pystr :=
  str "123456789ABCDEFGHJKLMNPQRSTUVWXYZabcdefghijkmnopqrstuvwxyz".

(* repo: bit/base58.py:20-24: the divmod loop; digits are put in front of [acc].
   Fuel: the bit length (each division by 58 at least halves the number). *)
Fixpoint b58_digits_fuel (fuel : nat) (num : Z) (acc : list Z) : list Z :=
  match fuel with
  | O => acc
  | S k => if 0 <? num then b58_digits_fuel k (num / 58) (num mod 58 :: acc) else acc
  end.
Definition b58_digits (num : Z) : list Z := b58_digits_fuel (Z.to_nat (bit_length num)) num [].

(* repo: bit/base58.py:28-33 and 57-62: number of leading elements equal to [x]. *)
Fixpoint leading (x : Z) (l : list Z) : nat :=
  match l with
  | [] => O
  | y :: r => if y =? x then S (leading x r) else O
  end.

(* repo: bit/base58.py:11-34 b58encode *)
Definition b58encode (b : bytes) : pystr :=
  repeat 49 (leading 0 b) ++ map (fun d => nth (Z.to_nat d) BASE58_ALPHABET 0) (b58_digits (from_be b)).

(* repo: bit/base58.py:41-63 b58decode *)
Fixpoint b58_value (s : pystr) (num : Z) : result Z :=
  match s with
  | [] => Ok num
  | c :: r => match index_of c BASE58_ALPHABET with
              | None => Raise ValueError
              | Some i => b58_value r (num * 58 + i)
              end
  end.
Definition b58decode (s : pystr) : result bytes :=
  num <- b58_value s 0 ;;
  b <- int_to_unknown_bytes num ;;
  Ok (repeat 0 (leading 49 s) ++ b).

Section WithCrypto.
Context {CR : Crypto}.

(* repo: bit/base58.py:37-38 b58encode_check *)
Definition b58encode_check (b : bytes) : pystr := b58encode (b ++ double_sha256_checksum b).

(* repo: bit/base58.py:66-79 b58decode_check *)
Definition b58decode_check (s : pystr) : result bytes :=
  decoded <- b58decode s ;;
  let shortened := drop_last 4 decoded in
  if list_eqb (take_last 4 decoded) (double_sha256_checksum shortened)
  then Ok shortened else Raise ValueError.

End WithCrypto.
