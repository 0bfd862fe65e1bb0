(** Model of the helpers of bit/utils.py for hexadecimal texts, complete. *)
From Coq Require Import String.
From Verif Require Import Py M_utils M_decimal.

(** str.upper of an ASCII text *)
Definition upper (s : pystr) : pystr := map (fun c => if (97 <=? c) && (c <=? 122) then c - 32 else c) s.
(* repo: bit/utils.py:20-22 bytes_to_hex(bytestr, upper) *)
Definition bytes_to_hex_case (up : bool) (b : bytes) : pystr := if up then upper (bytes_to_hex b) else bytes_to_hex b.
(* repo: bit/utils.py:33-35 int_to_hex(num, upper) *)
Definition int_to_hex_case (up : bool) (num : Z) : pystr := if up then upper (int_to_hex num) else int_to_hex num.

(** int(s, 16) (Objects/longobject.c, PyLong_FromString): white space, a sign, 0x with
    an underscore, digits with single underscores between them.  Of the digits only
    those of ASCII, of white space that below U+0660. *)
Fixpoint hex_grouped (after_digit : bool) (s : pystr) : option pystr :=
  match s with
  | [] => if after_digit then Some [] else None
  | c :: r =>
      match hex_val c with
      | Some _ => option_map (cons c) (hex_grouped true r)
      | None => if after_digit && (c =? 95) then hex_grouped false r else None
      end
  end.
Definition after_0x (s : pystr) : pystr :=
  match s with
  | z :: x :: r => if (z =? 48) && ((x =? 120) || (x =? 88)) then match r with u :: r' => if u =? 95 then r' else r | [] => r end else s
  | _ => s
  end.
(* repo: bit/utils.py:38-39 hex_to_int *)
Definition int16 (hexed : pystr) : result Z :=
  let '(neg, s) := sign_of (strip hexed) in
  match hex_grouped false (after_0x s) with
  | Some ds => n <- hex_to_int ds ;; Ok (if neg then - n else n)
  | None => Raise ValueError
  end.
