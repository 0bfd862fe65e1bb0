(** Model of bit/utils.py (integers, hex, varints, pushes, stream readers). *)
From Verif Require Export Py.

(* repo: bit/utils.py:11-12 chunk_data.  The generator expression is modelled as
   the list of all its items.  [size] is a positive constant in the code
   (MESSAGE_LIMIT); the fuel [length data] is enough because every chunk with
   [size >= 1] consumes at least one element (proved: chunk_data_concat). *)
Fixpoint chunk_fuel {A} (fuel : nat) (size : nat) (data : list A) : list (list A) :=
  match fuel with
  | O => []
  | S k => match data with
           | [] => []
           | _ => firstn size data :: chunk_fuel k size (skipn size data)
           end
  end.
Definition chunk_data {A} (data : list A) (size : nat) : list (list A) :=
  chunk_fuel (length data) size data.

(* repo: bit/utils.py:15-17 int_to_unknown_bytes, both byte orders.  For a
   negative number [to_bytes] raises OverflowError whatever the length. *)
Definition unknown_len (num : Z) : nat :=
  let n := (bit_length num + 7) / 8 in
  if n =? 0 then 1%nat else Z.to_nat n.
Definition int_to_unknown_bytes (num : Z) : result bytes :=
  if num <? 0 then Raise OverflowError else to_bytes_be num (unknown_len num).
Definition int_to_unknown_bytes_le (num : Z) : result bytes :=
  if num <? 0 then Raise OverflowError else to_bytes_le num (unknown_len num).

(** Hexadecimal digits: the characters 0-9 a-f (codes 48..57, 97..102). *)
Definition hex_digit (n : Z) : Z := if n <? 10 then 48 + n else 87 + n.
Definition hex_val (c : Z) : option Z :=
  if (48 <=? c) && (c <=? 57) then Some (c - 48)
  else if (97 <=? c) && (c <=? 102) then Some (c - 87)
  else if (65 <=? c) && (c <=? 70) then Some (c - 55)
  else None.

(* repo: bit/utils.py:20-22 bytes_to_hex (binascii.hexlify). *)
Definition bytes_to_hex (b : bytes) : pystr :=
  flat_map (fun x => [hex_digit (x / 16); hex_digit (x mod 16)]) b.
Definition bytes_to_hex_upper (b : bytes) : pystr := upper (bytes_to_hex b).

(** ASCII whitespace skipped by [bytes.fromhex] (CPython 3.7 and later). *)
Definition is_space (c : Z) : bool := ((9 <=? c) && (c <=? 13)) || (c =? 32).

(* [bytes.fromhex]: pairs of hex digits, whitespace allowed between pairs. *)
Fixpoint fromhex (s : pystr) : result bytes :=
  match s with
  | [] => Ok []
  | c :: r =>
    if is_space c then fromhex r else
    match hex_val c with
    | None => Raise ValueError
    | Some h =>
      match r with
      | [] => Raise ValueError
      | d :: r' => match hex_val d with
                   | None => Raise ValueError
                   | Some l => rmap (cons (16 * h + l)) (fromhex r')
                   end
      end
    end
  end.

(* repo: bit/utils.py:25-30 hex_to_bytes. *)
Definition hex_to_bytes (hexed : pystr) : result bytes :=
  fromhex (if Nat.odd (length hexed) then 48 :: hexed else hexed).

(* [hex(n)] digits of a positive integer, most significant first.  Fuel: the
   bit length of the number. *)
Fixpoint hex_digits_fuel (fuel : nat) (n : Z) (acc : pystr) : pystr :=
  match fuel with
  | O => acc
  | S k => if n =? 0 then acc else hex_digits_fuel k (n / 16) (hex_digit (n mod 16) :: acc)
  end.
Definition hex_digits (n : Z) : pystr :=
  if n =? 0 then [48] else hex_digits_fuel (S (Z.to_nat (Z.log2 n))) n [].

(* repo: bit/utils.py:33-35 int_to_hex: hex(num)[2:]; hex(-26) is -0x1a, so a
   negative number gives x1a. *)
Definition int_to_hex (num : Z) : pystr :=
  if num <? 0 then 120 :: hex_digits (- num) else hex_digits num.

(* repo: bit/utils.py:38-39 hex_to_int.  Simplification: only plain digit strings
   are modelled; the sign, 0x prefix, underscores and surrounding whitespace
   that Python's int(.., 16) also accepts raise ValueError here. *)
Fixpoint hex_to_int_acc (s : pystr) (acc : Z) : result Z :=
  match s with
  | [] => Ok acc
  | c :: r => match hex_val c with
              | None => Raise ValueError
              | Some d => hex_to_int_acc r (acc * 16 + d)
              end
  end.
Definition hex_to_int (s : pystr) : result Z :=
  match s with [] => Raise ValueError | _ => hex_to_int_acc s 0 end.

(* repo: bit/utils.py:42-43 flip_hex_byte_order. *)
Definition flip_hex_byte_order (s : pystr) : result pystr :=
  b <- hex_to_bytes s ;; Ok (bytes_to_hex (rev b)).

(* repo: bit/utils.py:46-55 int_to_varint. *)
Definition int_to_varint (val : Z) : result bytes :=
  if val <? 253 then to_bytes_le val 1
  else if val <=? 65535 then rmap (cons 253) (to_bytes_le val 2)
  else if val <=? 4294967295 then rmap (cons 254) (to_bytes_le val 4)
  else rmap (cons 255) (to_bytes_le val 8).

(* repo: bit/utils.py:58-67 script_push. *)
Definition script_push (val : Z) : result bytes :=
  if val <=? 75 then int_to_unknown_bytes val
  else if val <? 256 then rmap (cons 76) (int_to_unknown_bytes val)
  else if val <? 65536 then rmap (cons 77) (to_bytes_le val 2)
  else rmap (cons 78) (to_bytes_le val 4).

(* repo: bit/utils.py:71-72 read_bytes: slices, so a short stream gives a short
   result without any error. *)
Definition read_bytes (stream : bytes) (n : Z) : bytes * bytes :=
  (ztake n stream, zdrop n stream).

(* repo: bit/utils.py:87-88 read_as_int: int('', 16) raises ValueError on an empty
   stream; a short stream is read as a shorter number. *)
Definition read_as_int (stream : bytes) (n : Z) : result (Z * bytes) :=
  match ztake n stream with
  | [] => Raise ValueError
  | l => Ok (from_le l, zdrop n stream)
  end.

(* repo: bit/utils.py:80-84 read_var_int. *)
Definition read_var_int (stream : bytes) : result (Z * bytes) :=
  match stream with
  | [] => Raise ValueError
  | val :: rest => if val <? 253 then Ok (val, rest)
                   else read_as_int rest (2 ^ (val - 252))
  end.

(* repo: bit/utils.py:75-77 read_var_string. *)
Definition read_var_string (stream : bytes) : result (bytes * bytes) :=
  '(size, s) <- read_var_int stream ;; Ok (read_bytes s size).

(* repo: bit/utils.py:91-94 read_segwit_string. *)
Definition read_segwit_string (stream : bytes) : result (bytes * bytes) :=
  '(n, s) <- read_var_int stream ;;
  let '(w, s') := read_bytes s n in
  v <- int_to_varint n ;; Ok (v ++ w, s').
