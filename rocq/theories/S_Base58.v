(** Specification: Base58 as positional notation, independent of the model. *)
From Verif Require Import Py.

(** Value of a Base58 character, by ranges of the ASCII table: digits without
    0, upper case letters without I and O, lower case letters without l. *)
Definition digit58 (c : Z) : option Z :=
  if (49 <=? c) && (c <=? 57) then Some (c - 49)            (* 1..9 *)
  else if (65 <=? c) && (c <=? 72) then Some (c - 65 + 9)   (* A..H *)
  else if (74 <=? c) && (c <=? 78) then Some (c - 74 + 17)  (* J..N *)
  else if (80 <=? c) && (c <=? 90) then Some (c - 80 + 22)  (* P..Z *)
  else if (97 <=? c) && (c <=? 107) then Some (c - 97 + 33) (* a..k *)
  else if (109 <=? c) && (c <=? 122) then Some (c - 109 + 44) (* m..z *)
  else None.

(** Big-endian positional value in base [B]. *)
Fixpoint pos_value (B : Z) (ds : list Z) : Z :=
  match ds with
  | [] => 0
  | d :: r => d * B ^ Z.of_nat (length r) + pos_value B r
  end.

(** [s] is the Base58 form of the bytes [b]: equally many leading zero bytes and
    leading 1 characters, and the rest are equal numbers without leading zero. *)
Definition Base58 (b : bytes) (s : pystr) : Prop :=
  exists k b' s' ds,
    b = repeat 0 k ++ b' /\ s = repeat 49 k ++ s' /\
    hd 1 b' <> 0 /\ hd 0 s' <> 49 /\
    Forall2 (fun c d => digit58 c = Some d) s' ds /\
    pos_value 256 b' = pos_value 58 ds.
