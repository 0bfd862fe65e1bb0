(** Specification: reading Bitcoin scripts (the rules of CScript::GetOp in
    Bitcoin Core), independent of the model. *)
From Verif Require Import Py.

(** One script element: a data push, or another opcode by its byte. *)
Inductive op := Push (d : bytes) | Op (code : Z).

(** Take exactly [n] bytes, or fail. *)
Fixpoint take_exact (n : nat) (s : bytes) : option (bytes * bytes) :=
  match n, s with
  | O, _ => Some ([], s)
  | S k, b :: r => match take_exact k r with
                   | Some (d, t) => Some (b :: d, t)
                   | None => None
                   end
  | S _, [] => None
  end.

Definition take_push (n : Z) (s : bytes) : option (op * bytes) :=
  if Z.of_nat (length s) <? n then None
  else match take_exact (Z.to_nat n) s with
       | Some (d, r) => Some (Push d, r)
       | None => None
       end.

(** Opcodes 0x00..0x4b push that many bytes; 0x4c/0x4d/0x4e (OP_PUSHDATA1/2/4)
    are followed by a 1/2/4 byte little-endian length; all others push nothing. *)
Definition next_op (s : bytes) : option (op * bytes) :=
  match s with
  | [] => None
  | c :: r =>
    if c <=? 0x4b then take_push c r
    else if c =? 0x4c then
      match r with a :: r' => take_push a r' | _ => None end
    else if c =? 0x4d then
      match r with a :: b :: r' => take_push (a + 0x100 * b) r' | _ => None end
    else if c =? 0x4e then
      match r with
      | a :: b :: c :: d :: r' => take_push (a + 0x100 * b + 0x10000 * c + 0x1000000 * d) r'
      | _ => None
      end
    else Some (Op c, r)
  end.

(** The whole script as a list of elements; [None] if a push runs past the end. *)
Inductive ParsesTo : bytes -> list op -> Prop :=
| parse_nil : ParsesTo [] []
| parse_cons s o r ops : next_op s = Some (o, r) -> ParsesTo r ops -> ParsesTo s (o :: ops).

(** Scripts that only push data, each item in the shortest way (none but pushes
    of that total length): 1, 2, 3 or 5 bytes before the data. *)
Definition push_cost (d : bytes) : nat :=
  (length d + if (zlen d <=? 75)%Z then 1 else if (zlen d <=? 255)%Z then 2 else if (zlen d <=? 65535)%Z then 3 else 5)%nat.
Definition MinPushes (items : list bytes) (script : bytes) : Prop :=
  ParsesTo script (map Push items) /\ length script = list_sum (map push_cost items).

Definition OP_1 := 0x51.
Definition OP_16 := 0x60.
Definition OP_RETURN_code := 0x6a.
Definition OP_DUP_code := 0x76.
Definition OP_EQUAL_code := 0x87.
Definition OP_EQUALVERIFY_code := 0x88.
Definition OP_HASH160_code := 0xa9.
Definition OP_CHECKSIG_code := 0xac.
Definition OP_CHECKMULTISIG_code := 0xae.
