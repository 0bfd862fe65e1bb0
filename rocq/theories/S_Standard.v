(** Specification: which transactions the nodes of the network pass on to each
    other (IsStandardTx, AreInputsStandard and IsWitnessStandard of Bitcoin Core
    before version 30 with its default settings, for coins of the kinds that wallets here hold).
    Stricter where that is simpler: outputs to bare keys and bare multisig
    scripts are left out, and the limits of P2WSH hold for all witnesses. *)
From Verif Require Import Py S_Tx S_Script S_Addr S_Size S_Consensus.

Definition Unspendable (s : bytes) : Prop := exists r, s = OP_RETURN_code :: r.
Definition Witness (s : bytes) : Prop := exists v p, IsWitness v p s.
(** Output scripts. *)
Inductive StandardScript : bytes -> Prop :=
| ss_p2pkh h s : IsP2PKH h s -> StandardScript s
| ss_p2sh h s : IsP2SH h s -> StandardScript s
| ss_witness s : Witness s -> StandardScript s
| ss_data s items : zlen s <= 83 -> ParsesTo s (Op OP_RETURN_code :: map Push items) -> StandardScript s.
(** An output must hold three times what spending it costs at a rate of one
    satoshi per byte: its own size and that of an input. *)
Inductive DustLimit : bytes -> Z -> Prop :=
| dl_data s : Unspendable s -> DustLimit s 0
| dl_witness s : Witness s -> DustLimit s (3 * (9 + zlen s + 67))
| dl_other s : ~ Unspendable s -> ~ Witness s -> DustLimit s (3 * (9 + zlen s + 148)).
(** Signature checks in a script, by the opcode before. *)
Definition OP_CHECKSIGVERIFY_code := 0xad.
Definition OP_CHECKMULTISIGVERIFY_code := 0xaf.
Fixpoint sig_ops (last : Z) (ops : list op) : Z :=
  match ops with
  | [] => 0
  | Push _ :: r => sig_ops 0 r
  | Op c :: r =>
    (if (c =? OP_CHECKSIG_code) || (c =? OP_CHECKSIGVERIFY_code) then 1
     else if (c =? OP_CHECKMULTISIG_code) || (c =? OP_CHECKMULTISIGVERIFY_code)
     then if (OP_1 <=? last) && (last <=? OP_16) then last - OP_1 + 1 else 20
     else 0) + sig_ops c r
  end.

(** [x], sent as [b], spending outputs with the scripts [spks]. *)
Record Standard (x : tx) (b : bytes) (spks : list bytes) : Prop := {
  st_version : 1 <= t_ver x <= 2;
  st_weight : exists w, Weight x b w /\ w <= 400000;
  st_ins : Forall (fun i => zlen (i_script i) <= 1650 /\ exists items, ParsesTo (i_script i) (map Push items)) (t_ins x);
  st_outs : Forall (fun o => StandardScript (o_script o) /\ exists n, DustLimit (o_script o) n /\ n <= o_value o) (t_outs x);
  st_data : forall i j o o', nth_error (t_outs x) i = Some o -> nth_error (t_outs x) j = Some o' ->
    Unspendable (o_script o) -> Unspendable (o_script o') -> i = j;
  st_spent : Forall2 (fun i spk => StandardScript spk /\ (ScriptHash spk -> forall items redeem ops,
    ParsesTo (i_script i) (map Push (items ++ [redeem])) -> ParsesTo redeem ops -> sig_ops 0 ops <= 15)) (t_ins x) spks;
  st_wits : Forall (fun i => i_wit i = [] \/ exists items code, i_wit i = items ++ [code] /\
    (length items <= 100)%nat /\ Forall (fun d => (length d <= 80)%nat) items /\ (length code <= 3600)%nat) (t_ins x)
}.
