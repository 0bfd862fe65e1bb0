(** Specification: which transactions the Bitcoin network accepts.  Scripts are
    run on a stack (top first) by the rules of Bitcoin Core's interpreter, with
    P2SH (BIP16) and version 0 witness programs (BIP141, BIP143).

    Stricter than the network where that is simpler: only the opcodes below have
    a rule, a failing comparison or signature check ends the run (NULLFAIL), the
    dummy of OP_CHECKMULTISIG is empty (NULLDUMMY), input scripts only push, the
    hash type is SIGHASH_ALL, keys in witnesses have 33 bytes.  Not part of it:
    limits on the size and the weight of transactions, FindAndDelete (no script
    here contains its own signature), the coinbase and relative lock times
    (which do not concern version 1). *)
From Verif Require Import Py M_crypto S_Wire S_Tx S_Script S_Sighash S_Addr S_Fee.

Definition stack := list bytes.

(** CastToBool: neither zero nor negative zero. *)
Fixpoint truthy (b : bytes) : bool :=
  match b with
  | [] => false
  | [c] => negb ((c =? 0) || (c =? 0x80))
  | c :: r => negb (c =? 0) || truthy r
  end.

Section WithCrypto.
Context {CR : Crypto}.

(** Each signature belongs to a key, in the order of the keys. *)
Inductive Matched (chk : bytes -> bytes -> Prop) : list bytes -> list bytes -> Prop :=
| m_done keys : Matched chk [] keys
| m_match sig sigs key keys : chk sig key -> Matched chk sigs keys -> Matched chk (sig :: sigs) (key :: keys)
| m_skip sigs key keys : Matched chk sigs keys -> Matched chk sigs (key :: keys).

(** One operation; [chk sig pub]: the signature is good for the key. *)
Inductive Step (chk : bytes -> bytes -> Prop) : op -> stack -> stack -> Prop :=
| s_push d s : (length d <= 520)%nat -> Step chk (Push d) s (d :: s)
| s_num c s : OP_1 <= c <= OP_16 -> Step chk (Op c) s ([c - 0x50] :: s)
| s_dup d s : Step chk (Op OP_DUP_code) (d :: s) (d :: d :: s)
| s_hash160 d s : Step chk (Op OP_HASH160_code) (d :: s) (hash160 d :: s)
| s_equal d s : Step chk (Op OP_EQUAL_code) (d :: d :: s) ([0x01] :: s)
| s_equalverify d s : Step chk (Op OP_EQUALVERIFY_code) (d :: d :: s) s
| s_checksig pub sig s : chk sig pub -> Step chk (Op OP_CHECKSIG_code) (pub :: sig :: s) ([0x01] :: s)
| s_checkmultisig n m keys sigs s :
    1 <= m <= n -> n <= 20 -> Z.of_nat (length keys) = n -> Z.of_nat (length sigs) = m -> Matched chk sigs keys ->
    Step chk (Op OP_CHECKMULTISIG_code) ([n] :: rev keys ++ [m] :: rev sigs ++ [] :: s) ([0x01] :: s).

Inductive Run (chk : bytes -> bytes -> Prop) : list op -> stack -> stack -> Prop :=
| r_end s : Run chk [] s s
| r_step o ops s t u : Step chk o s t -> Run chk ops t u -> Run chk (o :: ops) s u.

Definition Exec (chk : bytes -> bytes -> Prop) (script : bytes) (s t : stack) : Prop :=
  exists ops, Z.of_nat (length script) <= 10000 /\ ParsesTo script ops /\ Run chk ops s t.

(** Signature checks of input [j] of [x] by a script [code]. *)
Definition legacy_sig (x : tx) (j : nat) (code : bytes) (sig pub : bytes) : Prop :=
  exists msg, LegacyMsg x j code msg /\ GoodSig msg pub sig.
Definition witness_sig (x : tx) (j : nat) (code : bytes) (value : Z) (sig pub : bytes) : Prop :=
  length pub = 33%nat /\ exists msg, BIP143Msg x j code value msg /\ GoodSig msg pub sig.

(** Output scripts with special rules. *)
Definition ScriptHash (spk : bytes) : Prop :=
  exists h, length h = 20%nat /\ spk = [OP_HASH160_code; 0x14] ++ h ++ [OP_EQUAL_code].
Definition WitnessProgram (script : bytes) : Prop :=
  exists v prog, (v = 0 \/ OP_1 <= v <= OP_16) /\ (2 <= length prog <= 40)%nat /\ script = v :: Z.of_nat (length prog) :: prog.

(** A witness for a version 0 program: a key hash or a script hash. *)
Inductive WitnessOk (x : tx) (j : nat) (value : Z) : bytes -> list bytes -> Prop :=
| w_keyhash h sig pub t :
    let code := [OP_DUP_code; OP_HASH160_code; 0x14] ++ h ++ [OP_EQUALVERIFY_code; OP_CHECKSIG_code] in
    length h = 20%nat -> (length sig <= 520)%nat -> (length pub <= 520)%nat ->
    Exec (witness_sig x j code value) code [pub; sig] [t] -> truthy t = true ->
    WitnessOk x j value ([0x00; 0x14] ++ h) [sig; pub]
| w_scripthash code items t :
    length (sha256 code) = 32%nat -> Forall (fun d => (length d <= 520)%nat) items ->
    Exec (witness_sig x j code value) code (rev items) [t] -> truthy t = true ->
    WitnessOk x j value ([0x00; 0x20] ++ sha256 code) (items ++ [code]).

(** Input [j], namely [i], may spend an output of [value] satoshis to [spk]. *)
Inductive Accepts (x : tx) (j : nat) (i : tin) (value : Z) (spk : bytes) : Prop :=
| a_plain items t s :
    ParsesTo (i_script i) (map Push items) -> Exec (legacy_sig x j spk) spk (rev items) (t :: s) -> truthy t = true ->
    ~ ScriptHash spk -> ~ WitnessProgram spk -> i_wit i = [] -> Accepts x j i value spk
| a_scripthash items redeem t s t' s' :
    ParsesTo (i_script i) (map Push (items ++ [redeem])) ->
    Forall (fun d => (length d <= 520)%nat) (items ++ [redeem]) ->
    ScriptHash spk -> Exec (legacy_sig x j spk) spk (rev (items ++ [redeem])) (t :: s) -> truthy t = true ->
    Exec (legacy_sig x j redeem) redeem (rev items) (t' :: s') -> truthy t' = true ->
    ~ WitnessProgram redeem -> i_wit i = [] -> Accepts x j i value spk
| a_nested redeem t s :
    MinPushes [redeem] (i_script i) ->
    ScriptHash spk -> Exec (legacy_sig x j spk) spk [redeem] (t :: s) -> truthy t = true ->
    WitnessOk x j value redeem (i_wit i) -> Accepts x j i value spk
| a_witness : i_script i = [] -> WitnessOk x j value spk (i_wit i) -> Accepts x j i value spk.
End WithCrypto.

(** The unspent outputs of the chain: value and script by transaction id (as it
    is in inputs) and index. *)
Definition ledger := bytes -> Z -> option (Z * bytes).
Definition MAX_MONEY := 21000000 * 100000000.
Definition i_outpoint (i : tin) := (i_txid i, i_vout i).

(** The transaction may be confirmed: it spends different unspent outputs, each
    as its script demands, pays no more than these hold, and is final. *)
Record Valid {CR : Crypto} (L : ledger) (x : tx) (coins : list (Z * bytes)) : Prop := {
  v_ins : t_ins x <> [];
  v_outs : t_outs x <> [];
  v_once : NoDup (map i_outpoint (t_ins x));
  v_coins : Forall2 (fun i c => L (i_txid i) (i_vout i) = Some c) (t_ins x) coins;
  v_accepts : forall j i value spk, nth_error (t_ins x) j = Some i -> nth_error coins j = Some (value, spk) ->
    Accepts x j i value spk;
  v_values : Forall (fun o => 0 <= o_value o <= MAX_MONEY) (t_outs x) /\ total (map o_value (t_outs x)) <= MAX_MONEY;
  v_pays : total (map o_value (t_outs x)) <= total (map fst coins);
  v_final : t_lock x = 0 \/ Forall (fun i => i_seq i = 0xffffffff) (t_ins x)
}.

(** The ledger after a transaction with the given id: its inputs are spent, its
    outputs may be. *)
Definition confirmed (L : ledger) (x : tx) (id : bytes) : ledger := fun t n =>
  if list_eqb t id && (0 <=? n) && (n <? Z.of_nat (length (t_outs x)))
  then option_map (fun o => (o_value o, o_script o)) (nth_error (t_outs x) (Z.to_nat n))
  else if existsb (fun i => list_eqb t (i_txid i) && (n =? i_vout i)) (t_ins x) then None
  else L t n.
