(** Specification: the messages that Bitcoin signatures sign for SIGHASH_ALL,
    and what makes an input script or witness acceptable. *)
From Verif Require Import Py M_crypto S_Wire S_Tx S_Script.

(** Every input script blanked, except the one signed, which holds the script code. *)
Fixpoint blank_except (j : nat) (code : bytes) (ins : list tin) {struct ins} : list tin :=
  match ins with
  | [] => []
  | i :: r => match j with
              | O => Tin (i_txid i) (i_vout i) code (i_seq i) [] ::
                     map (fun k => Tin (i_txid k) (i_vout k) [] (i_seq k) []) r
              | S j' => Tin (i_txid i) (i_vout i) [] (i_seq i) [] :: blank_except j' code r
              end
  end.

(** The original signature message: that transaction, then the 4-byte hash type. *)
Definition LegacyMsg (x : tx) (j : nat) (code : bytes) (msg : bytes) : Prop :=
  (j < length (t_ins x))%nat /\
  exists e h, EncLegacy (Tx (t_ver x) (blank_except j code (t_ins x)) (t_outs x) (t_lock x)) e /\
    LEnum 4 0x01 h /\ msg = e ++ h.

Definition EncOutpoint (i : tin) (b : bytes) : Prop :=
  exists vo, length (i_txid i) = 32%nat /\ LEnum 4 (i_vout i) vo /\ b = i_txid i ++ vo.
Definition EncSequence (i : tin) (b : bytes) : Prop := LEnum 4 (i_seq i) b.

(** The BIP143 message. *)
Definition BIP143Msg {CR : Crypto} (x : tx) (j : nat) (code : bytes) (value : Z) (msg : bytes) : Prop :=
  exists i v prevouts seqs op sc am sq outs l h,
    nth_error (t_ins x) j = Some i /\
    LEnum 4 (t_ver x) v /\
    EncSeq EncOutpoint (t_ins x) prevouts /\
    EncSeq EncSequence (t_ins x) seqs /\
    EncOutpoint i op /\
    VarBytes code sc /\
    LEnum 8 value am /\
    EncSequence i sq /\
    EncSeq EncOut (t_outs x) outs /\
    LEnum 4 (t_lock x) l /\
    LEnum 4 0x01 h /\
    msg = v ++ sha256 (sha256 prevouts) ++ sha256 (sha256 seqs) ++ op ++ sc ++ am ++ sq ++ sha256 (sha256 outs) ++ l ++ h.

(** The message signed by input [j], which spends [value] under [code]. *)
Definition SigMsg {CR : Crypto} (segwit : bool) (x : tx) (j : nat) (code : bytes) (value : Z) (msg : bytes) : Prop :=
  if segwit then BIP143Msg x j code value msg else LegacyMsg x j code msg.

(** The same transaction except for scripts and witnesses of inputs. *)
Definition in_skel (i : tin) := (i_txid i, i_vout i, i_seq i).
Definition same_skeleton (x y : tx) : Prop :=
  t_ver x = t_ver y /\ t_lock x = t_lock y /\ t_outs x = t_outs y /\ map in_skel (t_ins x) = map in_skel (t_ins y).

(** A signature push is a DER signature and the byte 01; it is good for a public
    key and a message if the verifier of the library accepts it.  (The signer
    is handed SHA-256 of the message and hashes once more.) *)
Definition GoodSig {CR : Crypto} (msg pub sig : bytes) : Prop :=
  exists der, sig = der ++ [0x01] /\ ec_verify der (sha256 msg) pub = Ok true.

(** OP_CHECKMULTISIG: signatures are matched with keys in order. *)
Inductive CheckMulti {CR : Crypto} (msg : bytes) : list bytes -> list bytes -> Prop :=
| cm_done keys : CheckMulti msg [] keys
| cm_match sig sigs key keys : GoodSig msg key sig -> CheckMulti msg sigs keys -> CheckMulti msg (sig :: sigs) (key :: keys)
| cm_skip sigs key keys : CheckMulti msg sigs keys -> CheckMulti msg sigs (key :: keys).
