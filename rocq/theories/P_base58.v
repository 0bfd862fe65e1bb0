(** Property theorems C06 - C08: bit/base58.py. *)
From Coq Require Import String.
From Verif Require Import M_base58 S_Base58 F_base58.

(** C06: the encoder computes Base58; decoding inverts it exactly when the input
    has a nonzero byte, otherwise there is one zero byte too many. *)
Theorem C06_encode_is_base58 :
  forall b, bytes_ok b = true -> forall s, b58encode b = s <-> Base58 b s.
Proof. exact b58encode_spec. Qed.

Theorem C06_decode_encode :
  forall b, bytes_ok b = true -> (exists x, In x b /\ x <> 0) -> b58decode (b58encode b) = Ok b.
Proof. exact b58decode_encode. Qed.

Theorem C06_decode_encode_zeros :
  forall k, b58decode (b58encode (repeat 0 k)) = Ok (repeat 0 (S k)).
Proof. exact b58decode_encode_zeros. Qed.

Example C06_example : b58encode [0; 0; 1; 255] = str "119p" /\ Base58 [0; 0; 1; 255] (str "119p").
Proof. split; [reflexivity|]. apply C06_encode_is_base58; reflexivity. Qed.

(** C07: decoding is canonical. *)
Theorem C07_encode_decode :
  forall s, Forall (fun c => digit58 c <> None) s -> (exists c, In c s /\ c <> 49 (* 1 *)) ->
  exists b, b58decode s = Ok b /\ bytes_ok b = true /\ Base58 b s /\ b58encode b = s.
Proof.
  intros s H1 H2. destruct (b58encode_decode s H1 H2) as (b & Hd & Hok & Hs & _).
  exists b. repeat split; auto. exact (proj2 (b58encode_spec b Hok s) Hs).
Qed.

Theorem C07_decode_injective :
  forall s t b, (exists c, In c s /\ c <> 49) -> (exists c, In c t /\ c <> 49) ->
  b58decode s = Ok b -> b58decode t = Ok b -> s = t.
Proof.
  assert (G : forall s b, (exists c, In c s /\ c <> 49) -> b58decode s = Ok b -> b58encode b = s).
  { intros s b Hn Hd. destruct (digits_dec s) as [(ds & F)|Hbad].
    - assert (Hf : Forall (fun c => digit58 c <> None) s) by (clear - F; induction F; constructor; congruence).
      destruct (C07_encode_decode s Hf Hn) as (b' & Hd' & _ & _ & E). congruence.
    - rewrite (b58decode_bad s Hbad) in Hd. discriminate. }
  intros s t b Hs Ht H1 H2. rewrite <- (G s b Hs H1). exact (G t b Ht H2).
Qed.

Theorem C07_rejects :
  forall s, (exists c, In c s /\ digit58 c = None) -> b58decode s = Raise ValueError.
Proof. exact b58decode_bad. Qed.

(** The remaining strings (only the character 1, or empty). *)
Theorem C07_ones : forall k, b58decode (repeat 49 k) = Ok (repeat 0 (S k)).
Proof. exact b58decode_ones. Qed.

Example C07_example :
  Forall (fun c => digit58 c <> None) (str "1z") /\ b58decode (str "1z") = Ok [0; 57].
Proof. split; [repeat constructor; discriminate|reflexivity]. Qed.

(** C08: Base58Check, for every hash with 32-byte outputs. *)
Theorem C08_decode_check :
  forall (CR : Crypto), (forall x, length (sha256 x) = 32%nat) ->
  forall s v, b58decode_check s = Ok v <->
              b58decode s = Ok (v ++ firstn 4 (sha256 (sha256 v))).
Proof. intros CR HL. exact (b58decode_check_iff HL). Qed.

Theorem C08_decode_check_raises :
  forall (CR : Crypto) s, (exists v, b58decode_check s = Ok v) \/ b58decode_check s = Raise ValueError.
Proof. intros CR. exact b58decode_check_exn. Qed.

Theorem C08_roundtrip :
  forall (CR : Crypto), (forall x, length (sha256 x) = 32%nat) -> (forall x, bytes_ok (sha256 x) = true) ->
  forall v, bytes_ok v = true -> (exists x, In x (v ++ firstn 4 (sha256 (sha256 v))) /\ x <> 0) ->
  b58decode_check (b58encode_check v) = Ok v.
Proof. intros CR HL HB. exact (b58check_roundtrip HL HB). Qed.

Print Assumptions C06_encode_is_base58.
Print Assumptions C06_decode_encode.
Print Assumptions C06_decode_encode_zeros.
Print Assumptions C07_encode_decode.
Print Assumptions C07_decode_injective.
Print Assumptions C07_rejects.
Print Assumptions C07_ones.
Print Assumptions C08_decode_check.
Print Assumptions C08_decode_check_raises.
Print Assumptions C08_roundtrip.
