(** C27: texts that are not hexadecimal are no transactions. *)
From Coq Require Import String.
From Verif Require Import F_base M_utils M_tx S_HexInt P_hexint X_toy.

Definition Hexadecimal (s : pystr) : Prop := Forall (fun c => 48 <= c <= 57 \/ 65 <= c <= 70 \/ 97 <= c <= 102) s.
Lemma hexy_char c : (match hex_val c with Some _ => true | None => false end) = true <-> 48 <= c <= 57 \/ 65 <= c <= 70 \/ 97 <= c <= 102.
Proof. unfold hex_val. destruct (Z.leb_spec 48 c), (Z.leb_spec c 57), (Z.leb_spec 97 c), (Z.leb_spec c 102), (Z.leb_spec 65 c), (Z.leb_spec c 70); cbn; split; intros; try lia; try discriminate; reflexivity. Qed.
(** Bytes with blanks between them are refused with AttributeError, other texts
    with ValueError; nothing that is not hexadecimal is read. *)
Theorem C27_not_hex s : ~ Hexadecimal s ->
  ((exists b, SpacedHex b (if Nat.odd (length s) then str "0" ++ s else s)) -> deserialize_hex s = Raise AttributeError) /\
  (~ (exists b, SpacedHex b (if Nat.odd (length s) then str "0" ++ s else s)) -> deserialize_hex s = Raise ValueError).
Proof.
  intros N. unfold deserialize_hex. destruct (forallb _ s) eqn:F.
  - exfalso. apply N. unfold Hexadecimal. apply Forall_forall. rewrite forallb_forall in F. intros c I. apply hexy_char. apply F. exact I.
  - split.
    + intros (b & H). apply C02_exactly in H. rewrite H. reflexivity.
    + intros H. rewrite (C02_otherwise s); [reflexivity|]. intros b Q. apply H. exists b. exact Q.
Qed.
(** No id is computed for one. *)
Theorem C27_not_hex_id {CR : Crypto} s : ~ Hexadecimal s -> calc_txid s = Raise AttributeError \/ calc_txid s = Raise ValueError.
Proof.
  intros N. destruct (C27_not_hex s N) as [H1 H2]. destruct (hex_to_bytes s) as [b|x] eqn:E.
  - left. unfold calc_txid. rewrite H1; [reflexivity|]. exists b. apply C02_exactly. exact E.
  - right. unfold calc_txid. rewrite H2; [reflexivity|]. intros (b & Q). apply C02_exactly in Q. congruence.
Qed.

(** A blank between two bytes; a letter that is no digit. *)
Example C27_not_hex_case : ~ Hexadecimal (str "01 000") /\ deserialize_hex (str "01 000") = Raise ValueError /\ deserialize_hex (str "0100 00 ") = Raise AttributeError /\
  deserialize_hex (str "01x0") = Raise ValueError.
Proof.
  split; [|vm_compute; auto]. intros H. unfold Hexadecimal in H. rewrite Forall_forall in H. specialize (H 32). assert (I : In 32 (str "01 000")) by (cbn; tauto). specialize (H I). lia.
Qed.
Print Assumptions C27_not_hex.
Print Assumptions C27_not_hex_id.
