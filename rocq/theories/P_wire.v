(** C24 and C26 for transactions made by anyone: every encoding that the standard
    allows is read. *)
From Verif Require Import F_base F_tx F_sign F_signtx F_cosigntx F_wire P_tx.

(** Every encoding of a transaction with an input, in either format and whoever
    made it, is read as that transaction (without witnesses if the encoding has
    none) and written back as the same bytes. *)
Theorem C24_reads_any x b : t_ins x <> [] -> bytes_ok b = true ->
  (EncSegwit x b -> exists t, deserialize_hex (bytes_to_hex b) = Ok t /\ RepObj x t /\ to_hex t = Ok (bytes_to_hex b)) /\
  (EncLegacy x b -> exists t, deserialize_hex (bytes_to_hex b) = Ok t /\ RepObj (strip_witness x) t /\ to_hex t = Ok (bytes_to_hex b)).
Proof. intros NE OK. split; intros E; [apply read_segwit_tx; auto|apply read_legacy_tx; auto]. Qed.
Print Assumptions C24_reads_any.

(** Its id is the double SHA-256 of the encoding without witnesses, in reverse. *)
Theorem C26_txid_any {CR : Crypto} x b : t_ins x <> [] -> bytes_ok b = true -> EncSegwit x b \/ EncLegacy x b ->
  exists base, EncLegacy x base /\ calc_txid (bytes_to_hex b) = Ok (bytes_to_hex (rev (sha256 (sha256 base)))).
Proof. apply txid_encoding. Qed.
Print Assumptions C26_txid_any.

Example C24_any_hypotheses : t_ins ex_tx <> [] /\ exists b, bytes_ok b = true /\ EncSegwit ex_tx b.
Proof.
  split; [discriminate|]. destruct (rep_full ex_tx ex_tx_wf) as (t & R & W). assert (NT : TxIns t <> []) by (apply (rep_ins _ _ R); discriminate).
  destruct (obj_bytes _ _ R NT (or_introl W)) as (b & E & H & _). exists b. split; [eapply obj_bytes_ok; eauto|apply H; auto].
Qed.
