(** C52: unspents survive conversion to a dictionary. *)
From Coq Require Import String.
From Verif Require Import F_base M_unspent.

(** Unspents reachable through the public operations. *)
Inductive Reachable : Unspent -> Prop :=
| r_new a c s i x t v w q : Reachable (new_unspent a c s i x t v w q)
| r_set u t v : Reachable u -> Reachable (set_type u t v)
| r_rbf u : Reachable u -> Reachable (opt_in_for_RBF u)
| r_dict d : Reachable (from_dict d).

(** Which types spend through a witness, by name (None: not known). *)
Definition spends_with_witness (name : pystr) : option bool :=
  if in_listb name [str "np2wkh"; str "np2wsh"; str "p2wkh"; str "p2wsh"] then Some true
  else if in_listb name [str "p2pkh"; str "p2pkh-uncompressed"; str "p2sh"] then Some false
  else None.

Lemma type_name_roundtrip t : type_of_name (type_name t) = t.
Proof. destruct t; reflexivity. Qed.

Lemma reachable_inv u : Reachable u -> u_segwit u = type_segwit (u_type u) /\ u_vsize u <> 0.
Proof.
  assert (V : forall t, type_vsize t <> 0) by (intros []; discriminate).
  induction 1 as [a c s i x t v w q|u t v H IH|u H IH|d].
  - split; auto. cbn [u_vsize new_unspent]. destruct v as [v|]; [|apply V]. destruct (v =? 0) eqn:E; [apply V|lia].
  - split; auto. cbn [u_vsize set_type]. destruct (v =? 0) eqn:E; [apply V|lia].
  - unfold opt_in_for_RBF. destruct (_ >? _); auto.
  - split; auto. cbn [u_vsize from_dict new_unspent]. destruct (_ =? 0) eqn:E; [apply V|lia].
Qed.

Theorem C52_dict_roundtrip u : Reachable u -> from_dict (to_dict u) = u.
Proof.
  intros H. apply reachable_inv in H as [H1 H2]. unfold from_dict, to_dict, new_unspent.
  cbn [d_amount d_confirmations d_script d_txid d_txindex d_type d_vsize d_segwit d_sequence].
  rewrite type_name_roundtrip, <- H1. replace (u_vsize u =? 0) with false by lia. destruct u; reflexivity.
Qed.
Print Assumptions C52_dict_roundtrip.

Theorem C52_flags_agree u : Reachable u ->
  u_segwit u = spends_with_witness (type_name (u_type u)) /\ u_vsize u <> 0.
Proof.
  intros H. apply reachable_inv in H as [H1 H2]. split; auto. rewrite H1. destruct (u_type u); reflexivity.
Qed.
Print Assumptions C52_flags_agree.

(** A type outside the table is stored as 'unknown', a known one as itself; the
    segwit argument of the constructor has no influence. *)
Theorem C52_unknown_types a c s i x t v w q :
  let u := new_unspent a c s i x t v w q in
  (In t (map type_name all_types) -> type_name (u_type u) = t) /\
  (~ In t (map type_name all_types) -> type_name (u_type u) = str "unknown") /\
  (forall w', new_unspent a c s i x t v w' q = u).
Proof.
  cbn [new_unspent u_type]. unfold type_of_name. split; [|split; auto].
  - intros H. destruct (find _ all_types) as [t'|] eqn:E.
    + apply find_some in E as [_ E]. apply list_eqb_eq in E. auto.
    + apply in_map_iff in H as (t' & <- & Ht). apply (find_none _ _ E) in Ht. cbv beta in Ht.
      assert (list_eqb (type_name t') (type_name t') = true) by (apply list_eqb_eq; auto). congruence.
  - intros H. destruct (find _ all_types) as [t'|] eqn:E; auto.
    apply find_some in E as [Hin E]. apply list_eqb_eq in E. exfalso. apply H. rewrite <- E. apply in_map. auto.
Qed.
Print Assumptions C52_unknown_types.

(** A direct write to an attribute leaves the reachable states, and then the
    conversion does not restore the object. *)
Example C52_direct_write_breaks :
  let u := mkU 1 1 [] [] 0 P2PKH 592 (Some true) 0 in from_dict (to_dict u) <> u.
Proof. cbv. discriminate. Qed.
Example C52_case : Reachable (opt_in_for_RBF (set_type (new_unspent 5 1 [] [] 0 (str "p2pkh") None None 0xffffffff) (str "np2wsh") 526)).
Proof. repeat constructor. Qed.

(** ** C69: equality is blind to confirmations, size and the exact type *)
Theorem C69_equality u v : unspent_eqb u v = true <->
  u_amount u = u_amount v /\ u_script u = u_script v /\ u_txid u = u_txid v /\ u_txindex u = u_txindex v /\ u_segwit u = u_segwit v /\ u_sequence u = u_sequence v.
Proof.
  unfold unspent_eqb, segwit_eqb. rewrite !andb_true_iff, !list_eqb_eq, !Z.eqb_eq.
  assert (G : (match u_segwit u, u_segwit v with Some x, Some y => Bool.eqb x y | None, None => true | _, _ => false end) = true <-> u_segwit u = u_segwit v).
  { destruct (u_segwit u) as [[]|], (u_segwit v) as [[]|]; cbn; intuition congruence. }
  rewrite G. tauto.
Qed.
Print Assumptions C69_equality.
Theorem C69_equivalence : (forall u, unspent_eqb u u = true) /\ (forall u v, unspent_eqb u v = unspent_eqb v u) /\
  (forall u v w, unspent_eqb u v = true -> unspent_eqb v w = true -> unspent_eqb u w = true).
Proof.
  split; [|split].
  - intros u. apply C69_equality. auto 7.
  - intros u v. apply eq_true_iff_eq. rewrite !C69_equality. intuition congruence.
  - intros u v w. rewrite !C69_equality. intuition congruence.
Qed.
Print Assumptions C69_equivalence.
(** Two coins of the same wallet state are told apart by their outpoint; a
    wallet's copy of a coin and its RBF copy are different unless its sequence
    already signals. *)
Theorem C69_rbf u : unspent_eqb u (opt_in_for_RBF u) = (u_sequence u <=? 4294967293).
Proof.
  apply eq_true_iff_eq. rewrite C69_equality, Z.leb_le. unfold opt_in_for_RBF. destruct (u_sequence u >? 4294967293) eqn:E; cbn; intuition lia.
Qed.
Print Assumptions C69_rbf.
Example C69_blind : unspent_eqb (new_unspent 5 1 [] [] 0 (str "p2pkh") None None 0) (new_unspent 5 9 [] [] 0 (str "p2sh") (Some 3) None 0) = true.
Proof. reflexivity. Qed.
