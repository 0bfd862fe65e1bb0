(** C83: messages signed by a key, its public point.  C84: equality of transaction
    objects. *)
From Coq Require Import String.
From Verif Require Import F_base F_curve F_tx F_signtx F_wire M_objects P_format P_keys P_wire S_Curve S_Tx X_vectors.

(** ** C83 *)
(** The public key is the SEC1 form, compressed or not, of a point of the curve. *)
Definition HasPoint (k : PrivateKey) (x y : Z) : Prop :=
  OnCurve x y /\ (SEC1_compressed x y (k_public_key k) \/ SEC1_uncompressed x y (k_public_key k)).

Lemma be_value_inj a b : Forall (fun z => 0 <= z < 256) a -> Forall (fun z => 0 <= z < 256) b -> length a = length b -> be_value a = be_value b -> a = b.
Proof. intros A B L. rewrite !be_value_from_be. apply from_be_inj; auto; apply bytes_ok_Forall; auto. Qed.

Theorem C83_point k x y : HasPoint k x y ->
  key_public_point k = Ok (x, y) /\ point_to_public_key (x, y) (key_is_compressed k) = Ok (k_public_key k).
Proof.
  intros (OC & [H|H]).
  - destruct (C16_roundtrip x y true OC) as (key & E & S1 & D). destruct H as (xb & L & F & V & K), S1 as (xb' & L' & F' & V' & K').
    assert (xb = xb') by (apply be_value_inj; congruence). subst xb'. assert (EK : k_public_key k = key) by congruence. unfold key_public_point, point_to_public_key.
    assert (C : key_is_compressed k = true) by (unfold key_is_compressed, zlen; rewrite K; cbn [length]; rewrite L; reflexivity).
    rewrite EK, C. split; auto.
  - destruct (C16_roundtrip x y false OC) as (key & E & S1 & D). destruct H as (xb & yb & L & Ly & F & Fy & V & Vy & K), S1 as (xb' & yb' & L' & Ly' & F' & Fy' & V' & Vy' & K').
    assert (xb = xb') by (apply be_value_inj; congruence). assert (yb = yb') by (apply be_value_inj; congruence). subst xb' yb'.
    assert (EK : k_public_key k = key) by congruence. unfold key_public_point, point_to_public_key.
    assert (C : key_is_compressed k = false) by (unfold key_is_compressed, zlen; rewrite K; cbn [length]; rewrite app_length, L, Ly; reflexivity).
    rewrite EK, C. split; auto.
Qed.
(** The point does not depend on the network or on compression. *)
Theorem C83_same_point k k' x y : HasPoint k x y -> HasPoint k' x y -> key_public_point k = key_public_point k'.
Proof. intros H H'. destruct (C83_point _ _ _ H) as [-> _], (C83_point _ _ _ H') as [-> _]. reflexivity. Qed.

Section WithCrypto.
Context {CR : Crypto} (EO : EcOk CR).

(** What a key signs is verified by itself and by every key that equals it,
    whatever its network or compression. *)
Theorem C83_signatures v s c k v' s' c' k' m : IsKey v s c k -> IsKey v' s' c' k' -> KeyOk k' -> key_eqb k k' = true ->
  key_verify k' (key_sign k m) m = Ok true /\ verify_sig (key_sign k m) m (k_public_key k') = Ok true /\ key_sign k m = key_sign k' m.
Proof.
  intros I I' K E. apply (C70_equality _ _ _ _ _ _ _ _ I I') in E. subst s'. destruct I as (_ & S1 & _), I' as (_ & S2 & _).
  unfold key_sign, key_verify, verify_sig. rewrite S1, <- S2. split; [|split; auto]; apply (ko_verify _ K).
Qed.
(** The hexadecimal form of the public key reads back as the public key. *)
Theorem C83_pub_hex k : bytes_ok (k_public_key k) = true -> hex_to_bytes (key_pub_to_hex k) = Ok (k_public_key k).
Proof. intros B. apply HexOf_hex_to_bytes, bytes_to_hex_HexOf. auto. Qed.
End WithCrypto.
Print Assumptions C83_point.
Print Assumptions C83_same_point.
Print Assumptions C83_signatures.
Print Assumptions C83_pub_hex.

(** The key of the tests of bit and its point. *)
Example C83_hypotheses :
  HasPoint key0 27753912938952041417634381842191885283234814940840273460372041880794577257268 53663045980837260634637807506183816949039230809110041985901491152185762425315 /\
  key_is_compressed key0 = false.
Proof.
  split; [|vm_compute; reflexivity]. split; [repeat split; vm_compute; congruence|]. right.
  exists (firstn 32 (skipn 1 (k_public_key key0))), (skipn 33 (k_public_key key0)).
  do 2 (split; [vm_compute; reflexivity|]). do 2 (split; [apply bytes_ok_Forall; vm_compute; reflexivity|]). repeat split; vm_compute; reflexivity.
Qed.

(** ** C84 *)
Lemma all_eqb_eq {A} (eqb : A -> A -> bool) : (forall a b, eqb a b = true <-> a = b) -> forall l m, all_eqb eqb l m = true <-> l = m.
Proof.
  intros H. induction l as [|a l IH]; intros [|b m]; cbn; try (split; congruence). rewrite andb_true_iff, H, IH. split; [intros [-> ->]; auto|intros [= -> ->]; auto].
Qed.
Lemma in_eqb_eq a b : in_eqb a b = true <-> a = b.
Proof.
  unfold in_eqb. rewrite !andb_true_iff, !list_eqb_eq, Bool.eqb_true_iff. destruct a, b. cbn. split.
  - intros (((((((-> & ->) & ->) & ->) & ->) & H) & ->) & ->). f_equal. destruct amount, amount0; try discriminate; auto. apply list_eqb_eq in H. congruence.
  - intros [= -> -> -> -> -> -> -> ->]. repeat split; auto. destruct amount0; auto. apply list_eqb_eq. auto.
Qed.
Lemma out_eqb_eq a b : out_eqb a b = true <-> a = b.
Proof.
  unfold out_eqb. rewrite !andb_true_iff, !list_eqb_eq. destruct a, b. cbn. split; [intros ((-> & ->) & ->); auto|intros [= -> -> ->]; auto].
Qed.
(** Equality compares everything. *)
Theorem C84_equal_iff t u : tx_eqb t u = true <-> t = u.
Proof.
  unfold tx_eqb. rewrite !andb_true_iff, !list_eqb_eq, (all_eqb_eq _ in_eqb_eq), (all_eqb_eq _ out_eqb_eq). destruct t, u. cbn.
  split; [intros (((-> & ->) & ->) & ->); auto|intros [= -> -> -> ->]; auto].
Qed.
(** Of transactions read from their encodings, two are equal exactly if the
    encodings are: neither another witness nor another format goes unnoticed. *)
Theorem C84_read_iff x y a b t u : t_ins x <> [] -> t_ins y <> [] -> bytes_ok a = true -> bytes_ok b = true ->
  EncSegwit x a \/ EncLegacy x a -> EncSegwit y b \/ EncLegacy y b ->
  deserialize_hex (bytes_to_hex a) = Ok t -> deserialize_hex (bytes_to_hex b) = Ok u ->
  (tx_eqb t u = true <-> a = b).
Proof.
  intros NX NY BA BB EA EB Da Db. rewrite C84_equal_iff. split; [|congruence]. intros <-.
  assert (H : forall x a, t_ins x <> [] -> bytes_ok a = true -> EncSegwit x a \/ EncLegacy x a -> deserialize_hex (bytes_to_hex a) = Ok t -> to_hex t = Ok (bytes_to_hex a)).
  { clear. intros x a NX BA [E|E] D; destruct (C24_reads_any x a NX BA) as [HS HL]; [destruct (HS E) as (t' & D' & _ & T)|destruct (HL E) as (t' & D' & _ & T)]; congruence. }
  pose proof (H _ _ NX BA EA Da) as Ta. pose proof (H _ _ NY BB EB Db) as Tb. apply hex_inj; auto. congruence.
Qed.

Lemma read_n_all {A} (P : A -> Prop) (f : bytes -> result (A * bytes)) : (forall s a r, f s = Ok (a, r) -> P a) ->
  forall n s l r, read_n f n s = Ok (l, r) -> Forall P l.
Proof.
  intros H. induction n as [|n IH]; intros s l r E; cbn [read_n] in E; [injection E as <- <-; constructor|].
  apply bind_ok in E as ((a & s1) & E1 & E). apply bind_ok in E as ((l1 & s2) & E2 & E). injection E as <- <-. constructor; eauto.
Qed.
Lemma read_in_plain s i r : read_in s = Ok (i, r) -> amount i = None /\ segwit_input i = false.
Proof.
  unfold read_in. destruct (read_bytes s 32) as [? s1], (read_bytes s1 4) as [? s2]. intros E. apply bind_ok in E as ((sc & s3) & _ & E). destruct (read_bytes s3 4) as [sq s4].
  apply bind_ok in E as (j & N & E). injection E as <- <-. unfold new_in in N. apply bind_ok in N as (l & _ & N). injection N as <-. auto.
Qed.
Lemma deserialize_plain b t : deserialize b = Ok t -> Forall (fun i => amount i = None /\ segwit_input i = false) (TxIns t).
Proof.
  unfold deserialize. destruct (read_bytes b 4) as [v s]. set (sw := is_segwit_bytes b). intros E. apply bind_ok in E as ((ni & s1) & _ & E). apply bind_ok in E as ((ins & s2) & E1 & E).
  apply bind_ok in E as ((no & s3) & _ & E). apply bind_ok in E as ((outs & s4) & _ & E). apply bind_ok in E as ((ins' & s5) & E2 & E). destruct (read_bytes s5 4) as [lt s6]. injection E as <-.
  apply (read_n_all _ _ read_in_plain) in E1.
  assert (H : Forall (fun i => amount i = None /\ segwit_input i = false) ins').
  { destruct sw; [|injection E2 as <- <-; auto]. apply bind_ok in E2 as ((ws & s7) & _ & E2). injection E2 as <- <-. apply Forall_forall. intros i Hi. apply in_map_iff in Hi as ((j & w) & <- & Hj).
    apply in_combine_l in Hj. rewrite Forall_forall in E1. apply E1 in Hj. exact Hj. }
  unfold new_tx. cbn [TxIns]. destruct (existsb _ ins'); auto. apply Forall_forall. intros i Hi. apply in_map_iff in Hi as (j & <- & Hj). rewrite Forall_forall in H. apply H in Hj. exact Hj.
Qed.
(** A user may expect a transaction to equal what is read from its own encoding.
    It never does if an input carries its amount or is marked as segwit, as those
    of new transactions are: these are not part of the encoding. *)
Theorem C84_reread_differs_refuted t h u : to_hex t = Ok h -> deserialize_hex h = Ok u ->
  Exists (fun i => amount i <> None \/ segwit_input i = true) (TxIns t) -> tx_eqb t u = false.
Proof.
  intros _ D X. destruct (tx_eqb t u) eqn:E; auto. apply C84_equal_iff in E. subst u. exfalso. unfold deserialize_hex in D. destruct (forallb _ h).
  - apply bind_ok in D as (b & _ & D). apply deserialize_plain in D. rewrite Forall_forall in D. apply Exists_exists in X as (i & Hi & X). destruct (D i Hi) as [A B]. destruct X as [X|X]; congruence.
  - apply bind_ok in D as (b & _ & D). discriminate.
Qed.
Print Assumptions C84_equal_iff.
Print Assumptions C84_read_iff.
Print Assumptions C84_reread_differs_refuted.

(** Two transactions of the tests of bit; C24_any_hypotheses (P_wire) shows
    encodings as C84_read_iff asks for. *)
Example C84_read_example : exists t u, deserialize_hex final_segwit = Ok t /\ deserialize_hex final_batch = Ok u /\ tx_eqb t u = false /\ tx_eqb t t = true.
Proof.
  assert (G : match deserialize_hex final_segwit, deserialize_hex final_batch with Ok t, Ok u => negb (tx_eqb t u) && tx_eqb t t | _, _ => false end = true) by (vm_compute; reflexivity).
  destruct (deserialize_hex final_segwit) as [t|]; [|discriminate]. destruct (deserialize_hex final_batch) as [u|]; [|discriminate]. exists t, u. apply andb_true_iff in G as [G1 G2].
  repeat split; auto. destruct (tx_eqb t u); auto.
Qed.
(** A new transaction, not yet signed, is written, read back and differs. *)
Definition new_segwit : result TxObj := ins <- mapM new_input us_segwit ;; Ok (new_tx VERSION_1 ins [] LOCK_TIME).
Example C84_reread_hypotheses : exists t h u, new_segwit = Ok t /\ to_hex t = Ok h /\ deserialize_hex h = Ok u /\
  Exists (fun i => amount i <> None \/ segwit_input i = true) (TxIns t).
Proof.
  assert (G : match new_segwit with Ok t => match to_hex t with Ok h => match deserialize_hex h with Ok _ => existsb segwit_input (TxIns t) | _ => false end | _ => false end | _ => false end = true)
    by (vm_compute; reflexivity).
  destruct new_segwit as [t|]; [|discriminate]. destruct (to_hex t) as [h|] eqn:T; [|discriminate]. destruct (deserialize_hex h) as [u|] eqn:D; [|discriminate]. exists t, h, u. repeat split; auto.
  apply existsb_exists in G as (i & Hi & G). apply Exists_exists. exists i. auto.
Qed.
