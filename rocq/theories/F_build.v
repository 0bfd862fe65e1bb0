(** The unsigned transaction made by create_new_transaction. *)
From Coq Require Import String.
From Verif Require Import F_wallet P_outputs F_spend.

(** What a transaction paying [o] contains for it. *)
Definition OutFor {CR : Crypto} (o : dest * Z) (x : tout) : Prop :=
  o_value x = snd o /\
  match fst o with
  | Addr a => address_to_scriptpubkey a = Ok (Some (o_script x))
  | Data b => o_script x = [0x6a; zlen b] ++ b
  end.
(** The input that a new transaction has for a coin. *)
Definition InFor (u : Unspent) (x : tin) : Prop := SpendsOutpoint x u /\ i_seq x = u_sequence u.
(** Transaction ids have 32 bytes, data consists of bytes. *)
Definition TxidOk (u : Unspent) : Prop := exists t, hex_to_bytes (u_txid u) = Ok t /\ length t = 32%nat.
Definition DataOk (o : dest * Z) : Prop := match fst o with Data b => bytes_ok b = true | Addr _ => True end.

Section WithCrypto.
Context {CR : Crypto}.

Lemma bytes_ok_skipn n b : bytes_ok b = true -> bytes_ok (skipn n b) = true.
Proof.
  intros H. apply bytes_ok_Forall. apply bytes_ok_Forall in H. rewrite Forall_forall in *. intros z Hz. apply H.
  rewrite <- (firstn_skipn n b). apply in_or_app. auto.
Qed.
Lemma check_bytes_ok a b : b58decode_check a = Ok b -> bytes_ok b = true.
Proof.
  unfold b58decode_check. intros E. apply bind_ok in E as (d & Ed & E). destruct (list_eqb _ _); [|discriminate]. injection E as <-.
  apply b58decode_bytes_ok in Ed. rewrite <- (drop_take_last 4 d), bytes_ok_app in Ed. apply andb_true_iff in Ed as [Ed _]. auto.
Qed.
Lemma addr_script_ok a s : address_to_scriptpubkey a = Ok (Some s) -> bytes_ok s = true.
Proof.
  unfold address_to_scriptpubkey. intros E. apply bind_ok in E as (n & En & E).
  assert (G : forall h, address_to_public_key_hash a = Ok h -> bytes_ok h = true).
  { unfold address_to_public_key_hash. intros h Eh. apply bind_ok in Eh as (? & _ & Eh). apply bind_ok in Eh as (p & Ep & Eh). assert (h = skipn 1 p) as -> by congruence.
    apply bytes_ok_skipn. eapply check_bytes_ok; eauto. }
  destruct (b58decode_check a) as [p|e].
  - destruct (_ || _); [|destruct (_ || _); [|discriminate]]; apply bind_ok in E as (h & Eh & E);
      (assert (Q : forall x y : bytes, Ok (Some x) = Ok (Some y) -> x = y) by congruence); apply Q in E; rewrite <- E;
      rewrite !bytes_ok_app, (G h Eh); reflexivity.
  - destruct e; try discriminate. unfold segwit_scriptpubkey in E. destruct (segwit_decode a) as [(v & p)|]; [|discriminate].
    cbv zeta in E. destruct (bytes_ok ([if v =? 0 then 0 else v + 80; zlen p] ++ p)) eqn:B; [|discriminate]. cbn [rmap] in E. injection E as <-. auto.
Qed.

Lemma outs_rep outs txouts : Forall DataOk outs -> construct_outputs outs = Ok txouts ->
  exists xs, Forall2 OutFor outs xs /\ Forall2 RepOut xs txouts.
Proof.
  intros D E. pose proof (C47_exact _ _ E) as F.
  assert (L : Forall2 (fun (o : dest * Z) t => CompactSize (zlen (script_pubkey t)) (script_pubkey_len t)) outs txouts).
  { clear F D. unfold construct_outputs in E. revert txouts E. induction outs as [|(d & n) outs IH]; intros l E; cbn [mapM] in E; [injection E as <-; constructor|].
    apply bind_ok in E as (t & E1 & E). apply bind_ok in E as (ts & E2 & E). injection E as <-. constructor; auto. clear -E1.
    assert (N : forall am s, new_out am s = Ok t -> CompactSize (zlen (script_pubkey t)) (script_pubkey_len t)).
    { intros am s E. unfold new_out in E. apply bind_ok in E as (l & El & E). injection E as <-. cbn [script_pubkey script_pubkey_len]. apply varint_spec; auto. }
    unfold construct_output in E1. destruct (negb _), d.
    - apply bind_ok in E1 as ([s|] & _ & E1); apply bind_ok in E1 as (am & _ & E1); eauto; discriminate.
    - discriminate.
    - apply bind_ok in E1 as (? & _ & E1). discriminate.
    - apply bind_ok in E1 as (l & _ & E1). eauto. }
  revert F L D. clear E. intros F. induction F as [|o t outs ts (H1 & H2 & H3) F IH]; intros L D.
  - exists []. split; constructor.
  - inversion L as [|? ? ? ? HL L']; subst. apply Forall_cons_iff in D as [D1 D2]. destruct (IH L' D2) as (xs & A & B).
    exists (Tout (snd o) (script_pubkey t) :: xs). split; constructor; auto.
    + split; auto. cbn [o_script]. destruct (fst o); apply H3.
    + constructor; auto. cbn [o_script]. destruct o as ([a|b] & n); cbn [fst snd] in *.
      * eapply addr_script_ok. apply H3.
      * destruct H3 as (_ & HB & ->). rewrite bytes_ok_app. unfold DataOk in D1. cbn [fst] in D1. rewrite D1.
        apply andb_true_iff. split; auto. apply bytes_ok_Forall. unfold zlen in *. repeat constructor; lia.
Qed.

Lemma new_input_ok u i : TxidOk u -> new_input u = Ok i -> exists x, InFor u x /\ i_script x = [] /\ i_wit x = [] /\ RepIn x i /\
  witness i = [] /\ in_is_segwit i = u_is_segwit u.
Proof.
  intros (t & Et & Lt) E. unfold new_input in E. rewrite Et in E. cbn [bind] in E. apply bind_ok in E as (vo & Ev & E). apply bind_ok in E as (am & Ea & E).
  apply bind_ok in E as (sq & Es & E). unfold new_in in E. apply bind_ok in E as (l & El & E). injection E as <-.
  assert (LE : forall n z b, to_bytes_le z n = Ok b -> LEnum n z b).
  { clear. intros n z b E. unfold to_bytes_le in E. destruct ((z <? 0) || _) eqn:Q; [discriminate|]. injection E as <-. apply LEnum_le_bytes. lia. }
  exists (Tin (rev t) (u_txindex u) [] (u_sequence u) []). split; [split; [split|]; cbn; auto; rewrite rev_involutive; auto|].
  split; auto. split; auto. split; [|split; auto].
  constructor; cbn; auto.
  - rewrite rev_length. auto.
  - apply bytes_ok_Forall. apply Forall_rev. apply bytes_ok_Forall. eapply hex_to_bytes_bytes_ok; eauto.
  - apply varint_spec in El. exact El.
  - unfold in_is_segwit. cbn. destruct (u_is_segwit u); reflexivity.
Qed.

Lemma build_rep us outs ins txouts : Forall TxidOk us -> Forall DataOk outs -> zlen us < 2 ^ 64 -> zlen outs < 2 ^ 64 ->
  construct_outputs outs = Ok txouts -> mapM new_input us = Ok ins ->
  let t := new_tx VERSION_1 ins txouts LOCK_TIME in
  exists x, RepObj x t /\ t_ver x = 1 /\ t_lock x = 0 /\ Forall2 InFor us (t_ins x) /\ Forall2 OutFor outs (t_outs x) /\
    Forall (fun i => i_script i = [] /\ i_wit i = []) (t_ins x) /\
    (existsb u_is_segwit us = true -> all_wit t) /\ (existsb u_is_segwit us = false -> no_wits t).
Proof.
  intros T D Nu No Eo Ei t. destruct (outs_rep _ _ D Eo) as (xo & FO & RO).
  assert (G : exists xs, Forall2 InFor us xs /\ Forall (fun i => i_script i = [] /\ i_wit i = []) xs /\ Forall2 RepIn xs ins /\
     Forall (fun i => witness i = []) ins /\ existsb in_is_segwit ins = existsb u_is_segwit us).
  { clear -T Ei. revert ins Ei. induction T as [|u us Hu T IH]; intros ins E; cbn [mapM] in E; [injection E as <-; exists []; repeat split; constructor|].
    apply bind_ok in E as (i & E1 & E). apply bind_ok in E as (is & E2 & E). injection E as <-.
    destruct (new_input_ok u i Hu E1) as (x & A & B & C & R & W & S). destruct (IH is E2) as (xs & A' & B' & R' & W' & S').
    exists (x :: xs). split; [constructor; auto|]. split; [constructor; auto|]. split; [constructor; auto|]. split; [constructor; auto|].
    cbn [existsb]. rewrite S, S'. reflexivity. }
  destruct G as (xs & FI & FS & RI & FW & SG).
  assert (LI : length ins = length us) by (rewrite <- (F2_len _ _ _ RI); symmetry; apply (F2_len _ _ _ FI)).
  assert (LO : length txouts = length outs) by (rewrite <- (F2_len _ _ _ RO); symmetry; apply (F2_len _ _ _ FO)).
  set (w := if existsb in_is_segwit ins then [0] else []).
  assert (TI : TxIns t = map (fun i => set_witness i w) ins).
  { unfold t, new_tx, w. cbn [TxIns]. clear -FW. destruct (existsb in_is_segwit ins).
    - apply map_ext_in. intros i Hi. rewrite Forall_forall in FW. rewrite (FW i Hi). reflexivity.
    - rewrite <- (map_id ins) at 1. apply map_ext_in. intros i Hi. rewrite Forall_forall in FW. specialize (FW i Hi). destruct i. cbn in *. subst. reflexivity. }
  assert (EW : w = [] \/ EncStack [] w).
  { unfold w. destruct (existsb _ _); auto. right. exists [0], []. split; [constructor; cbn; lia|]. split; [constructor|reflexivity]. }
  assert (Ew : w = if existsb in_is_segwit ins then [0] else []) by reflexivity. clearbody w.
  exists (Tx 1 xs xo 0). split.
  { constructor. rewrite TI. unfold t, new_tx. cbn [version TxOuts locktime]. constructor; cbn [t_ver t_ins t_outs t_lock]; auto.
    - apply LE4_1.
    - clear -RI. induction RI as [|x i xs is R F IH]; cbn; constructor; auto. destruct R. constructor; auto.
    - clear -RI FS EW. induction RI as [|x i xs is R F IH]; cbn; constructor; [|apply Forall_cons_iff in FS as [_ FS]; auto].
      apply Forall_cons_iff in FS as [[_ Q] _]. split; [rewrite Q; constructor|]. cbn [set_witness witness]. rewrite Q. destruct EW; auto.
    - unfold zlen in *. rewrite map_length, LI. auto.
    - unfold zlen in *. rewrite LO. auto.
    - apply (LEnum_le_bytes 4 0). cbn. lia. }
  split; auto. split; auto. split; auto. split; auto. split; auto. unfold all_wit, no_wits. rewrite TI. rewrite <- SG. split; intros Q; rewrite Q in Ew; subst w.
  - clear. induction ins; cbn; constructor; auto. discriminate.
  - clear. induction ins; cbn; constructor; auto.
Qed.
End WithCrypto.
