(** C46, C47: message outputs and amounts. *)
From Coq Require Import String.
From Verif Require Import F_wallet F_utf8 S_Utf8 S_Script S_Wire P_utils F_redeem.

(** ** C47: construct_outputs encodes amounts exactly or raises. *)
Section WithCrypto.
Context {CR : Crypto}.

Theorem C47_payment a n script : address_to_scriptpubkey a = Ok (Some script) -> zlen script < 2 ^ 64 ->
  (0 < n < 2 ^ 64 -> exists out, construct_outputs [(Addr a, n)] = Ok [out] /\ LEnum 8 n (out_amount out) /\ script_pubkey out = script) /\
  (n < 0 \/ 2 ^ 64 <= n -> construct_outputs [(Addr a, n)] = Raise OverflowError) /\
  (n = 0 -> zlen a < 256 -> construct_outputs [(Addr a, n)] = Raise TypeError).
Proof.
  intros Ea Hs. unfold construct_outputs. cbn [mapM construct_output]. split; [|split].
  - intros Hn. replace (n =? 0) with false by lia. cbn [negb]. rewrite Ea. cbn [bind].
    rewrite to_bytes_le_ok' by (change (256 ^ Z.of_nat 8) with (2 ^ 64); lia). cbn [bind]. unfold new_out.
    destruct (cs_exists _ Hs) as (l & El & _). rewrite El. cbn [bind]. eexists. split; [reflexivity|]. split; [|reflexivity].
    apply (LEnum_le_bytes 8). cbn. lia.
  - intros Hn. replace (n =? 0) with false by lia. cbn [negb]. rewrite Ea. cbn [bind]. unfold to_bytes_le.
    change (256 ^ Z.of_nat 8) with (2 ^ 64). replace ((n <? 0) || (2 ^ 64 <=? n)) with true by lia. reflexivity.
  - intros -> Ha. cbn [Z.eqb negb]. rewrite to_bytes_le_ok' by (change (256 ^ Z.of_nat 1) with 256; unfold zlen in *; lia). reflexivity.
Qed.

(** Whatever the list: a result has one output per entry, with that amount. *)
Theorem C47_exact outs txouts : construct_outputs outs = Ok txouts ->
  Forall2 (fun o t => 0 <= snd o < 2 ^ 64 /\ LEnum 8 (snd o) (out_amount t) /\
    match fst o with
    | Addr a => 0 < snd o /\ address_to_scriptpubkey a = Ok (Some (script_pubkey t))
    | Data b => snd o = 0 /\ zlen b < 256 /\ script_pubkey t = [0x6a; zlen b] ++ b
    end) outs txouts.
Proof.
  unfold construct_outputs. revert txouts. induction outs as [|(d & n) outs IH]; intros l E; cbn [mapM] in E; [injection E as <-; constructor|].
  apply bind_ok in E as (t & E1 & E). apply bind_ok in E as (ts & E2 & E). injection E as <-. constructor; auto. clear -E1.
  cbn [fst snd]. unfold construct_output in E1. destruct (Z.eqb_spec n 0) as [->|Hn]; cbn [negb] in E1.
  - destruct d as [a|b]; [apply bind_ok in E1 as (? & _ & E1); discriminate|].
    apply bind_ok in E1 as (ln & El & E1). unfold to_bytes_le in El. destruct ((zlen b <? 0) || _) eqn:Eb; [discriminate|]. injection El as <-.
    change (256 ^ Z.of_nat 1) with 256 in Eb. unfold new_out in E1. apply bind_ok in E1 as (x & _ & E1). injection E1 as <-. cbn [out_amount script_pubkey].
    split; [lia|]. split; [apply (LEnum_le_bytes 8 0); cbn; lia|]. split; auto. split; [lia|].
    cbn [le_bytes app OP_RETURN]. rewrite Z.mod_small by (unfold zlen in *; lia). reflexivity.
  - destruct d as [a|b]; [|discriminate]. apply bind_ok in E1 as (s & Ea & E1). apply bind_ok in E1 as (am & Eam & E1).
    destruct s as [script|]; [|discriminate]. unfold new_out in E1. apply bind_ok in E1 as (x & _ & E1). injection E1 as <-. cbn [out_amount script_pubkey].
    unfold to_bytes_le in Eam. destruct ((n <? 0) || _) eqn:Eb; [discriminate|]. injection Eam as <-. change (256 ^ Z.of_nat 8) with (2 ^ 64) in Eb.
    split; [lia|]. split; [apply (LEnum_le_bytes 8); cbn; lia|]. split; [lia|auto].
Qed.

(** ** C46 *)
Definition MsgBytes (m : msg) (is_hex : bool) (b : bytes) : Prop :=
  match m with MText s => is_hex = false /\ Utf8 s b | MBytes c => is_hex = true /\ b = c end.

(** The data cut into pieces of 80 bytes, the last one possibly shorter. *)
Definition Chunks (b : bytes) (chunks : list bytes) : Prop :=
  concat chunks = b /\ forall i c, nth_error chunks i = Some c -> (1 <= length c <= 80)%nat /\ (S i < length chunks -> length c = 80)%nat.

Theorem C46_payloads m is_hex b : MsgBytes m is_hex b ->
  exists chunks, message_outputs (Some m) is_hex = Ok (map (fun c => (Data c, 0)) chunks) /\ Chunks b chunks.
Proof.
  intros M. destruct (C04_chunks Z b 80 ltac:(lia)) as (Cc & Cs). exists (chunk_data b 80). split; [|split; auto].
  destruct m as [s|c]; destruct M as [-> M].
  - destruct (Utf8_chars _ _ M) as (H1 & H2 & _). destruct (utf8_ok s H1 H2) as (b' & E & M'). rewrite (Utf8_fun _ _ _ M' M) in E.
    unfold message_outputs. destruct s as [|c s]; [inversion M; subst; reflexivity|]. cbn [msg_empty]. rewrite E. cbn [bind].
    rewrite map_map. reflexivity.
  - subst c. unfold message_outputs. destruct b as [|x b]; [reflexivity|]. cbn [msg_empty]. cbn [bind]. rewrite map_map. reflexivity.
Qed.

Lemma take_exact_len n : forall s d r, take_exact n s = Some (d, r) -> (length d <= length s)%nat.
Proof.
  induction n as [|n IH]; intros s d r E; cbn in E; [injection E as <- <-; cbn; lia|]. destruct s as [|x s]; [discriminate|].
  destruct (take_exact n s) as [(d' & r')|] eqn:E'; [|discriminate]. injection E as <- <-. cbn. apply IH in E'. lia.
Qed.
Lemma take_push_len n s d r : take_push n s = Some (Push d, r) -> (length d <= length s)%nat.
Proof.
  unfold take_push. destruct (_ <? _); [discriminate|]. destruct (take_exact _ s) as [(d' & r')|] eqn:E; [|discriminate].
  intros Q. injection Q as <- <-. eapply take_exact_len; eauto.
Qed.
Lemma take_exact_all s : take_exact (length s) s = Some (s, []).
Proof. induction s; cbn; auto. rewrite IHs. auto. Qed.

Definition ReadsAsMessage (script c : bytes) : Prop := ParsesTo script [Op OP_RETURN_code; Push c].

Lemma read_back c d : (1 <= length c <= 80)%nat -> ReadsAsMessage ([0x6a; zlen c] ++ c) d ->
  (length c <= 75 -> d = c)%nat /\ (76 <= length c -> length d < length c)%nat.
Proof.
  intros L P. unfold ReadsAsMessage in P. inversion P as [|s o r ops N P1]; subst. clear P. cbn in N. injection N as <-.
  inversion P1 as [|s o r ops N P2]; subst. clear P1 P2. unfold zlen in N. cbn [next_op] in N. split.
  - intros Hl. replace (Z.of_nat (length c) <=? 75) with true in N by lia. unfold take_push in N. rewrite Z.ltb_irrefl, Nat2Z.id, take_exact_all in N. congruence.
  - intros Hl. replace (Z.of_nat (length c) <=? 75) with false in N by lia.
    destruct (Z.eqb_spec (Z.of_nat (length c)) 76) as [Hc|Hc].
    { destruct c as [|x0 c]; [discriminate|]. apply take_push_len in N. cbn in *. lia. }
    destruct (Z.eqb_spec (Z.of_nat (length c)) 77) as [Hc'|Hc'].
    { destruct c as [|x0 [|x1 c]]; try discriminate. apply take_push_len in N. cbn in *. lia. }
    destruct (Z.eqb_spec (Z.of_nat (length c)) 78) as [Hc''|Hc''].
    { destruct c as [|x0 [|x1 [|x2 [|x3 c]]]]; try discriminate. apply take_push_len in N. cbn in *. lia. }
    discriminate.
Qed.

Theorem C46_scripts c out : (1 <= length c <= 80)%nat -> construct_outputs [(Data c, 0)] = Ok [out] ->
  ReadsAsMessage (script_pubkey out) c <-> (length c <= 75)%nat.
Proof.
  intros L E. apply C47_exact in E. inversion E as [|? ? ? ? Q _]; subst. cbn [fst snd] in Q. destruct Q as (_ & _ & _ & _ & Es). rewrite Es. clear E Es out. split.
  - intros P. destruct (Nat.le_gt_cases (length c) 75); auto. destruct (read_back c c ltac:(lia) P) as [_ Q]. lia.
  - intros Hl. unfold ReadsAsMessage. cbn [app]. econstructor; [reflexivity|]. econstructor; [|constructor].
    unfold next_op, zlen. replace (Z.of_nat (length c) <=? 75) with true by lia. unfold take_push.
    rewrite Z.ltb_irrefl, Nat2Z.id, take_exact_all. reflexivity.
Qed.

(** Message outputs are always constructed, and carry no value. *)
Theorem C46_constructed c : (length c <= 80)%nat -> exists out, construct_outputs [(Data c, 0)] = Ok [out] /\ LEnum 8 0 (out_amount out) /\
  script_pubkey out = [0x6a; Z.of_nat (length c)] ++ c.
Proof.
  intros L. unfold construct_outputs. cbn [mapM construct_output Z.eqb negb].
  rewrite to_bytes_le_ok' by (change (256 ^ Z.of_nat 1) with 256; unfold zlen in *; lia). cbn [bind]. unfold new_out.
  assert (Hs : zlen (OP_RETURN ++ le_bytes 1 (zlen c) ++ c) < 2 ^ 64) by (unfold zlen; rewrite !app_length; cbn; lia).
  destruct (cs_exists _ Hs) as (l & El & _). rewrite El. cbn [bind]. eexists. split; [reflexivity|]. cbn [out_amount script_pubkey].
  split; [apply (LEnum_le_bytes 8 0); cbn; lia|]. cbn [le_bytes app OP_RETURN]. rewrite Z.mod_small by (unfold zlen; lia). reflexivity.
Qed.

(** Exactly the messages of up to 75 bytes can be read back by script rules. *)
Theorem C46_readable_iff m is_hex b msgs txouts : MsgBytes m is_hex b -> b <> [] ->
  message_outputs (Some m) is_hex = Ok msgs -> construct_outputs msgs = Ok txouts ->
  ((exists chunks, Forall2 (fun t c => ReadsAsMessage (script_pubkey t) c) txouts chunks /\ concat chunks = b) <-> (length b <= 75)%nat).
Proof.
  intros M NE Em Ec. destruct (C46_payloads m is_hex b M) as (chunks & Em' & Cc & Cs). rewrite Em in Em'. injection Em' as ->.
  apply C47_exact in Ec.
  assert (F : Forall2 (fun c t => script_pubkey t = [0x6a; zlen c] ++ c) chunks txouts).
  { clear -Ec. revert txouts Ec. induction chunks; intros t E; inversion E as [|? ? ? ? Q E']; subst; constructor; auto; cbn [fst snd] in Q; apply Q. }
  clear Ec. assert (RD : forall c t, (1 <= length c <= 80)%nat -> script_pubkey t = [0x6a; zlen c] ++ c ->
     forall d, ReadsAsMessage (script_pubkey t) d -> (length c <= 75 -> d = c)%nat /\ ((76 <= length c)%nat -> (length d < length c)%nat)).
  { intros c t L Es d P. rewrite Es in P. apply read_back; auto. }
  split.
  - intros (ds & Fd & Cd). destruct (Nat.le_gt_cases (length b) 75); auto. exfalso.
    assert (SZ : forall c, In c chunks -> (1 <= length c <= 80)%nat) by (intros c Hc; apply In_nth_error in Hc as (i & Hc); apply (Cs i c Hc)).
    destruct chunks as [|c0 rest]; [cbn in Cc; subst b; contradiction|].
    assert (H0 : (76 <= length c0)%nat).
    { destruct rest as [|c1 rest]; [cbn in Cc; rewrite app_nil_r in Cc; subst b; lia|]. destruct (Cs 0%nat c0 eq_refl) as [_ Q]. cbn in Q. lia. }
    assert (LE : forall cs ts ds, (forall c, In c cs -> (1 <= length c <= 80)%nat) -> Forall2 (fun c t => script_pubkey t = [0x6a; zlen c] ++ c) cs ts ->
       Forall2 (fun t c => ReadsAsMessage (script_pubkey t) c) ts ds -> (length (concat ds) <= length (concat cs))%nat).
    { clear -RD. intros cs ts ds S F. revert ds. induction F as [|c t cs ts H F IH]; intros ds G; inversion G; subst; cbn; auto.
      rewrite !app_length. assert (length y <= length c)%nat.
      { destruct (RD c t (S c (or_introl eq_refl)) H y H2) as [Q1 Q2]. destruct (Nat.le_gt_cases (length c) 75); [rewrite Q1; auto|]. lia. }
      assert (length (concat l') <= length (concat cs))%nat by (apply IH; auto; intros; apply S; right; auto). lia. }
    inversion F as [|c t cs ts H1 F']; subst. inversion Fd as [|t' d ts' ds' G1 G2]; subst.
    destruct (RD c0 t (SZ c0 (or_introl eq_refl)) H1 d G1) as [_ Q]. specialize (Q H0).
    assert (length (concat ds') <= length (concat rest))%nat by (eapply LE; eauto; intros; apply SZ; right; auto).
    apply (f_equal (@length Z)) in Cd. cbn in Cd. rewrite !app_length in Cd. lia.
  - intros Hb. exists chunks. split; auto.
    assert (SZ : forall c, In c chunks -> (1 <= length c <= 75)%nat).
    { intros c Hc. pose proof Hc as Hc'. apply In_nth_error in Hc as (i & Hc). destruct (Cs i c Hc) as [Q _]. split; [lia|].
      apply in_split in Hc' as (l1 & l2 & ->). subst b. rewrite concat_app in Hb. cbn in Hb. rewrite !app_length in Hb. lia. }
    clear -F SZ. induction F as [|c t cs ts H F IH]; constructor.
    + assert (L : (1 <= length c <= 75)%nat) by (apply SZ; left; auto). unfold ReadsAsMessage. rewrite H. cbn [app].
      econstructor; [reflexivity|]. econstructor; [|constructor].
      unfold next_op, zlen. replace (Z.of_nat (length c) <=? 75) with true by lia. unfold take_push.
      rewrite Z.ltb_irrefl, Nat2Z.id, take_exact_all. reflexivity.
    + apply IH. intros; apply SZ; right; auto.
Qed.

(** Text given as hex, and bytes not given as hex, never get into a transaction. *)
Theorem C46_wrong_kind s b : s <> [] -> b <> [] ->
  (exists msgs, message_outputs (Some (MText s)) true = Ok msgs /\ construct_outputs msgs = Raise TypeError) /\
  message_outputs (Some (MBytes b)) false = Raise AttributeError.
Proof.
  intros NE NB. split; [|destruct b; [contradiction|reflexivity]]. destruct s as [|x s]; [contradiction|]. eexists. split; [reflexivity|].
  unfold chunk_data. cbn [length chunk_fuel map mapM construct_outputs]. unfold construct_outputs. cbn [mapM construct_output Z.eqb negb].
  assert (0 <= zlen (firstn MESSAGE_LIMIT (x :: s)) <= 80). { unfold zlen. pose proof (firstn_le_length MESSAGE_LIMIT (x :: s)). unfold MESSAGE_LIMIT in *. lia. }
  rewrite to_bytes_le_ok' by (change (256 ^ Z.of_nat 1) with 256; lia). reflexivity.
Qed.
End WithCrypto.
Print Assumptions C46_payloads.
Print Assumptions C46_scripts.
Print Assumptions C46_constructed.
Print Assumptions C46_readable_iff.
Print Assumptions C46_wrong_kind.
Print Assumptions C47_payment.
Print Assumptions C47_exact.
