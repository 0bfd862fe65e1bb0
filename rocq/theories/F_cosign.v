(** Multisig wallets of co-signers: the state of an input and one signing step. *)
From Verif Require Export F_multi.

Section WithCrypto.
Context {CR : Crypto} (HO : HashOk CR).

(** What the co-signers' wallets share. *)
Record Env := mkEnv { e_ver : net; e_pubs : list bytes; e_m : Z; e_redeem : bytes }.
Definition wallet (e : Env) (k : PrivateKey) : MultiSig := mkMulti k (e_ver e) (e_pubs e) (e_m e) (e_redeem e).

(** m-of-n with distinct keys; signatures start with 30 (DER); no part of the
    redeem script is a valid signature. *)
Record EnvOk (e : Env) : Prop := {
  eo_redeem : multisig_to_redeemscript (e_pubs e) (e_m e) = Ok (e_redeem e);
  eo_m : 1 <= e_m e;
  eo_nodup : NoDup (e_pubs e);
  eo_ok : Forall (fun p => bytes_ok p = true) (e_pubs e);
  eo_der : forall b, der_ok b = true -> exists r, b = 0x30 :: r;
  eo_stray : forall a s b, e_redeem e = a ++ s ++ b -> der_ok s = true -> forall h p, In p (e_pubs e) -> ec_verify s h p = Ok false
}.
(** Signatures of a co-signer: DER, at most 72 bytes, valid for the own key only. *)
Record CoSigner (e : Env) (k : PrivateKey) : Prop := {
  cs_in : In (k_public_key k) (e_pubs e);
  cs_der : forall h, der_ok (ec_sign (k_secret k) h) = true;
  cs_ok : forall h, bytes_ok (ec_sign (k_secret k) h) = true;
  cs_len : forall h, (length (ec_sign (k_secret k) h) <= 72)%nat;
  cs_only : forall h p, In p (e_pubs e) -> ec_verify (ec_sign (k_secret k) h) h p = Ok (list_eqb (k_public_key k) p)
}.

(** A good table of signatures for the hash [h]. *)
Definition SigsGood (e : Env) (h : bytes) (s : sigmap) : Prop :=
  forall p g, In p (e_pubs e) -> s p = Some g ->
    exists der, g = der ++ [0x01] /\ der_ok der = true /\ bytes_ok der = true /\ (length der <= 72)%nat /\
      forall q, In q (e_pubs e) -> ec_verify der h q = Ok (list_eqb p q).

Lemma SigsGood_only e h s : SigsGood e h s -> forall p g, In p (e_pubs e) -> s p = Some g -> VerifiesOnly g h p (e_pubs e).
Proof. intros G p g I E q Iq. destruct (G p g I E) as (der & -> & _ & _ & _ & V). rewrite drop_last_app by reflexivity. auto. Qed.
Lemma SigsGood_len e h s : SigsGood e h s -> forall p g, In p (e_pubs e) -> s p = Some g -> (length g <= 75)%nat.
Proof. intros G p g I E. destruct (G p g I E) as (der & -> & _ & _ & L & V). rewrite app_length. cbn. lia. Qed.
Lemma SigsGood_set e h s k : CoSigner e k -> SigsGood e h s -> SigsGood e h (sset s (k_public_key k) (ec_sign (k_secret k) h ++ [0x01])).
Proof.
  intros [C1 C2 C3 C4 C5] G p g I E. unfold sset in E. destruct (list_eqb (k_public_key k) p) eqn:Q; [|apply G; auto].
  apply list_eqb_eq in Q. subst p. injection E as <-. eexists. split; [reflexivity|]. auto.
Qed.
Lemma SigsGood_none e h : SigsGood e h (fun _ => None).
Proof. intros p g _ E. discriminate. Qed.

(** ** The redeem script *)
Lemma pushes_even pubs : Forall key_len_ok pubs -> Nat.even (length (pushes pubs)) = true.
Proof.
  induction 1 as [|p l P K IH]; auto. change (pushes (p :: l)) with ((zlen p :: p) ++ pushes l). rewrite app_length, Nat.even_add, IH. cbn [length].
  destruct P as [-> | ->]; reflexivity.
Qed.
Lemma redeem_shape e : EnvOk e -> (3 <= length (e_redeem e) <= 520)%nat /\ e_m e <= 15 /\ zlen (e_pubs e) <= 15 /\ e_m e <= zlen (e_pubs e) /\
  Nat.odd (length (e_redeem e)) = true /\
  (exists r, e_redeem e = (e_m e + 80) :: r) /\ (exists a, e_redeem e = a ++ [0xae]) /\ bytes_ok (e_redeem e) = true /\ Forall key_len_ok (e_pubs e).
Proof.
  intros [E M _ O _ _]. destruct (redeem_multisig _ _ _ M E) as (_ & L1 & L2 & K).
  apply redeem_exact in E as (H1 & H2 & H3 & R); [|lia]. unfold zlen in *. rewrite R.
  assert (OD : Nat.odd (length ((e_m e + 80) :: pushes (e_pubs e) ++ [Z.of_nat (length (e_pubs e)) + 80; 174])) = true).
  { cbn [length]. rewrite app_length. cbn [length].
    replace (S (length (pushes (e_pubs e)) + 2)) with (S (S (S (length (pushes (e_pubs e)))))) by lia.
    rewrite Nat.odd_succ, Nat.even_succ, Nat.odd_succ. apply pushes_even; auto. }
  split; [rewrite R in L2; cbn [length] in *; rewrite app_length in *; cbn [length] in *; lia|]. split; [lia|]. split; [lia|]. split; [lia|]. split; auto.
  split; [eauto|]. split; [exists ((e_m e + 80) :: pushes (e_pubs e) ++ [Z.of_nat (length (e_pubs e)) + 80]); cbn [app]; rewrite <- app_assoc; reflexivity|]. split; auto.
  apply ok_cons; [lia|]. apply ok_app.
  - clear -O K. induction K as [|p l P K IH]; auto. apply Forall_cons_iff in O as [O1 O2]. cbn [pushes flat_map]. apply ok_app; [|apply IH; auto].
    apply ok_cons; auto. unfold zlen. destruct P as [-> | ->]; lia.
  - apply ok_cons; [lia|]. reflexivity.
Qed.

Lemma der_head e b : EnvOk e -> (forall r, b <> 0x30 :: r) -> der_ok b = false.
Proof. intros O N. destruct (der_ok b) eqn:D; auto. destruct (eo_der _ O _ D) as (r & ->). exfalso. eapply N. reflexivity. Qed.
Lemma der_nil e : EnvOk e -> der_ok [] = false.
Proof. intros O. apply (der_head e); auto. discriminate. Qed.
Lemma drop_last_hd {A} (a : A) r : r <> [] -> exists r', drop_last 1 (a :: r) = a :: r'.
Proof. intros N. unfold drop_last. cbn [length]. rewrite Nat.sub_succ, Nat.sub_0_r. destruct r; [contradiction|]. cbn [length firstn]. eauto. Qed.
Lemma der_redeem e : EnvOk e -> der_ok (drop_last 1 (e_redeem e)) = false.
Proof.
  intros O. destruct (redeem_shape e O) as (L & M & _ & _ & _ & (r & R) & _). rewrite R in *.
  assert (r <> []) by (intros ->; cbn in L; lia). destruct (drop_last_hd (e_m e + 80) r H) as (r' & ->).
  apply (der_head e); auto. intros r2 Q. injection Q as Q _. pose proof (eo_m _ O). lia.
Qed.

Lemma scan_sigs e h s r l : EnvOk e -> SigsGood e h s -> scan r = Ok l -> forall pubs, incl pubs (e_pubs e) ->
  scan (concat (map lenbytes (sigs_of s pubs)) ++ r) = Ok (sigs_of s pubs ++ l).
Proof.
  intros O G R. induction pubs as [|p pubs IH]; intros I; auto. assert (IP : incl pubs (e_pubs e)) by (intros q Hq; apply I; right; auto).
  cbn [sigs_of flat_map]. fold (sigs_of s pubs). destruct (s p) as [g|] eqn:E; cbn [app]; [|apply IH; auto].
  destruct (G p g (I p (or_introl eq_refl)) E) as (der & Q & D & _ & L & _). cbn [map concat]. unfold lenbytes at 1. cbn [app].
  rewrite <- app_assoc. assert (C : CompactSize (zlen g) [zlen g]) by (constructor; rewrite Q; unfold zlen; rewrite app_length; cbn; lia).
  change (zlen g :: g ++ concat (map lenbytes (sigs_of s pubs)) ++ r) with ([zlen g] ++ g ++ concat (map lenbytes (sigs_of s pubs)) ++ r).
  rewrite (scan_item g _ _ C), (IH IP). cbn [bind]. rewrite Q at 1. rewrite drop_last_app by reflexivity. rewrite D. reflexivity.
Qed.
Lemma scan_zeros e z r l : EnvOk e -> scan r = Ok l -> scan (repeat 0 z ++ r) = Ok l.
Proof.
  intros O R. induction z as [|z IH]; auto. cbn [repeat app]. assert (C : CompactSize (zlen (@nil Z)) [0]) by (constructor; cbn; lia).
  change (0 :: repeat 0 z ++ r) with ([0] ++ [] ++ repeat 0 z ++ r). rewrite (scan_item [] _ _ C), IH. cbn [bind].
  unfold drop_last. cbn [length Nat.sub firstn]. rewrite (der_nil e O). reflexivity.
Qed.

Lemma push1_byte v : 75 < v < 256 -> int_to_unknown_bytes v = Ok [v].
Proof.
  intros H. rewrite int_to_unknown_bytes_ok by lia.
  assert (E : unknown_len v = 1%nat).
  { unfold unknown_len, bit_length. destruct (v =? 0) eqn:E0; [reflexivity|].
    pose proof (Z.log2_nonneg v). assert (Z.log2 v <= 7) by (change 7 with (Z.log2 255); apply Z.log2_le_mono; lia).
    dif E1; [reflexivity|]. zdm; lia. }
  rewrite E. cbn [le_bytes rev app]. rewrite Z.mod_small by lia. reflexivity.
Qed.

Lemma push1_small v : 0 <= v < 256 -> int_to_unknown_bytes v = Ok [v].
Proof.
  intros H. rewrite int_to_unknown_bytes_ok by lia.
  assert (E : unknown_len v = 1%nat).
  { unfold unknown_len, bit_length. destruct (v =? 0) eqn:E0; [reflexivity|].
    pose proof (Z.log2_nonneg v). assert (Z.log2 v <= 7) by (change 7 with (Z.log2 255); apply Z.log2_le_mono; lia).
    dif E1; [reflexivity|]. zdm; lia. }
  rewrite E. cbn [le_bytes rev app]. rewrite Z.mod_small by lia. reflexivity.
Qed.
Lemma to_bytes_le_len v n b : to_bytes_le v n = Ok b -> length b = n.
Proof. unfold to_bytes_le. repeat dif E; try discriminate. intros H. injection H as <-. apply le_bytes_length. Qed.
Lemma script_push_cost d p : script_push (zlen d) = Ok p -> (length p + length d)%nat = push_cost d.
Proof.
  unfold script_push, push_cost. assert (P : 0 <= zlen d) by (unfold zlen; lia). replace (zlen d <=? 255) with (zlen d <? 256) by lia. replace (zlen d <=? 65535) with (zlen d <? 65536) by lia.
  dif L1; [rewrite push1_small by lia; intros E; injection E as <-; cbn [length]; lia|].
  dif L2; [rewrite push1_small by lia; cbn [rmap]; intros E; injection E as <-; cbn [length]; lia|].
  dif L3; (destruct (to_bytes_le _ _) eqn:E; cbn [rmap]; [|discriminate]); apply to_bytes_le_len in E; intros Q; injection Q as <-; cbn [length]; lia.
Qed.

(** Reading the redeem script after its push opcode (legacy) ... *)
Definition StraysOf (e : Env) (l : list bytes) : Prop := forall h, Forall (fun g => VerifiesNone g h (e_pubs e)) l.
Lemma substring_drop {A} (a g b w : list A) : w = a ++ g ++ b -> exists b', w = a ++ drop_last 1 g ++ b'.
Proof.
  intros ->. exists (take_last 1 g ++ b). rewrite <- (drop_take_last 1 g) at 1. rewrite <- app_assoc. reflexivity.
Qed.
Lemma garbage_strays e l : EnvOk e -> Forall (fun g => der_ok (drop_last 1 g) = true /\ exists a b, e_redeem e = a ++ g ++ b) l -> StraysOf e l.
Proof.
  intros O F h. eapply Forall_impl; [|exact F]. intros g (D & a & b & Q) p I. destruct (substring_drop _ _ _ _ Q) as (b' & Q').
  eapply (eo_stray _ O); eauto.
Qed.

Lemma scan_push_redeem e : EnvOk e -> exists pr l, script_push (zlen (e_redeem e)) = Ok pr /\ scan (pr ++ e_redeem e) = Ok l /\ StraysOf e l /\
  (forall r ops, ParsesTo r ops -> ParsesTo (pr ++ e_redeem e ++ r) (Push (e_redeem e) :: ops)) /\ bytes_ok pr = true /\ (length pr <= 3)%nat.
Proof.
  intros O. destruct (redeem_shape e O) as (L & M & _ & _ & OD & (r0 & R0) & (a & RA) & OK & _). set (rs := e_redeem e) in *.
  assert (SUF : forall n, exists l, scan (skipn n rs) = Ok l /\ StraysOf e l).
  { intros n. destruct (scan_garbage rs (skipn n rs)) as (l & S & F).
    - exists (firstn n rs). symmetry. apply firstn_skipn.
    - intros NE. rewrite RA in NE |- *. rewrite skipn_app in *. destruct (Nat.le_gt_cases n (length a)) as [H|H].
      + replace (n - length a)%nat with 0%nat by lia. exists (skipn n a). reflexivity.
      + exfalso. apply NE. rewrite skipn_all2 by lia. destruct (n - length a)%nat eqn:Q; [lia|]. cbn. rewrite skipn_nil. reflexivity.
    - exists l. split; auto. apply garbage_strays; auto. }
  assert (PP : forall pr, script_push (zlen rs) = Ok pr -> forall r ops, ParsesTo r ops -> ParsesTo (pr ++ rs ++ r) (Push rs :: ops)).
  { intros pr E r ops P. econstructor; [|exact P]. apply script_push_next; auto. }
  destruct (Nat.le_gt_cases (length rs) 75) as [Hs|Hs].
  - exists [zlen rs]. assert (E : script_push (zlen rs) = Ok [zlen rs]) by (apply script_push_small; unfold zlen; lia).
    assert (C : CompactSize (zlen rs) [zlen rs]) by (constructor; unfold zlen; lia).
    exists []. split; auto. split; [|split; [intros h; constructor|split; [apply PP; auto|split; [|cbn; lia]]]].
    + pose proof (scan_item rs _ [] C) as Q. rewrite app_nil_r in Q. rewrite Q, scan_nil. cbn [bind]. unfold rs. rewrite der_redeem by auto. reflexivity.
    + apply ok_cons; [unfold zlen; lia|reflexivity].
  - assert (exists pr0 c0 pr1, script_push (zlen rs) = Ok (c0 :: pr0 :: pr1) /\ (c0 = 76 \/ c0 = 77) /\ pr0 <> 48 /\ (length (pr0 :: pr1) = Z.to_nat c0 - 75)%nat /\
             bytes_ok (pr0 :: pr1) = true) as (pr0 & c0 & pr1 & E & C0 & P0 & LP & PO).
    { unfold script_push. replace (zlen rs <=? 75) with false by (unfold zlen; lia). destruct (zlen rs <? 256) eqn:Q1.
      - rewrite push1_byte by (unfold zlen in *; lia). cbn [rmap]. exists (zlen rs), 76, []. split; [reflexivity|]. split; [auto|]. split; [unfold zlen; lia|].
        split; [reflexivity|]. apply ok_cons; [unfold zlen in *; lia|reflexivity].
      - replace (zlen rs <? 65536) with true by (unfold zlen; lia). rewrite to_bytes_le_ok' by (change (256 ^ Z.of_nat 2) with 65536; unfold zlen; lia).
        cbn [rmap le_bytes].
        exists (zlen rs mod 256), 77, [(zlen rs / 256) mod 256].
        assert (B0 : 0 <= zlen rs mod 256 < 256) by (apply Z.mod_pos_bound; lia). assert (B1 : 0 <= (zlen rs / 256) mod 256 < 256) by (apply Z.mod_pos_bound; lia).
        split; [reflexivity|]. split; [auto|]. split.
        + intros Q. assert (Z.odd (zlen rs) = true) as OZ by (unfold zlen; rewrite Z.odd_spec; apply Nat.odd_spec in OD as (k & Hk); exists (Z.of_nat k); lia).
          rewrite (Z.div_mod (zlen rs) 256), Q in OZ by lia. rewrite Z.odd_add, Z.odd_mul in OZ. discriminate.
        + split; [reflexivity|]. apply ok_cons; auto. apply ok_cons; auto. }
    exists (c0 :: pr0 :: pr1). set (n := (Z.to_nat c0 - length (pr0 :: pr1))%nat).
    assert (N75 : n = 75%nat) by (unfold n; rewrite LP; destruct C0; subst c0; reflexivity).
    destruct (SUF n) as (l & S & ST). exists l. split; auto. split; [|split; [auto|split; [apply PP; auto|split; [apply ok_cons; auto; lia|]]]].
    + cbn [app]. assert (V : read_var_int (c0 :: (pr0 :: pr1) ++ rs) = Ok (c0, (pr0 :: pr1) ++ rs)).
      { unfold read_var_int. replace (c0 <? 253) with true by lia. reflexivity. }
      change (c0 :: pr0 :: pr1 ++ rs) with (c0 :: (pr0 :: pr1) ++ rs).
      assert (NN : c0 :: (pr0 :: pr1) ++ rs <> []) by discriminate. rewrite (scan_step _ _ _ NN V). clear NN.
      rewrite ztake_firstn, zdrop_skipn, firstn_app, skipn_app.
      assert (Lpr : (length (pr0 :: pr1) <= Z.to_nat c0)%nat) by lia. rewrite (firstn_all2 (n := Z.to_nat c0) (pr0 :: pr1)) by lia.
      rewrite (skipn_all2 (n := Z.to_nat c0) (pr0 :: pr1)) by lia. cbn [app]. fold n. rewrite S. cbn [bind].
      assert (NF : pr1 ++ firstn n rs <> []).
      { intros Q. apply app_eq_nil in Q as [_ Q]. apply (f_equal (@length Z)) in Q. rewrite firstn_length in Q. cbn in Q. lia. }
      destruct (drop_last_hd pr0 _ NF) as (r' & ->). rewrite (der_head e) by (auto; intros r2 Q; injection Q as Q _; contradiction). reflexivity.
    + cbn [length] in *. lia.
Qed.

(** ... and as a witness item: never a signature. *)
Lemma scan_item_redeem e n : EnvOk e -> CompactSize (zlen (e_redeem e)) n -> scan (n ++ e_redeem e) = Ok [].
Proof.
  intros O C. pose proof (scan_item (e_redeem e) n [] C) as Q. rewrite app_nil_r in Q. rewrite Q, scan_nil. cbn [bind]. rewrite der_redeem by auto. reflexivity.
Qed.

End WithCrypto.
