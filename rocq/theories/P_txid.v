(** C26 for signing: the id of a transaction all of whose inputs are segwit is
    known before it is signed.  (Segwit inputs of this library are nested in
    P2SH, so their input script, a push of the witness program, counts for the
    id; it is fixed by the public keys.) *)
From Coq Require Import String.
From Verif Require Import F_base F_tx F_sign F_sighash F_signtx F_spend F_cosigntx F_wire P_sign P_multi X_toy.

(** The transaction with the same script in every input, and no witness. *)
Definition WithScript (s : bytes) (x : tx) : tx :=
  Tx (t_ver x) (map (fun i => Tin (i_txid i) (i_vout i) s (i_seq i) []) (t_ins x)) (t_outs x) (t_lock x).
(** The id of a transaction, from its encoding without witnesses. *)
Definition HasId {CR : Crypto} (x : tx) (i : pystr) : Prop :=
  exists base, EncLegacy x base /\ i = bytes_to_hex (rev (sha256 (sha256 base))).

Lemma take_exact_app n : forall s d r, take_exact n s = Some (d, r) -> s = d ++ r /\ length d = n.
Proof.
  induction n as [|n IH]; intros s d r E; cbn in E; [injection E as <- <-; auto|].
  destruct s as [|b s]; [discriminate|]. destruct (take_exact n s) as [[d' r']|] eqn:T; [|discriminate].
  injection E as <- <-. destruct (IH _ _ _ T) as [-> <-]. auto.
Qed.
Lemma take_push_app n s d r : take_push n s = Some (Push d, r) -> s = d ++ r /\ length d = Z.to_nat n.
Proof.
  unfold take_push. destruct (_ <? _); [discriminate|]. destruct (take_exact _ _) as [[d' r']|] eqn:T; [|discriminate].
  intros E. injection E as -> ->. apply take_exact_app. auto.
Qed.
Lemma one_push d s : (1 <= length d <= 75)%nat -> MinPushes [d] s -> s = zlen d :: d.
Proof.
  intros L [P N]. cbn [map list_sum fold_right] in *. rewrite (push_cost_small d) in N by lia. inversion P as [|s' o r ops NX P2]; subst. inversion P2; subst.
  unfold next_op in NX. destruct s as [|c r]; [discriminate|]. cbn [length] in N.
  destruct (c <=? 0x4b).
  { apply take_push_app in NX as [-> E]. rewrite app_nil_r. f_equal. unfold zlen. lia. }
  exfalso. destruct (c =? 0x4c).
  { destruct r; [discriminate|]. apply take_push_app in NX as [-> E]. cbn [length] in N. rewrite app_nil_r in N. lia. }
  destruct (c =? 0x4d).
  { destruct r as [|a [|b r]]; try discriminate. apply take_push_app in NX as [-> E]. cbn [length] in N. rewrite app_nil_r in N. lia. }
  destruct (c =? 0x4e).
  { destruct r as [|a [|b [|b' [|b'' r]]]]; try discriminate. apply take_push_app in NX as [-> E]. cbn [length] in N. rewrite app_nil_r in N. lia. }
  discriminate.
Qed.

Lemma all_scripts s x x' : same_skeleton x x' -> (forall j xi, nth_error (t_ins x) j = Some xi -> exists xi', nth_error (t_ins x') j = Some xi' /\ i_script xi' = s) ->
  strip_witness x' = WithScript s x.
Proof.
  intros (V & L & OU & K) H. unfold strip_witness, WithScript. rewrite <- V, <- L, <- OU. f_equal.
  revert K H. generalize (t_ins x) as l, (t_ins x') as l'. induction l as [|a l IH]; intros [|a' l'] K H; try discriminate; auto.
  cbn [map] in *. injection K as K1 K2 K3 K. f_equal.
  - destruct (H O a eq_refl) as (b & E & S). injection E as <-. unfold no_wit. congruence.
  - apply IH; auto. intros j xi E. exact (H (S j) xi E).
Qed.

Section WithCrypto.
Context {CR : Crypto} (HO : HashOk CR).

Lemma sha_ok x : bytes_ok (sha256 x) = true.
Proof. apply bytes_ok_Forall. apply (sha256_byte _ HO). Qed.
Lemma program_len (a b : Z) (p : bytes) : (length p = 20 \/ length p = 32)%nat -> length ([a; b] ++ p) = (2 + length p)%nat /\ (1 <= length ([a; b] ++ p) <= 75)%nat.
Proof. intros L. rewrite app_length. cbn. lia. Qed.

Lemma id_of_scripts s x x' b : t_ins x <> [] -> same_skeleton x x' -> bytes_ok b = true -> EncSegwit x' b \/ EncLegacy x' b ->
  (forall j xi, nth_error (t_ins x) j = Some xi -> exists xi', nth_error (t_ins x') j = Some xi' /\ i_script xi' = s) ->
  exists i, calc_txid (bytes_to_hex b) = Ok i /\ HasId (WithScript s x) i.
Proof.
  intros NE SK OK E H. assert (NE' : t_ins x' <> []).
  { destruct SK as (_ & _ & _ & K). intros Q. rewrite Q in K. destruct (t_ins x); [auto|discriminate]. }
  destruct (txid_encoding x' b NE' OK E) as (base & EB & T). eexists. split; [exact T|]. exists base. split; auto.
  rewrite <- (all_scripts s x x' SK H). apply EncLegacy_strip in EB. auto.
Qed.

(** One key: the id depends on the transaction and the public key alone, not on
    the signatures. *)
Theorem C26_known_before_signing k us x t h : KeyOk k -> RepObj x t -> t_ins x <> [] -> Uniform (OwnedBy (k_public_key k)) us x t ->
  (forall xi, In xi (t_ins x) -> exists u, Match (OwnedBy (k_public_key k)) us xi u /\ u_is_segwit u = true) ->
  sign_tx (Single k) t us = Ok h ->
  exists i, calc_txid h = Ok i /\ HasId (WithScript ([0x16; 0x00; 0x14] ++ hash160 (k_public_key k)) x) i.
Proof.
  intros K R NE U A E. destruct (C31_spends HO k us x t h K R NE U E) as (x' & b & (-> & OK) & SK & EN & _ & _ & SP).
  apply (id_of_scripts _ x x' b NE SK OK).
  - destruct EN as [EN|[EN _]]; auto.
  - intros j xi Hj. destruct (SP j xi Hj) as (xi' & Hj' & _ & S). exists xi'. split; auto.
    destruct (A xi (nth_error_In _ _ Hj)) as (u & M & Su). destruct (S u M) as (msg & sig & _ & _ & _ & P). rewrite Su in P. destruct P as [P _].
    assert (LH : length (hash160 (k_public_key k)) = 20%nat) by apply (ripemd160_len _ HO).
    destruct (program_len 0x00 0x14 _ (or_introl LH)) as [L1 L2]. rewrite (one_push _ _ L2 P). unfold zlen. rewrite L1, LH. reflexivity.
Qed.

(** A multisig wallet: it is the same id from the first signature on, whoever signs. *)
Theorem C26_known_before_cosigning e us x t k ks h : EnvOk e -> Spendable e us -> Ready e us x t -> Signers e (k :: ks) -> zlen (k :: ks) <= e_m e ->
  (forall xi, In xi (t_ins x) -> exists u, Match (OwnE e) us xi u /\ u_is_segwit u = true) ->
  cosign e us t k ks = Ok h ->
  exists i, calc_txid h = Ok i /\ HasId (WithScript ([0x22; 0x00; 0x20] ++ sha256 (e_redeem e)) x) i.
Proof.
  intros O SP RD SG L A E. destruct (C33_kept HO e us x t k ks O SP RD SG L) as (h' & b & x' & E' & (Eb & OK) & F1 & _ & SK & _ & PS).
  rewrite E in E'. injection E' as <-. subst h. destruct RD as (R & NE & U & FR).
  apply (id_of_scripts _ x x' b NE SK OK).
  - left. apply F1. right. destruct (t_ins x) as [|xi r] eqn:Q; [contradiction|]. destruct (A xi (or_introl eq_refl)) as (u & M & Su).
    exists xi, u. split; [left; auto|auto].
  - intros j xi Hj. destruct (A xi (nth_error_In _ _ Hj)) as (u & M & Su). destruct (PS j xi u Hj M) as (xi' & z & Hj' & (msg & sigs & _ & _ & _ & _ & _ & P) & _).
    exists xi'. split; auto. rewrite Su in P. destruct P as [P _].
    pose proof (sha256_len _ HO (e_redeem e)) as LH.
    destruct (program_len 0x00 0x20 _ (or_intror LH)) as [L1 L2]. rewrite (one_push _ _ L2 P). unfold zlen. rewrite L1, LH. reflexivity.
Qed.

(** It is another one than that of the unsigned transaction, whose input scripts
    are empty: were they the same, two strings would have the same hash. *)
Theorem C26_unsigned k us x t h b0 i0 : KeyOk k -> RepObj x t -> t_ins x <> [] -> Uniform (OwnedBy (k_public_key k)) us x t ->
  (forall xi, In xi (t_ins x) -> i_script xi = [] /\ exists u, Match (OwnedBy (k_public_key k)) us xi u /\ u_is_segwit u = true) ->
  sign_tx (Single k) t us = Ok h -> bytes_ok b0 = true -> EncSegwit x b0 \/ EncLegacy x b0 ->
  calc_txid (bytes_to_hex b0) = Ok i0 -> calc_txid h = Ok i0 ->
  exists a b, a <> b /\ sha256 (sha256 a) = sha256 (sha256 b).
Proof.
  intros K R NE U A E OK E0 T0 T. destruct (C26_known_before_signing k us x t h K R NE U (fun xi I => proj2 (A xi I)) E) as (i & Ti & base & EB & Ei).
  rewrite T in Ti. injection Ti as <-. destruct (txid_encoding x b0 NE OK E0) as (base0 & EB0 & T1). rewrite T1 in T0. injection T0 as Q.
  exists base0, base. split.
  - intros ->. apply EncLegacy_strip in EB0. assert (EB' := proj1 (EncLegacy_strip _ _) EB).
    destruct (EncLegacy_prefix _ _ _ _ [] [] EB0 EB' eq_refl) as (P & _ & _). cbn [strip_witness WithScript t_ver t_ins t_outs t_lock] in P. injection P as P.
    destruct (t_ins x) as [|xi r]; [contradiction|]. destruct (A xi (or_introl eq_refl)) as [S0 _]. cbn [map no_wit i_txid i_vout i_script i_seq i_wit] in P. assert (Q2 := f_equal (fun l => match l with i :: _ => i_script i | [] => [] end) P). cbn in Q2. rewrite S0 in Q2. discriminate.
  - rewrite Ei in Q. apply bytes_to_hex_inj in Q; [|rewrite bytes_ok_rev; apply sha_ok; auto|rewrite bytes_ok_rev; apply sha_ok; auto]. apply (f_equal (@rev Z)) in Q. rewrite !rev_involutive in Q. auto.
Qed.
End WithCrypto.
Print Assumptions C26_known_before_signing.
Print Assumptions C26_known_before_cosigning.
Print Assumptions C26_unsigned.

Definition same_id (a b : result pystr) : bool := match a, b with Ok x, Ok y => list_eqb x y | _, _ => false end.
(** A segwit coin of the key, spent by a transaction with one input. *)
Lemma toy_segwit_in : Match (@OwnedBy toy (k_public_key toy_key)) toy_us (Tin (repeat 2 32) 1 [] 0xffffffff []) (nth 1 toy_us (toy_u [] "" 0 0 0)).
Proof. exact toy_match2. Qed.
Example C26_signing_hypotheses : @KeyOk toy toy_key /\ RepObj (toy_x1 2 1) (toy_t1 2 1 []) /\
  @Uniform (@OwnedBy toy (k_public_key toy_key)) toy_us (toy_x1 2 1) (toy_t1 2 1 []) /\
  (forall xi, In xi (t_ins (toy_x1 2 1)) -> i_script xi = [] /\ exists u, Match (@OwnedBy toy (k_public_key toy_key)) toy_us xi u /\ u_is_segwit u = true) /\
  exists h h0, @sign_tx toy (Single toy_key) (toy_t1 2 1 []) toy_us = Ok h /\ to_hex (toy_t1 2 1 []) = Ok h0 /\
    same_id (@calc_txid toy h) (@calc_txid toy h0) = false /\ exists i, @calc_txid toy h = Ok i.
Proof.
  assert (A : forall xi, In xi (t_ins (toy_x1 2 1)) -> i_script xi = [] /\ exists u, Match (@OwnedBy toy (k_public_key toy_key)) toy_us xi u /\ u_is_segwit u = true).
  { intros xi [<-|[]]. split; [reflexivity|]. exists (nth 1 toy_us (toy_u [] "" 0 0 0)). split; [exact toy_segwit_in|reflexivity]. }
  split; [apply toy_key_ok|]. split; [apply toy_rep1; auto; lia|]. split; [|split; [exact A|]].
  - right. right. split; [repeat constructor|]. intros xi I. apply A. auto.
  - assert (G : match @sign_tx toy (Single toy_key) (toy_t1 2 1 []) toy_us, to_hex (toy_t1 2 1 []) with
      | Ok h, Ok h0 => match @calc_txid toy h with Ok i => negb (same_id (Ok i) (@calc_txid toy h0)) | Raise _ => false end | _, _ => false end = true) by (vm_compute; reflexivity).
    revert G. destruct (@sign_tx toy (Single toy_key) (toy_t1 2 1 []) toy_us) as [h|]; [|discriminate]. destruct (to_hex (toy_t1 2 1 [])) as [h0|]; [|discriminate].
    intros G. exists h, h0. do 2 (split; [reflexivity|]). destruct (@calc_txid toy h) as [i|]; [|discriminate]. apply negb_true_iff in G. split; eauto.
Qed.
(** Signed by the first, or by both: one id. *)
Example C26_cosigning_case : match @cosign toy toy_env toy_mus (toy_t1 2 1 [0]) (toy_k 7) [], @cosign toy toy_env toy_mus (toy_t1 2 1 [0]) (toy_k 5) [toy_k 7] with
  | Ok a, Ok b => same_id (@calc_txid toy a) (@calc_txid toy b) && negb (list_eqb a b) | _, _ => false end = true.
Proof. vm_compute. reflexivity. Qed.
