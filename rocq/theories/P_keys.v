(** C65: WIF strings, C70: other forms and equality of keys, C21: multisig sets. *)
From Coq Require Import String Permutation Sorted.
From Verif Require Import F_base F_utils F_hex F_wif M_key P_format X_toy.

(** What is asked of coincurve: a secret is a big-endian number below the order
    of the group, padded to 32 bytes; the sizes of public keys. *)
Record EcOk (CR : Crypto) : Prop := {
  eo_order : exists n, 0 < n <= 2 ^ 256 /\ forall b, bytes_ok b = true -> (length b <= 32)%nat ->
    ec_secret b = if (0 <? from_be b) && (from_be b <? n) then Ok (repeat 0 (32 - length b) ++ b) else Raise ValueError;
  eo_pub : forall s c, length s = 32%nat -> length (ec_pubkey s c) = if c : bool then 33%nat else 65%nat
}.

Section WithCrypto.
Context {CR : Crypto} (HO : HashOk CR) (EO : EcOk CR).

(** The keys a user can have: a class, a valid 32-byte secret, compressed or not. *)
Definition IsKey (v : net) (s : bytes) (c : bool) (k : PrivateKey) : Prop :=
  k_version k = v /\ k_secret k = s /\ k_public_key k = ec_pubkey s c /\ ec_secret s = Ok s /\ length s = 32%nat /\ bytes_ok s = true.

Lemma from_be_pad n b : from_be (repeat 0 n ++ b) = from_be b.
Proof. induction n as [|n IH]; auto. Qed.
Lemma secret_valid b s : bytes_ok b = true -> (length b <= 32)%nat -> ec_secret b = Ok s -> s = repeat 0 (32 - length b) ++ b /\ ec_secret s = Ok s /\ length s = 32%nat /\ bytes_ok s = true.
Proof.
  intros B L E. destruct (eo_order _ EO) as (n & _ & H). rewrite (H b B L) in E. destruct (_ && _) eqn:Q; [|discriminate].
  assert (s = repeat 0 (32 - length b) ++ b) as -> by congruence. split; auto.
  assert (Ls : length (repeat 0 (32 - length b) ++ b) = 32%nat) by (rewrite app_length, repeat_length; lia).
  assert (Bs : bytes_ok (repeat 0 (32 - length b) ++ b) = true).
  { rewrite bytes_ok_app, B, andb_true_r. apply bytes_ok_Forall. apply Forall_forall. intros z Hz. apply repeat_spec in Hz. lia. }
  split; auto. rewrite (H _ Bs) by lia. rewrite from_be_pad, Q, Ls. reflexivity.
Qed.
Lemma IsKey_eq v s c k : IsKey v s c k -> k = make_key v s c.
Proof. intros (A & B & C & _). destruct k. cbn in *. subst. reflexivity. Qed.
Lemma IsKey_compressed v s c k : IsKey v s c k -> key_is_compressed k = c.
Proof. intros (A & B & C & _ & L & _). unfold key_is_compressed, zlen. rewrite C, (eo_pub _ EO) by auto. destruct c; reflexivity. Qed.
Lemma IsKey_make v s c b : bytes_ok b = true -> (length b <= 32)%nat -> ec_secret b = Ok s -> IsKey v s c (make_key v s c).
Proof. intros B L E. apply secret_valid in E as (_ & E1 & E2 & E3); auto. repeat split; auto. Qed.

(** ** C65 *)
Theorem C65_restores v s c k : IsKey v s c k -> wif_to_key (key_to_wif k) = Ok k.
Proof.
  intros H. pose proof (IsKey_eq _ _ _ _ H) as Ek. pose proof (IsKey_compressed _ _ _ _ H) as Ec. destruct H as (H1 & H2 & H3 & H4 & H5 & H6).
  unfold key_to_wif. rewrite Ec, H1, H2. unfold wif_to_key. destruct (C14_wif_roundtrip CR HO s v c H6 H5) as [W _]. rewrite W. cbn [bind].
  unfold key_from_bytes, key_from_wif. rewrite W, H4. cbn [bind]. rewrite H4. cbn [bind]. rewrite Ek. destruct v, c; reflexivity.
Qed.
(** The class constructors take the class from the caller, not from the string:
    the string of a test network key is accepted by the main network class. *)
Theorem C65_constructor_disregards_version v s c k cls : IsKey v s c k ->
  exists k', key_from_wif cls (key_to_wif k) = Ok k' /\ IsKey cls s c k'.
Proof.
  intros H. pose proof (IsKey_compressed _ _ _ _ H) as Ec. destruct H as (H1 & H2 & H3 & H4 & H5 & H6).
  unfold key_to_wif, key_from_wif. rewrite Ec, H1, H2. destruct (C14_wif_roundtrip CR HO s v c H6 H5) as [W _]. rewrite W. cbn [bind]. rewrite H4. cbn [bind].
  eexists. split; [reflexivity|]. repeat split; auto.
Qed.
(** Whatever wif_to_key returns is a key of the network and compression in the string. *)
Theorem C65_sound w k : wif_to_key w = Ok k -> exists b c v, wif_to_bytes w = Ok (b, c, v) /\
  exists s, ec_secret b = Ok s /\ k_version k = v /\ k_secret k = s /\ k_public_key k = ec_pubkey s c.
Proof.
  unfold wif_to_key. intros E. apply bind_ok in E as (((b & c) & v) & W & E). cbv beta iota in E. exists b, c, v. split; auto.
  unfold key_from_bytes, key_from_wif in E. rewrite W in E. cbn [bind] in E.
  destruct (ec_secret b) as [s|] eqn:S; [|destruct v, c; discriminate]. exists s. split; auto.
  cbn [bind] in E. destruct v, c; injection E as <-; auto.
Qed.

(** ** C70 *)
Theorem C70_roundtrips v s c k : IsKey v s c k ->
  key_from_hex v (key_to_hex k) = Ok (make_key v s true) /\ key_from_bytes v (key_to_bytes k) = Ok (make_key v s true) /\
  key_from_int v (key_to_int k) = Ok (make_key v s true) /\ (c = true -> make_key v s true = k).
Proof.
  intros H. pose proof (IsKey_eq _ _ _ _ H) as Ek. destruct H as (H1 & H2 & H3 & H4 & H5 & H6).
  unfold key_from_hex, key_to_hex, key_to_bytes, key_to_int. rewrite H2. split; [|split; [|split]].
  - rewrite (HexOf_hex_to_bytes _ _ (bytes_to_hex_HexOf s H6)). cbn [bind]. unfold key_from_bytes. rewrite H4. reflexivity.
  - unfold key_from_bytes. rewrite H4. reflexivity.
  - unfold key_from_int. destruct (eo_order _ EO) as (n & Hn & Hs). assert (R := H4). rewrite (Hs s H6) in R by lia.
    destruct (_ && _) eqn:Q; [|discriminate]. apply andb_true_iff in Q as [Q1 Q2]. clear R.
    rewrite int_to_unknown_bytes_ok by lia. cbn [bind]. set (b := rev (le_bytes (unknown_len (from_be s)) (from_be s))).
    assert (B : bytes_ok b = true) by (unfold b; rewrite bytes_ok_rev; apply le_bytes_ok).
    assert (V : from_be b = from_be s).
    { unfold b. apply from_be_be_bytes. pose proof (unknown_len_upper (from_be s)). lia. }
    assert (L : (length b <= 32)%nat).
    { rewrite <- H5. eapply unknown_bytes_minimal; [apply int_to_unknown_bytes_ok; lia|auto| |auto]. intros ->. cbn in H5. lia. }
    unfold key_from_bytes. rewrite (Hs b B L), V, Q1, Q2. cbn [andb bind]. repeat f_equal.
    apply from_be_inj; auto.
    + rewrite bytes_ok_app, B, andb_true_r. apply bytes_ok_Forall. apply Forall_forall. intros z Hz. apply repeat_spec in Hz. lia.
    + rewrite app_length, repeat_length. lia.
    + rewrite from_be_pad. auto.
  - intros ->. auto.
Qed.
(** Equality of keys: the same secret.  Network and compression do not matter, so
    keys with different addresses compare equal. *)
Theorem C70_equality v s c k v' s' c' k' : IsKey v s c k -> IsKey v' s' c' k' -> (key_eqb k k' = true <-> s = s').
Proof.
  intros (H1 & H2 & H3 & H4 & H5 & H6) (G1 & G2 & G3 & G4 & G5 & G6). unfold key_eqb, key_to_int. rewrite H2, G2, Z.eqb_eq. split; [|congruence].
  intros E. apply from_be_inj; auto. congruence.
Qed.

(** ** C21 *)
(** Lexicographic order, as a relation. *)
Inductive Lex : list Z -> list Z -> Prop :=
| lex_nil a : Lex [] a
| lex_lt x y a b : x < y -> Lex (x :: a) (y :: b)
| lex_eq x a b : Lex a b -> Lex (x :: a) (x :: b).

Lemma lex_leb_Lex a b : lex_leb a b = true <-> Lex a b.
Proof.
  revert b. induction a as [|x a IH]; intros b; [split; [constructor|auto]|]. destruct b as [|y b]; cbn [lex_leb]; [split; [discriminate|intros H; inversion H]|].
  destruct (x <? y) eqn:L; [split; auto; constructor; lia|]. destruct (x =? y) eqn:Q.
  - apply Z.eqb_eq in Q. subst y. rewrite IH. split; [apply lex_eq|]. intros G. inversion G; subst; auto. lia.
  - split; [discriminate|]. intros H. inversion H; lia.
Qed.
Lemma Lex_total a b : Lex a b \/ Lex b a.
Proof.
  revert b. induction a as [|x a IH]; intros [|y b]; try (left; apply lex_nil); try (right; apply lex_nil).
  destruct (Z.lt_trichotomy x y) as [L|[-> |L]]; [left; apply lex_lt; auto| |right; apply lex_lt; auto]. destruct (IH b); [left|right]; apply lex_eq; auto.
Qed.
Lemma Lex_antisym a b : Lex a b -> Lex b a -> a = b.
Proof. induction 1; intros G; inversion G; subst; try lia; auto. f_equal. auto. Qed.
Lemma Lex_trans a b c : Lex a b -> Lex b c -> Lex a c.
Proof.
  intros H. revert c. induction H; intros c G; [constructor| |].
  - inversion G; subst; apply lex_lt; lia.
  - inversion G; subst; [apply lex_lt|apply lex_eq]; auto.
Qed.
Lemma sorted_unique l l' : StronglySorted Lex l -> StronglySorted Lex l' -> Permutation l l' -> l = l'.
Proof.
  revert l'. induction l as [|a l IH]; intros l' S S' P; [apply Permutation_nil in P; auto|].
  destruct l' as [|b l']; [apply Permutation_sym, Permutation_nil in P; discriminate|].
  inversion S as [|? ? S1 F1]; subst. inversion S' as [|? ? S2 F2]; subst. rewrite Forall_forall in F1, F2.
  assert (a = b).
  { assert (Ia : In a (b :: l')) by (eapply Permutation_in; [exact P|left; auto]).
    assert (Ib : In b (a :: l)) by (eapply Permutation_in; [apply Permutation_sym; exact P|left; auto]).
    destruct Ia as [->|Ia]; auto. destruct Ib as [->|Ib]; auto. apply Lex_antisym; auto. }
  subst b. f_equal. apply IH; auto. eapply Permutation_cons_inv; eauto.
Qed.

(** The elements of sorted(), for one kind of element. *)
Definition kind (bs : bool) : list Z -> keyarg := if bs then KB else KS.
Lemma kind_leb bs a b : keyarg_leb (kind bs a) (kind bs b) = Some (lex_leb a b).
Proof. destruct bs; reflexivity. Qed.
Lemma insert_kind bs k l : StronglySorted Lex l -> exists l', insert_key (kind bs k) (map (kind bs) l) = Ok (map (kind bs) l') /\ StronglySorted Lex l' /\ Permutation (k :: l) l'.
Proof.
  induction l as [|x l IH]; intros S; [exists [k]; split; [reflexivity|split; [repeat constructor|auto]]|].
  cbn [map insert_key]. rewrite kind_leb. inversion S as [|? ? S1 F1]; subst. destruct (lex_leb k x) eqn:L.
  - apply lex_leb_Lex in L. exists (k :: x :: l). split; [reflexivity|]. split; [constructor; auto; constructor; auto; eapply Forall_impl; [|exact F1]; intros z Hz; eapply Lex_trans; eauto|auto].
  - destruct (IH S1) as (l' & E & S' & P). rewrite E. cbn [bind]. exists (x :: l'). split; [reflexivity|]. split.
    + constructor; auto. eapply Permutation_Forall; [exact P|]. constructor; auto. destruct (Lex_total k x) as [G|G]; auto. apply lex_leb_Lex in G. congruence.
    + eapply Permutation_trans; [apply perm_swap|]. constructor. auto.
Qed.
Lemma sort_kind bs l : exists l', sort_keys (map (kind bs) l) = Ok (map (kind bs) l') /\ StronglySorted Lex l' /\ Permutation l l'.
Proof.
  induction l as [|k l (l' & E & S & P)]; [exists []; split; [reflexivity|split; [constructor|auto]]|].
  cbn [map sort_keys]. rewrite E. cbn [bind]. destruct (insert_kind bs k l' S) as (l2 & E2 & S2 & P2). exists l2. split; auto. split; auto.
  eapply Permutation_trans; [|exact P2]. constructor. auto.
Qed.

Lemma mapM_KB l : mapM keyarg_bytes (map KB l) = Ok l.
Proof. induction l as [|a l IH]; [reflexivity|]. cbn [map mapM keyarg_bytes bind]. rewrite IH. reflexivity. Qed.

(** Every enumeration of a set, of bytes or of strings, gives the same wallet (or the same error). *)
Theorem C21_enumeration_order cls key m bs l l' : Permutation l l' ->
  make_multisig cls key true (map (kind bs) l) m = make_multisig cls key true (map (kind bs) l') m.
Proof.
  intros P. destruct (sort_kind bs l) as (s & E & S & Q). destruct (sort_kind bs l') as (s' & E' & S' & Q').
  assert (s = s') as <-. { apply sorted_unique; auto. eapply Permutation_trans; [apply Permutation_sym; exact Q|]. eapply Permutation_trans; [exact P|exact Q']. }
  unfold make_multisig. destruct (negb (net_eqb _ _)); auto.
  assert (X : existsb (keyarg_is (k_public_key key)) (map (kind bs) l) = existsb (keyarg_is (k_public_key key)) (map (kind bs) l')).
  { apply eq_true_iff_eq. rewrite !existsb_exists. split; intros (k & I & K); exists k; (split; [|auto]); eapply Permutation_in; try exact I; apply Permutation_map; auto using Permutation_sym. }
  rewrite X. destruct (negb (existsb _ _)); auto. rewrite E, E'. auto.
Qed.
(** In the wallet the keys are in increasing order; a list is kept as given. *)
Theorem C21_sorted cls key m l ms : make_multisig cls key true (map KB l) m = Ok ms ->
  Permutation l (ms_public_keys ms) /\ StronglySorted Lex (ms_public_keys ms) /\ ms_m ms = m /\ ms_key ms = key /\ ms_version ms = cls /\
  k_version key = cls /\ In (k_public_key key) l.
Proof.
  intros H. unfold make_multisig in H. destruct (net_eqb (k_version key) cls) eqn:V; [|discriminate]. cbn [negb] in H.
  destruct (existsb _ _) eqn:X; [|discriminate]. cbn [negb] in H.
  destruct (sort_kind true l) as (s & E & S & P). change (kind true) with KB in E. cbv iota in H. unfold bytes, pystr in *. rewrite E in H. cbn [bind] in H.
  pose proof mapM_KB as M.
  rewrite M in H. cbn [bind] in H. apply bind_ok in H as (rs & _ & H). injection H as <-. cbn. do 5 (split; auto).
  split; [destruct (k_version key), cls; auto; discriminate|]. apply existsb_exists in X as (k & I & K). apply in_map_iff in I as (b & <- & I). cbn in K. apply list_eqb_eq in K. subst. auto.
Qed.
Theorem C21_list_order cls key m l ms : make_multisig cls key false (map KB l) m = Ok ms -> ms_public_keys ms = l.
Proof.
  intros H. unfold make_multisig in H. destruct (net_eqb (k_version key) cls) eqn:V; [|discriminate]. cbn [negb] in H.
  destruct (existsb _ _) eqn:X; [|discriminate]. cbn [negb bind] in H.
  pose proof mapM_KB as M.
  rewrite M in H. cbn [bind] in H. apply bind_ok in H as (rs & _ & H). injection H as <-. reflexivity.
Qed.

Lemma hex_digit_mono a b : 0 <= a < 16 -> 0 <= b < 16 -> (hex_digit a <? hex_digit b) = (a <? b) /\ (hex_digit a =? hex_digit b) = (a =? b).
Proof. intros A B. unfold hex_digit. destruct (a <? 10) eqn:?, (b <? 10) eqn:?; lia. Qed.
Lemma lex_hex a b : bytes_ok a = true -> bytes_ok b = true -> lex_leb (bytes_to_hex a) (bytes_to_hex b) = lex_leb a b.
Proof.
  revert b. induction a as [|x a IH]; intros [|y b] A B; auto. unfold bytes_ok in A, B. cbn [forallb] in A, B. apply andb_true_iff in A as [A1 A2], B as [B1 B2].
  unfold is_byte in A1, B1. unfold bytes_to_hex in *. cbn [flat_map app lex_leb].
  destruct (hex_digit_mono (x / 16) (y / 16)) as [-> ->]; [split; [apply Z.div_pos; lia|apply Z.div_lt_upper_bound; lia]..|].
  destruct (hex_digit_mono (x mod 16) (y mod 16)) as [-> ->]; [apply Z.mod_pos_bound; lia..|]. rewrite (IH b A2 B2).
  pose proof (Z.div_mod x 16). pose proof (Z.div_mod y 16). pose proof (Z.mod_pos_bound x 16). pose proof (Z.mod_pos_bound y 16).
  destruct (x / 16 <? y / 16) eqn:L1; [replace (x <? y) with true by lia; auto|]. destruct (x / 16 =? y / 16) eqn:Q1.
  - replace (x mod 16 <? y mod 16) with (x <? y) by lia. destruct (x <? y); auto. replace (x mod 16 =? y mod 16) with (x =? y) by lia. auto.
  - replace (x <? y) with false by lia. replace (x =? y) with false by lia. auto.
Qed.
Lemma hex_inj a b : bytes_ok a = true -> bytes_ok b = true -> bytes_to_hex a = bytes_to_hex b -> a = b.
Proof.
  intros A B E. pose proof (HexOf_hex_to_bytes _ _ (bytes_to_hex_HexOf a A)) as Ha. rewrite E, (HexOf_hex_to_bytes _ _ (bytes_to_hex_HexOf b B)) in Ha. congruence.
Qed.
Lemma SS_map_hex l : Forall (fun b => bytes_ok b = true) l -> StronglySorted Lex l -> StronglySorted Lex (map bytes_to_hex l).
Proof.
  intros B S. induction S as [|a l S IH F]; cbn; [constructor|]. apply Forall_cons_iff in B as [B1 B]. constructor; auto.
  apply Forall_map. rewrite Forall_forall in *. intros b Hb. apply lex_leb_Lex. rewrite lex_hex; auto. apply lex_leb_Lex. auto.
Qed.
(** Hex strings (as pub_to_hex gives) and bytes give the same wallet, for sets and lists. *)
Theorem C21_hex_or_bytes cls key is_set m l : Forall (fun b => bytes_ok b = true) l -> bytes_ok (k_public_key key) = true ->
  make_multisig cls key is_set (map KS (map bytes_to_hex l)) m = make_multisig cls key is_set (map KB l) m.
Proof.
  intros B K. unfold make_multisig. destruct (negb (net_eqb _ _)); auto.
  assert (X : existsb (keyarg_is (k_public_key key)) (map KS (map bytes_to_hex l)) = existsb (keyarg_is (k_public_key key)) (map KB l)).
  { clear -B K. induction l as [|b l IH]; auto. apply Forall_cons_iff in B as [B1 B]. cbn [map existsb keyarg_is]. rewrite (IH B). f_equal.
    apply eq_true_iff_eq. rewrite !list_eqb_eq. split; [apply hex_inj; auto|congruence]. }
  rewrite X. destruct (negb (existsb _ _)); auto.
  pose proof mapM_KB as M.
  assert (N : forall s, Forall (fun b => bytes_ok b = true) s -> mapM keyarg_bytes (map KS (map bytes_to_hex s)) = Ok s).
  { induction s as [|a s' IH]; intros F; auto. apply Forall_cons_iff in F as [F1 F]. cbn [map mapM keyarg_bytes].
    rewrite (HexOf_hex_to_bytes _ _ (bytes_to_hex_HexOf a F1)). cbn [bind]. rewrite (IH F). auto. }
  destruct is_set.
  - destruct (sort_kind true l) as (s & E & S & P). destruct (sort_kind false (map bytes_to_hex l)) as (s' & E' & S' & P'). change (kind true) with KB in E. change (kind false) with KS in E'. unfold bytes, pystr in *.
    assert (Bs : Forall (fun b => bytes_ok b = true) s) by (eapply Permutation_Forall; eauto).
    assert (s' = map bytes_to_hex s) as ->.
    { apply sorted_unique; auto; [apply SS_map_hex; auto|]. eapply Permutation_trans; [apply Permutation_sym; exact P'|]. apply Permutation_map. auto. }
    rewrite E, E'. cbn [bind]. rewrite M, N; auto.
  - cbn [bind]. rewrite M, N; auto.
Qed.
(** A set that mixes strings and bytes is refused. *)
Theorem C21_mixed_refused cls key m l a b : In (KB a) l -> In (KS b) l -> k_version key = cls ->
  existsb (keyarg_is (k_public_key key)) l = true -> make_multisig cls key true l m = Raise TypeError.
Proof.
  intros A B V X. unfold make_multisig. rewrite V, X. replace (net_eqb cls cls) with true by (destruct cls; auto). cbn [negb].
  assert (G : sort_keys l = Raise TypeError); [|rewrite G; auto]. clear -A B.
  assert (I : forall k s, (forall k', In k' s -> keyarg_leb k k' = None) -> s <> [] -> insert_key k s = Raise TypeError).
  { intros k [|x s] H N; [contradiction|]. cbn. rewrite (H x (or_introl eq_refl)). auto. }
  assert (T : forall l, (exists bs s, sort_keys l = Ok (map (kind bs) s) /\ Permutation l (map (kind bs) s)) \/ sort_keys l = Raise TypeError).
  { clear l A B. induction l as [|k l IH]; [left; exists true, []; auto|]. cbn [sort_keys]. destruct IH as [(bs & s & -> & P)| ->]; [|right; auto]. cbn [bind].
    assert (D : exists bk x, k = kind bk x) by (destruct k as [x|x]; [exists true, x|exists false, x]; auto). destruct D as (bk & x & ->).
    destruct (bool_dec bk bs) as [->|N].
    - left. assert (Q : exists l', insert_key (kind bs x) (map (kind bs) s) = Ok (map (kind bs) l') /\ Permutation (x :: s) l').
      { clear -s. induction s as [|y s IH]; [exists [x]; auto|]. cbn [map insert_key]. rewrite kind_leb. destruct (lex_leb x y); [exists (x :: y :: s); auto|].
        destruct IH as (l' & -> & P). exists (y :: l'). split; auto. eapply Permutation_trans; [apply perm_swap|auto]. }
      destruct Q as (l' & Q & P2). exists bs, l'. split; auto. eapply Permutation_trans; [apply perm_skip; exact P|]. change (kind bs x :: map (kind bs) s) with (map (kind bs) (x :: s)). apply Permutation_map. auto.
    - destruct s as [|y s]; [left; exists bk, [x]; split; auto; apply Permutation_sym, Permutation_nil in P; subst; auto|].
      right. apply I; [|discriminate]. intros k' Hk. apply in_map_iff in Hk as (z & <- & _). destruct bk, bs; auto; contradiction. }
  destruct (T l) as [(bs & s & _ & P)|]; auto. exfalso.
  apply (Permutation_in _ P) in A. apply (Permutation_in _ P) in B. apply in_map_iff in A as (x & Ex & _), B as (y & Ey & _). destruct bs; discriminate.
Qed.
(** Upper-case hex strings are decoded but not recognised: the owner of the only
    key is refused. *)
Theorem C21_upper_case_refused key m s : k_version key = Main -> s <> bytes_to_hex (k_public_key key) -> make_multisig Main key false [KS s] m = Raise ValueError.
Proof. intros V N. unfold make_multisig. rewrite V. cbn. apply list_eqb_neq in N. rewrite N. auto. Qed.
End WithCrypto.
Print Assumptions C65_restores.
Print Assumptions C65_constructor_disregards_version.
Print Assumptions C65_sound.
Print Assumptions C70_roundtrips.
Print Assumptions C70_equality.
Print Assumptions C21_enumeration_order.
Print Assumptions C21_sorted.
Print Assumptions C21_list_order.
Print Assumptions C21_hex_or_bytes.
Print Assumptions C21_mixed_refused.
Print Assumptions C21_upper_case_refused.

(** ** The hypotheses are met by the toy scheme. *)
Lemma toy_ec_ok : EcOk toy.
Proof.
  split.
  - exists (2 ^ 255). split; [lia|]. intros b B L. cbn [ec_secret toy]. unfold toy_secret. rewrite B. replace (List.length b <=? 32)%nat with true by (symmetry; apply Nat.leb_le; auto). reflexivity.
  - intros s c L. cbn [ec_pubkey toy]. unfold toy_pub. destruct c; cbn [List.length]; rewrite ?app_length, !fix32_len; reflexivity.
Qed.
Example C65_hypotheses v c : @IsKey toy v (repeat 7 32) c (@make_key toy v (repeat 7 32) c).
Proof. repeat split; vm_compute; reflexivity. Qed.
(** Main and test network keys, with different addresses, are equal. *)
Example C70_different_addresses : key_eqb (@make_key toy Main (repeat 7 32) true) (@make_key toy Test (repeat 7 32) false) = true /\
  @key_address toy (@make_key toy Main (repeat 7 32) true) <> @key_address toy (@make_key toy Test (repeat 7 32) false).
Proof. split; [reflexivity|]. vm_compute. discriminate. Qed.
Example C21_example : let k := @make_key toy Main (repeat 7 32) true in let p b := k_public_key (@make_key toy Main (repeat b 32) true) in
  exists ms, @make_multisig Main k true (map KB [p 9; p 7; p 8]) 2 = Ok ms /\ ms_public_keys ms = [p 7; p 8; p 9].
Proof. eexists. split; vm_compute; reflexivity. Qed.
