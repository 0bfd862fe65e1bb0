(** Base58Check strings: lengths, first characters; Wallet Import Format. *)
From Coq Require Import String.
From Verif Require Export F_base58 M_format S_Base58 S_Addr.

(** ** Decoding as a relation *)
Lemma Base58_digits b s : Base58 b s -> Forall (fun c => digit58 c <> None) s.
Proof.
  intros (k & b' & s' & ds & _ & -> & _ & _ & F & _). apply Forall_app. split.
  - apply Forall_forall. intros x Hx. apply repeat_spec in Hx. subst. discriminate.
  - clear - F. induction F; constructor; auto. congruence.
Qed.

Lemma b58decode_iff s b : (exists c, In c s /\ c <> 49) ->
  (b58decode s = Ok b <-> bytes_ok b = true /\ Base58 b s).
Proof.
  intros Hn. split.
  - intros H. destruct (digits_dec s) as [(ds & F)|Hbad].
    + assert (Hf : Forall (fun c => digit58 c <> None) s) by (clear - F; induction F; constructor; congruence).
      destruct (b58encode_decode s Hf Hn) as (b' & Hd & Hok & HB & _). replace b with b' by congruence. auto.
    + rewrite b58decode_bad in H by auto. discriminate.
  - intros [Hok HB]. destruct (b58encode_decode s (Base58_digits _ _ HB) Hn) as (b' & Hd & Hok' & HB' & _).
    rewrite Hd. f_equal. eapply Base58_inj; eauto.
Qed.

Section WithCrypto.
Context {CR : Crypto}.
Context (HO : HashOk CR).

Lemma HL : forall x, length (sha256 x) = 32%nat.
Proof. apply HO. Qed.
Lemma HB : forall x, bytes_ok (sha256 x) = true.
Proof. intros x. apply bytes_ok_Forall. apply HO. Qed.
Lemma RL : forall x, length (ripemd160 x) = 20%nat.
Proof. apply HO. Qed.
Lemma RB : forall x, bytes_ok (ripemd160 x) = true.
Proof. intros x. apply bytes_ok_Forall. apply HO. Qed.

Lemma b58decode_check_spec s p : (exists c, In c s /\ c <> 49) ->
  (b58decode_check s = Ok p <-> bytes_ok p = true /\ Base58CheckStr p s).
Proof.
  intros Hn. rewrite (b58decode_check_iff HL), b58decode_iff by auto.
  unfold Base58CheckStr. fold (double_sha256 p). change (firstn 4 (double_sha256 p)) with (double_sha256_checksum p).
  rewrite bytes_ok_app, (checksum_bytes_ok HB), andb_true_r. tauto.
Qed.

(** An address with a nonzero byte in payload or checksum. *)
Lemma check_roundtrip p : bytes_ok p = true -> (exists x, In x p /\ x <> 0) ->
  b58decode_check (b58encode_check p) = Ok p.
Proof.
  intros Hp (x & Hx & Hn). apply (b58check_roundtrip HL HB); auto. exists x. split; auto. apply in_or_app; auto.
Qed.

Lemma encode_check_str p : bytes_ok p = true -> Base58CheckStr p (b58encode_check p).
Proof.
  intros Hp. apply b58encode_spec; [|reflexivity].
  fold (double_sha256 p). change (firstn 4 (double_sha256 p)) with (double_sha256_checksum p).
  rewrite bytes_ok_app, Hp, (checksum_bytes_ok HB). reflexivity.
Qed.

End WithCrypto.

(** ** Length and leading digit of an encoding *)
Lemma b58_digits_length n k : 58 ^ Z.of_nat k <= n < 58 ^ Z.of_nat (S k) -> length (b58_digits n) = S k.
Proof.
  intros H. assert (Hn : 0 < n) by (pose proof (Z.pow_pos_nonneg 58 (Z.of_nat k)); lia).
  destruct (b58_digits_spec n ltac:(lia)) as (V & F & H0).
  set (ds := b58_digits n) in *.
  assert (Hne : ds <> []) by (intros ->; simpl in V; lia).
  pose proof (pos_value_bound 58 ds ltac:(lia) F) as U.
  assert (H0' : hd 0 ds <> 0) by (destruct ds; [contradiction|]; simpl in *; auto).
  pose proof (pos_value_lower 58 ds ltac:(lia) F Hne H0') as L. rewrite V in *.
  unfold zlen in *.
  assert (A : Z.of_nat k < Z.of_nat (length ds)).
  { apply (Z.pow_lt_mono_r_iff 58); lia. }
  assert (B : Z.of_nat (length ds) - 1 < Z.of_nat (S k)).
  { destruct (length ds) as [|j] eqn:E; [destruct ds; [contradiction|discriminate]|].
    apply (Z.pow_lt_mono_r_iff 58); lia. }
  lia.
Qed.

Lemma b58_digits_hd n k : 58 ^ Z.of_nat k <= n < 58 ^ Z.of_nat (S k) -> hd 0 (b58_digits n) = n / 58 ^ Z.of_nat k.
Proof.
  intros H. pose proof (b58_digits_length n k H) as L.
  assert (Hn : 0 < n) by (pose proof (Z.pow_pos_nonneg 58 (Z.of_nat k)); lia).
  destruct (b58_digits_spec n ltac:(lia)) as (V & F & _).
  destruct (b58_digits n) as [|d r]; [discriminate|]. injection L as L.
  apply Forall_cons_iff in F as [Fd Fr].
  pose proof (pos_value_bound 58 r ltac:(lia) Fr) as U. unfold zlen in U.
  cbn [pos_value hd] in *. rewrite <- V, <- L. rewrite Z.add_comm, Z.div_add by (pose proof (Z.pow_pos_nonneg 58 (Z.of_nat (length r))); lia).
  rewrite Z.div_small by auto. lia.
Qed.

Lemma b58encode_nolead b : bytes_ok b = true -> hd 0 b <> 0 -> b58encode b = map b58char (b58_digits (from_be b)).
Proof.
  intros Hb Hh. unfold b58encode. destruct b as [|x b]; [simpl in Hh; lia|]. simpl in Hh.
  cbn [leading]. replace (x =? 0) with false by lia. reflexivity.
Qed.

Lemma from_be_range x l : bytes_ok l = true -> 
  x * 256 ^ zlen l <= from_be (x :: l) < (x + 1) * 256 ^ zlen l.
Proof.
  intros H. change (x :: l) with ([x] ++ l). rewrite from_be_app. pose proof (from_be_bound l H).
  replace (from_be [x]) with x by (unfold from_be; simpl; lia). lia.
Qed.

(** ** WIF *)
Section Wif.
Context {CR : Crypto}.
Context (HO : HashOk CR).

Definition wif_prefix (v : net) : Z := match v with Main => 0x80 | Test => 0xef end.

Lemma wif_payload_ok secret v (c : bool) : bytes_ok secret = true ->
  bytes_ok ([wif_prefix v] ++ secret ++ (if c then [1] else [])) = true.
Proof. intros H. rewrite !bytes_ok_app, H. destruct v, c; reflexivity. Qed.

Lemma bytes_to_wif_eq secret v c :
  bytes_to_wif secret v c = b58encode_check ([wif_prefix v] ++ secret ++ (if c then [1] else [])).
Proof. destruct v, c; reflexivity. Qed.

Lemma wif_length secret v c : bytes_ok secret = true -> length secret = 32%nat ->
  length (bytes_to_wif secret v c) = if c then 52%nat else 51%nat.
Proof.
  intros Hb Hl. rewrite bytes_to_wif_eq. unfold b58encode_check.
  pose proof (wif_payload_ok secret v c Hb) as Hp.
  set (p := [wif_prefix v] ++ _) in *. set (ck := double_sha256_checksum p).
  assert (Hck : bytes_ok ck = true) by (apply (checksum_bytes_ok (HB HO))).
  assert (Lck : length ck = 4%nat) by (apply (checksum_length (HL HO))).
  rewrite b58encode_nolead.
  2:{ rewrite bytes_ok_app, Hp, Hck. reflexivity. }
  2:{ unfold p. destruct v; simpl; lia. }
  rewrite map_length.
  set (r := secret ++ (if c then [1] else []) ++ ck).
  assert (E : p ++ ck = wif_prefix v :: r) by (unfold p, r; cbn [app]; rewrite app_assoc; reflexivity).
  assert (Hr : bytes_ok r = true).
  { unfold r. rewrite !bytes_ok_app, Hb, Hck. destruct c; reflexivity. }
  pose proof (from_be_range (wif_prefix v) r Hr) as R. rewrite E.
  set (n := from_be (wif_prefix v :: r)) in *.
  assert (Lr : zlen r = if c then 37 else 36).
  { unfold r, zlen. rewrite !app_length, Hl, Lck. destruct c; reflexivity. }
  rewrite Lr in R.
  destruct c.
  - apply b58_digits_length. split.
    + apply Z.le_trans with (wif_prefix v * 256 ^ 37); [|lia]. destruct v; vm_compute; discriminate.
    + apply Z.lt_le_trans with ((wif_prefix v + 1) * 256 ^ 37); [lia|]. destruct v; vm_compute; discriminate.
  - apply b58_digits_length. split.
    + apply Z.le_trans with (wif_prefix v * 256 ^ 36); [|lia]. destruct v; vm_compute; discriminate.
    + apply Z.lt_le_trans with ((wif_prefix v + 1) * 256 ^ 36); [lia|]. destruct v; vm_compute; discriminate.
Qed.

Lemma wif_roundtrip secret v c : bytes_ok secret = true -> length secret = 32%nat ->
  wif_to_bytes (bytes_to_wif secret v c) = Ok (secret, c, v).
Proof.
  intros Hb Hl. pose proof (wif_length secret v c Hb Hl) as WL. unfold wif_to_bytes.
  rewrite bytes_to_wif_eq in *.
  rewrite (check_roundtrip HO); [|apply wif_payload_ok; auto|].
  2:{ exists (wif_prefix v). split; [left; auto|destruct v; simpl; lia]. }
  cbn [bind app firstn skipn].
  replace (if list_eqb [wif_prefix v] MAIN_PRIVATE_KEY then Ok Main
           else if list_eqb [wif_prefix v] TEST_PRIVATE_KEY then Ok Test else Raise ValueError) with (@Ok net v)
    by (destruct v; reflexivity).
  cbn [bind]. unfold zlen. cbn [app] in WL. rewrite WL.
  destruct c.
  - change (Z.of_nat 52 =? 52) with true. cbn [andb].
    replace (last (wif_prefix v :: secret ++ [1]) 0 =? 1) with true.
    2:{ symmetry. change (wif_prefix v :: secret ++ [1]) with ((wif_prefix v :: secret) ++ [1]). rewrite last_last. reflexivity. }
    rewrite drop_last_app by reflexivity. reflexivity.
  - change (Z.of_nat 51 =? 52) with false. cbn [andb]. rewrite app_nil_r. reflexivity.
Qed.

(** What is accepted. *)
Lemma wif_to_bytes_iff w key c v : (exists ch, In ch w /\ ch <> 49) ->
  (wif_to_bytes w = Ok (key, c, v) <->
   exists rest, bytes_ok rest = true /\ Base58CheckStr (wif_prefix v :: rest) w /\
     (if c then length w = 52%nat /\ rest = key ++ [1]
      else rest = key /\ ~ (length w = 52%nat /\ last (wif_prefix v :: rest) 0 = 1))).
Proof.
  intros Hn. unfold wif_to_bytes. split.
  - intros H. apply bind_ok in H as (p & Hp & H). apply (b58decode_check_spec HO) in Hp as [Hok HS]; auto.
    apply bind_ok in H as (v' & Hv & H).
    assert (Ep : exists rest, p = wif_prefix v' :: rest).
    { destruct p as [|x rest]; [simpl in Hv; discriminate|]. cbn [firstn] in Hv. exists rest.
      destruct (list_eqb [x] MAIN_PRIVATE_KEY) eqn:E1.
      - apply list_eqb_eq in E1. inv Hv. inv E1. reflexivity.
      - destruct (list_eqb [x] TEST_PRIVATE_KEY) eqn:E2; [|discriminate].
        apply list_eqb_eq in E2. inv Hv. inv E2. reflexivity. }
    destruct Ep as (rest & ->). rewrite bytes_ok_cons in Hok. apply andb_prop in Hok as [_ Hr].
    destruct ((zlen w =? 52) && (last (wif_prefix v' :: rest) 0 =? 1)) eqn:E; oinv H.
    + injection H as <- <- <-. exists rest. split; auto. split; auto.
      apply andb_prop in E as [E1 E2]. unfold zlen in E1. split; [lia|].
      cbn [skipn]. destruct rest as [|x rest'] using rev_ind; [simpl in E2; destruct v'; simpl in E2; lia|].
      change (wif_prefix v' :: rest' ++ [x]) with ((wif_prefix v' :: rest') ++ [x]) in E2. rewrite last_last in E2.
      rewrite drop_last_app by reflexivity. f_equal. f_equal. lia.
    + injection H as <- <- <-. exists rest. split; auto. split; auto. split; auto.
      intros [C1 C2]. unfold zlen in E. rewrite C1, C2 in E. discriminate.
  - intros (rest & Hr & HS & HC).
    assert (Hp : b58decode_check w = Ok (wif_prefix v :: rest)).
    { apply (b58decode_check_spec HO); auto. split; auto. rewrite bytes_ok_cons, Hr. destruct v; reflexivity. }
    rewrite Hp. cbn [bind firstn].
    replace (if list_eqb [wif_prefix v] MAIN_PRIVATE_KEY then Ok Main
           else if list_eqb [wif_prefix v] TEST_PRIVATE_KEY then Ok Test else Raise ValueError) with (@Ok net v)
      by (destruct v; reflexivity).
    cbn [bind]. destruct c.
    + destruct HC as [HL52 ->]. unfold zlen. rewrite HL52. change (Z.of_nat 52 =? 52) with true.
      change (wif_prefix v :: key ++ [1]) with ((wif_prefix v :: key) ++ [1]). rewrite last_last.
      cbn [andb Z.eqb Pos.eqb app skipn]. rewrite drop_last_app by reflexivity. reflexivity.
    + destruct HC as [-> HN]. destruct ((zlen w =? 52) && _) eqn:E; [|reflexivity].
      exfalso. apply HN. apply andb_prop in E as [E1 E2]. unfold zlen in E1. lia.
Qed.

Lemma wif_to_bytes_exn w : (exists r, wif_to_bytes w = Ok r) \/ wif_to_bytes w = Raise ValueError.
Proof.
  unfold wif_to_bytes. destruct (b58decode_check_exn w) as [(p & ->)| ->]; [|auto]. cbn [bind].
  destruct (list_eqb _ MAIN_PRIVATE_KEY); cbn [bind].
  - destruct (_ && _); eauto.
  - destruct (list_eqb _ TEST_PRIVATE_KEY); cbn [bind]; auto. destruct (_ && _); eauto.
Qed.

Lemma wif_checksum_iff w : (exists ch, In ch w /\ ch <> 49) ->
  exists b, wif_checksum_check w = Ok b /\
  (b = true <-> exists v rest, bytes_ok rest = true /\ Base58CheckStr (wif_prefix v :: rest) w).
Proof.
  intros Hn. unfold wif_checksum_check.
  destruct (b58decode_check_exn w) as [(p & E)|E]; rewrite E.
  - eexists. split; [reflexivity|]. rewrite in_listb_In.
    pose proof E as E'. apply (b58decode_check_spec HO) in E' as [Hok HS]; auto.
    split.
    + intros H. destruct p as [|x rest]; [simpl in H; intuition discriminate|].
      rewrite bytes_ok_cons in Hok. apply andb_prop in Hok as [_ Hr].
      cbn [firstn] in H. destruct H as [H|[H|[]]]; inv H.
      * exists Main, rest. auto.
      * exists Test, rest. auto.
    + intros (v & rest & Hr & HS').
      assert (E2 : b58decode_check w = Ok (wif_prefix v :: rest)).
      { apply (b58decode_check_spec HO); auto. split; auto. rewrite bytes_ok_cons, Hr. destruct v; reflexivity. }
      assert (p = wif_prefix v :: rest) by congruence. subst p. cbn [firstn]. destruct v; simpl; auto.
  - exists false. split; [reflexivity|]. split; [discriminate|].
    intros (v & rest & Hr & HS).
    assert (E2 : b58decode_check w = Ok (wif_prefix v :: rest)).
    { apply (b58decode_check_spec HO); auto. split; auto. rewrite bytes_ok_cons, Hr. destruct v; reflexivity. }
    congruence.
Qed.

Lemma wif_checksum_total w : exists b, wif_checksum_check w = Ok b.
Proof.
  unfold wif_checksum_check. destruct (b58decode_check_exn w) as [(p & ->)| ->]; eauto.
Qed.

End Wif.
