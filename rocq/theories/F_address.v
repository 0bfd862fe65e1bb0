(** Addresses: classification, output scripts, Bech32 / Base58 confusion. *)
From Coq Require Import String.
From Verif Require Export F_bech32 F_wif F_redeem.

(** ** Leading byte against leading characters *)
Lemma Base58_value v rest s : v <> 0 -> Base58 (v :: rest) s ->
  exists ds, Forall2 (fun c d => digit58 c = Some d) s ds /\ pos_value 256 (v :: rest) = pos_value 58 ds.
Proof.
  intros Hv (k & b' & s' & ds & E1 & E2 & _ & _ & F & V).
  destruct k as [|k]; [|cbn [repeat app] in E1; congruence].
  cbn [repeat app] in *. subst. exists ds. auto.
Qed.

Lemma digit58_bound c d : digit58 c = Some d -> 0 <= d < 58.
Proof. rewrite <- index_digit58. intros H. apply b58char_index in H. tauto. Qed.

Lemma digits_bound s ds : Forall2 (fun c d => digit58 c = Some d) s ds -> Forall (fun d => 0 <= d < 58) ds.
Proof. induction 1; constructor; auto. eapply digit58_bound; eauto. Qed.

Lemma Forall2_len {A B} (R : A -> B -> Prop) a b : Forall2 R a b -> length a = length b.
Proof. induction 1; simpl; auto. Qed.

Lemma overlap v rest p t : v <> 0 -> bytes_ok rest = true -> Base58 (v :: rest) (p ++ t) ->
  exists dp, Forall2 (fun c d => digit58 c = Some d) p dp /\
    pos_value 58 dp * 58 ^ zlen t < (v + 1) * 256 ^ zlen rest /\
    v * 256 ^ zlen rest < (pos_value 58 dp + 1) * 58 ^ zlen t.
Proof.
  intros Hv Hr HB. destruct (Base58_value _ _ _ Hv HB) as (ds & F & V).
  apply Forall2_app_inv_l in F as (dp & dt & Fp & Ft & ->). exists dp. split; auto.
  rewrite pos_value_256 in V. pose proof (from_be_range v rest Hr) as R. rewrite V in R.
  rewrite pos_value_app in R by lia. pose proof (pos_value_bound 58 dt ltac:(lia) (digits_bound _ _ Ft)) as B.
  assert (L : zlen dt = zlen t) by (unfold zlen; rewrite (Forall2_len _ _ _ Ft); auto). rewrite L in *. lia.
Qed.

(** Address versions other than 00. *)
Definition vers : list Z := [5; 111; 196].

(** No string of value prefix [P] and [m] more characters starts with such a
    byte: the range of values lies between two powers of 256 times the byte. *)
Definition disjoint (P m : Z) : bool :=
  let lo := P * 58 ^ m in
  let hi := lo + 58 ^ m in
  forallb (fun v => let j := (Z.log2 (hi / v) + 8) / 8 in
                    (1 <=? j) && (hi <=? v * 256 ^ j) && ((v + 1) * 256 ^ (j - 1) <=? lo)) vers.

Lemma disjoint_ok P m v k : disjoint P m = true -> In v vers -> 0 <= k ->
  ~ (P * 58 ^ m < (v + 1) * 256 ^ k /\ v * 256 ^ k < (P + 1) * 58 ^ m).
Proof.
  intros D Hv Hk [A B]. unfold disjoint in D. rewrite forallb_forall in D. specialize (D v Hv). cbv beta zeta in D.
  set (j := (_ + 8) / 8) in D. clearbody j.
  apply andb_prop in D as [D D3]. apply andb_prop in D as [D1 D2].
  assert (1 <= v) by (destruct Hv as [<-|[<-|[<-|[]]]]; lia).
  destruct (Z_lt_dec k j) as [L|L].
  - assert (256 ^ k <= 256 ^ (j - 1)) by (apply Z.pow_le_mono_r; lia). nia.
  - assert (256 ^ j <= 256 ^ k) by (apply Z.pow_le_mono_r; lia). nia.
Qed.

(** Values of the human-readable prefixes, in all cases of letters, with the
    number of further characters of version 0 addresses. *)
Definition prefix_values (p : pystr) : Z :=
  fold_left (fun a c => a * 58 + match digit58 c with Some d => d | None => 0 end) p 0.

Definition v0_table : list (pystr * Z) :=
  [ (str "bc1", 39); (str "bC1", 39); (str "Bc1", 39); (str "BC1", 39);
    (str "Bc1", 59); (str "BC1", 59);
    (str "tb1", 39); (str "tB1", 39); (str "Tb1", 39); (str "TB1", 39);
    (str "tb1", 59); (str "tB1", 59); (str "Tb1", 59); (str "TB1", 59) ] ++
  flat_map (fun p => [(p ++ [49], 39); (p ++ [49], 59)])
    (flat_map (fun a => flat_map (fun b => flat_map (fun c => map (fun d => [a; b; c; d]) [116; 84])
       [114; 82]) [99; 67]) [98; 66]).

Lemma v0_table_ok : forallb (fun e => disjoint (prefix_values (fst e)) (snd e)) v0_table = true.
Proof. vm_compute. reflexivity. Qed.

Lemma prefix_value_spec p dp : Forall2 (fun c d => digit58 c = Some d) p dp -> pos_value 58 dp = prefix_values p.
Proof.
  unfold prefix_values. intros F.
  assert (G : forall a, fold_left (fun a c => a * 58 + match digit58 c with Some d => d | None => 0 end) p a =
              a * 58 ^ zlen dp + pos_value 58 dp).
  { induction F as [|c d p dp E F IH]; intros a; cbn [fold_left pos_value].
    - unfold zlen. simpl. lia.
    - rewrite IH, E. unfold zlen. cbn [length]. rewrite Nat2Z.inj_succ, Z.pow_succ_r by lia. ring. }
  rewrite G. lia.
Qed.

Lemma table_not_base58 p t v rest : In (p, zlen t) v0_table -> In v vers -> bytes_ok rest = true ->
  ~ Base58 (v :: rest) (p ++ t).
Proof.
  intros Hi Hv Hr HB. assert (v <> 0) by (destruct Hv as [<-|[<-|[<-|[]]]]; lia).
  destruct (overlap v rest p t) as (dp & F & O1 & O2); auto.
  rewrite (prefix_value_spec _ _ F) in *.
  pose proof v0_table_ok as T. rewrite forallb_forall in T. specialize (T _ Hi). cbn [fst snd] in T.
  apply (disjoint_ok _ _ v (zlen rest) T); auto. unfold zlen; lia.
Qed.

(** ** The first character of a Base58 address *)
Definition pre_b (c : Z) : bool := (c =? 98) || (c =? 66) || (c =? 116) || (c =? 84).
Definition addr_check (P m : Z) : bool :=
  forallb (fun v => ((P + 1) * 58 ^ m <=? v * 256 ^ 24) || ((v + 1) * 256 ^ 24 <=? P * 58 ^ m)) vers.
Lemma addr_check_ok :
  forallb (fun P => forallb (fun m => addr_check P (Z.of_nat m)) (seq 0 35)) (map (fun c => prefix_values [c]) [98; 66; 116; 84]) = true.
Proof. vm_compute. reflexivity. Qed.
Lemma pow_60 : 256 ^ 24 * 200 <= 58 ^ 35.
Proof. vm_compute. discriminate. Qed.

Lemma addr_first_char v rest c r : In v (0 :: vers) -> bytes_ok rest = true -> length rest = 24%nat ->
  Base58 (v :: rest) (c :: r) -> pre_b c = false.
Proof.
  intros [<-|Hv] Hr HL HB.
  - destruct HB as (k & b' & s' & ds & E1 & E2 & H1 & H2 & _).
    destruct k as [|k].
    + cbn [repeat app] in E1. subst b'. simpl in H1. lia.
    + cbn [repeat app] in E2. injection E2 as -> _. reflexivity.
  - destruct (pre_b c) eqn:E; auto. exfalso.
    assert (v <> 0) by (destruct Hv as [<-|[<-|[<-|[]]]]; lia).
    change (c :: r) with ([c] ++ r) in HB.
    destruct (overlap v rest [c] r) as (dp & F & O1 & O2); auto.
    rewrite (prefix_value_spec _ _ F) in *.
    assert (Hz : zlen rest = 24) by (unfold zlen; lia). rewrite Hz in *.
    assert (Hin : In (prefix_values [c]) (map (fun c => prefix_values [c]) [98; 66; 116; 84])).
    { apply in_map_iff. exists c. split; auto. unfold pre_b in E. simpl. lia. }
    destruct (Nat.lt_ge_cases (length r) 35) as [L|L].
    + pose proof addr_check_ok as T. rewrite forallb_forall in T. specialize (T _ Hin).
      rewrite forallb_forall in T. specialize (T (length r)). rewrite in_seq in T. specialize (T ltac:(lia)).
      unfold addr_check in T. rewrite forallb_forall in T. specialize (T v Hv). cbv beta in T.
      unfold zlen in O1, O2. apply orb_prop in T as [T|T]; lia.
    + assert (58 ^ 35 <= 58 ^ zlen r) by (apply Z.pow_le_mono_r; unfold zlen; lia).
      pose proof pow_60 as P60.
      assert (1 <= prefix_values [c]).
      { unfold pre_b in E. assert (C : c = 98 \/ c = 66 \/ c = 116 \/ c = 84) by lia.
        destruct C as [->|[->|[->| ->]]]; vm_compute; discriminate. }
      assert (v <= 196) by (destruct Hv as [<-|[<-|[<-|[]]]]; lia).
      assert (0 < 256 ^ 24) by (vm_compute; reflexivity).
      generalize dependent (256 ^ 24). generalize dependent (58 ^ 35). generalize dependent (58 ^ zlen r).
      intros. nia.
Qed.

Lemma known_hrp_first s hrp d : bech32_decode s = Some (hrp, d) -> known_hrp hrp ->
  exists c r, s = c :: r /\ pre_b c = true.
Proof.
  intros D K. apply bech32_decode_iff in D as (chk & _ & _ & _ & _ & _ & _ & _ & E & _).
  destruct s as [|c r].
  - destruct K as [-> | [-> | ->]]; discriminate.
  - exists c, r. split; auto.
    assert (L : lower_char c = 98 \/ lower_char c = 116).
    { destruct K as [-> | [-> | ->]]; simpl in E; injection E as E _; auto. }
    unfold lower_char in L. unfold pre_b. destruct ((65 <=? c) && (c <=? 90)) eqn:E2; lia.
Qed.

Lemma firstn_sep (h : list Z) x r : firstn (S (length h)) (h ++ [x] ++ r) = h ++ [x].
Proof. induction h as [|a h IH]; cbn [length app firstn]; auto. f_equal. exact IH. Qed.

Section WithCrypto.
Context {CR : Crypto}.
Context (HO : HashOk CR).

Definition main_vers : list Z := [0; 5].
Definition test_vers : list Z := [111; 196].

Lemma in_vers1 payload v : In v [0; 5; 111; 196] -> payload = v :: tl payload ->
  (in_listb (firstn 1 payload) [MAIN_PUBKEY_HASH; MAIN_SCRIPT_HASH] = true <-> In v main_vers) /\
  (in_listb (firstn 1 payload) [TEST_PUBKEY_HASH; TEST_SCRIPT_HASH] = true <-> In v test_vers).
Proof.
  intros Hv ->. cbn [firstn tl].
  destruct Hv as [<-|[<-|[<-|[<-|[]]]]]; split; (split; intros H; [|reflexivity || (exfalso; vm_compute in H; intuition lia)]);
    vm_compute in H; try discriminate; simpl; auto.
Qed.

Lemma get_version_base58 s : bech32_decode s = None -> forall n,
  get_version s = Ok n <-> exists v rest, b58decode_check s = Ok (v :: rest) /\
    In v (match n with Main => main_vers | Test => test_vers end).
Proof.
  intros HN n. unfold get_version. rewrite HN. split.
  - intros H. apply bind_ok in H as (p & Hp & H).
    destruct (in_listb (firstn 1 p) [MAIN_PUBKEY_HASH; MAIN_SCRIPT_HASH]) eqn:E1.
    + inv H. apply in_listb_In in E1. destruct p as [|v rest]; [simpl in E1; intuition discriminate|].
      exists v, rest. split; auto. cbn [firstn] in E1. destruct E1 as [E|[E|[]]]; inv E; simpl; auto.
    + destruct (in_listb (firstn 1 p) [TEST_PUBKEY_HASH; TEST_SCRIPT_HASH]) eqn:E2; [|discriminate].
      inv H. apply in_listb_In in E2. destruct p as [|v rest]; [simpl in E2; intuition discriminate|].
      exists v, rest. split; auto. cbn [firstn] in E2. destruct E2 as [E|[E|[]]]; inv E; simpl; auto.
  - intros (v & rest & -> & Hv). cbn [bind firstn].
    destruct n; destruct Hv as [<-|[<-|[]]]; reflexivity.
Qed.

Lemma get_version_bech32 s hrp d : bech32_decode s = Some (hrp, d) -> forall n,
  get_version s = Ok n <-> match n with Main => hrp = str "bc" | Test => hrp = str "tb" \/ hrp = str "bcrt" end.
Proof.
  intros HS n. unfold get_version. rewrite HS.
  destruct (in_listb hrp BECH32_MAIN_VERSION_SET) eqn:E1.
  - apply in_listb_In in E1 as [E1|[]]. subst. destruct n; split; intros H; auto; try discriminate.
    destruct H as [H|H]; discriminate.
  - assert (N1 : hrp <> str "bc") by (intros ->; vm_compute in E1; discriminate).
    destruct (in_listb hrp BECH32_TEST_VERSION_SET) eqn:E2.
    + apply in_listb_In in E2. split; intros H.
      * inv H. simpl in E2. intuition.
      * destruct n; [contradiction|reflexivity].
    + assert (N2 : ~ (hrp = str "tb" \/ hrp = str "bcrt")).
      { intros [-> | ->]; vm_compute in E2; discriminate. }
      split; [discriminate|]. destruct n; intros H; contradiction.
Qed.

Lemma get_version_exn s : (exists n, get_version s = Ok n) \/ get_version s = Raise ValueError.
Proof.
  unfold get_version. destruct (bech32_decode s) as [[hrp d]|].
  - destruct (in_listb hrp _); eauto. destruct (in_listb hrp _); eauto.
  - destruct (b58decode_check_exn s) as [(p & ->)| ->]; cbn [bind]; auto.
    destruct (in_listb _ _); eauto. destruct (in_listb _ _); eauto.
Qed.

Lemma get_version_iff s n : (exists c, In c s /\ c <> 49) ->
  (get_version s = Ok n <->
    (exists hrp d, BechString s hrp d /\
       match n with Main => hrp = str "bc" | Test => hrp = str "tb" \/ hrp = str "bcrt" end) \/
    ((forall hrp d, ~ BechString s hrp d) /\
     exists v rest, bytes_ok (v :: rest) = true /\ Base58CheckStr (v :: rest) s /\
       In v (match n with Main => main_vers | Test => test_vers end))).
Proof.
  intros Hn. destruct (bech32_decode s) as [[hrp d]|] eqn:E.
  - rewrite (get_version_bech32 s hrp d E). split.
    + intros H. left. exists hrp, d. split; auto. apply bech32_decode_iff; auto.
    + intros [(hrp' & d' & B & H)|[N _]].
      * apply bech32_decode_iff in B. rewrite E in B. inv B. auto.
      * exfalso. apply bech32_decode_iff in E. exact (N _ _ E).
  - rewrite (get_version_base58 s E). split.
    + intros (v & rest & D & Hv). right. split.
      * intros hrp d B. apply bech32_decode_iff in B. congruence.
      * exists v, rest. apply (b58decode_check_spec HO) in D as [A B]; auto.
    + intros [(hrp' & d' & B & H)|[_ (v & rest & A & B & Hv)]].
      * apply bech32_decode_iff in B. congruence.
      * exists v, rest. split; auto. apply (b58decode_check_spec HO); auto.
Qed.

(** ** Encoded addresses *)
Lemma encoded_not_known v h : In v (0 :: vers) -> bytes_ok h = true -> length h = 20%nat ->
  forall hrp d, bech32_decode (b58encode_check (v :: h)) = Some (hrp, d) -> ~ known_hrp hrp.
Proof.
  intros Hv Hh Hl hrp d D K. destruct (known_hrp_first _ _ _ D K) as (c & r & E & P).
  assert (Hok : bytes_ok (v :: h) = true).
  { rewrite bytes_ok_cons, Hh. destruct Hv as [<-|[<-|[<-|[<-|[]]]]]; reflexivity. }
  pose proof (encode_check_str HO (v :: h) Hok) as B. unfold Base58CheckStr in B. rewrite E in B.
  cbn [app] in B. apply addr_first_char in B; auto; [congruence| |].
  - rewrite bytes_ok_app, Hh. apply (checksum_bytes_ok (HB HO)).
  - rewrite app_length, Hl. change (firstn 4 _) with (double_sha256_checksum (v :: h)).
    rewrite (checksum_length (HL HO)). reflexivity.
Qed.

(** A Base58 address built from a version byte and 20 bytes.  A nonzero byte is
    needed (only the all-zero hash on the main network is excluded). *)
Lemma address_exact v h n : In v (match n with Main => main_vers | Test => test_vers end) ->
  bytes_ok h = true -> length h = 20%nat -> (exists x, In x (v :: h) /\ x <> 0) ->
  let addr := b58encode_check (v :: h) in
  (bech32_decode addr = None ->
     get_version addr = Ok n /\ address_to_public_key_hash addr = Ok h /\
     address_to_scriptpubkey addr = Ok (Some (
       if in_listb [v] [MAIN_PUBKEY_HASH; TEST_PUBKEY_HASH]
       then OP_DUP ++ OP_HASH160 ++ OP_PUSH_20 ++ h ++ OP_EQUALVERIFY ++ OP_CHECKSIG
       else OP_HASH160 ++ OP_PUSH_20 ++ h ++ OP_EQUAL))) /\
  (bech32_decode addr <> None -> get_version addr = Raise ValueError /\ address_to_scriptpubkey addr = Raise ValueError).
Proof.
  intros Hv Hh Hl Hx addr.
  assert (Hok : bytes_ok (v :: h) = true).
  { rewrite bytes_ok_cons, Hh. destruct n; destruct Hv as [<-|[<-|[]]]; reflexivity. }
  assert (D : b58decode_check addr = Ok (v :: h)) by (apply (check_roundtrip HO); auto).
  split.
  - intros HN. assert (G : get_version addr = Ok n) by (apply get_version_base58; eauto).
    assert (A : address_to_public_key_hash addr = Ok h).
    { unfold address_to_public_key_hash. rewrite G. cbn [bind]. rewrite D. reflexivity. }
    split; auto. split; auto. unfold address_to_scriptpubkey. rewrite G. cbn [bind]. rewrite D, A. cbn [bind firstn].
    destruct n; destruct Hv as [<-|[<-|[]]]; reflexivity.
  - intros HN. assert (G : get_version addr = Raise ValueError).
    { destruct (bech32_decode addr) as [[hrp d]|] eqn:E; [|contradiction].
      destruct (get_version_exn addr) as [(n' & G)|G]; auto. exfalso.
      apply (get_version_bech32 _ _ _ E) in G.
      apply (encoded_not_known v h ltac:(destruct n; simpl in *; tauto) Hh Hl hrp d E).
      unfold known_hrp. destruct n'; tauto. }
    split; auto. unfold address_to_scriptpubkey. rewrite G. reflexivity.
Qed.

(** ** What accepted strings give *)
Lemma accepted_script s script : (exists c, In c s /\ c <> 49) ->
  address_to_scriptpubkey s = Ok (Some script) ->
  (exists v h, bytes_ok (v :: h) = true /\ Base58CheckStr (v :: h) s /\
     ((In v [0; 111] /\ script = OP_DUP ++ OP_HASH160 ++ OP_PUSH_20 ++ h ++ OP_EQUALVERIFY ++ OP_CHECKSIG) \/
      (In v [5; 196] /\ script = OP_HASH160 ++ OP_PUSH_20 ++ h ++ OP_EQUAL))) \/
  (exists ver prog, segwit_decode s = Some (ver, prog) /\ IsWitness ver prog script).
Proof.
  intros Hn H. unfold address_to_scriptpubkey in H. apply bind_ok in H as (n & G & H).
  destruct (b58decode_check s) as [p|e] eqn:D.
  - left. pose proof D as D'. apply (b58decode_check_spec HO) in D' as [Hok HS]; auto.
    assert (A : address_to_public_key_hash s = Ok (skipn 1 p)).
    { unfold address_to_public_key_hash. rewrite G. cbn [bind]. rewrite D. reflexivity. }
    rewrite A in H. cbn [bind] in H.
    destruct p as [|v h]; [simpl in H; discriminate|]. exists v, h. split; auto. split; auto.
    cbn [firstn skipn] in H.
    destruct (list_eqb [v] MAIN_PUBKEY_HASH || list_eqb [v] TEST_PUBKEY_HASH) eqn:E1.
    + left. inv H. split; auto. apply orb_prop in E1 as [E|E]; apply list_eqb_eq in E; inv E; simpl; auto.
    + destruct (list_eqb [v] MAIN_SCRIPT_HASH || list_eqb [v] TEST_SCRIPT_HASH) eqn:E2; [|discriminate].
      right. inv H. split; auto. apply orb_prop in E2 as [E|E]; apply list_eqb_eq in E; inv E; simpl; auto.
  - right. assert (e = ValueError) as ->.
    { destruct (b58decode_check_exn s) as [(b & C)|C]; congruence. }
    apply rmap_ok in H as (sc & Hs & E). injection E as ->.
    destruct (segwit_decode s) as [[ver prog]|] eqn:W; [|discriminate].
    exists ver, prog. split; auto.
    apply segwit_decode_iff in W as (hrp & f & _ & _ & _ & (Hv & Hb & Hl & _)).
    destruct (witness_parse ver prog Hv Hl) as (s' & E & I); [apply bytes_ok_Forall; auto|]. congruence.
Qed.

(** A valid segwit address that is not also a Base58Check string. *)
Lemma segwit_script s ver prog : segwit_decode s = Some (ver, prog) -> b58decode_check s = Raise ValueError ->
  exists script, address_to_scriptpubkey s = Ok (Some script) /\ IsWitness ver prog script.
Proof.
  intros W D. pose proof W as W'. apply segwit_decode_iff in W' as (hrp & f & K & B & _ & (Hv & Hb & Hl & _)).
  assert (G : exists n, get_version s = Ok n).
  { destruct K as [->|K]; [exists Main|exists Test]; apply (get_version_bech32 _ _ _ B); auto. }
  destruct G as (n & G). unfold address_to_scriptpubkey. rewrite G, D. cbn [bind]. rewrite W.
  destruct (witness_parse ver prog Hv Hl) as (s' & E & I); [apply bytes_ok_Forall; auto|].
  exists s'. rewrite E. auto.
Qed.

(** ** Typos (C10) *)
Lemma typo_address s ver prog s' k :
  segwit_decode s = Some (ver, prog) ->
  length s' = length s ->
  nth_error s k = Some 49 ->
  firstn (S k) (lower s') = firstn (S k) (lower s) ->
  (1 <= hamming (lower s) (lower s') <= 4)%nat ->
  (get_version s' = Raise ValueError /\ address_to_scriptpubkey s' = Raise ValueError) \/
  (exists v rest, In v vers /\ bytes_ok rest = true /\ Base58CheckStr (v :: rest) s').
Proof.
  intros D Hl Hk Hf Hw. destruct (segwit_typo _ _ _ _ _ D Hl Hk Hf Hw) as [_ N].
  destruct (get_version_exn s') as [(n & G)|G].
  2:{ left. split; auto. unfold address_to_scriptpubkey. rewrite G. reflexivity. }
  destruct (bech32_decode s') as [[hrp d]|] eqn:E.
  { exfalso. apply (N _ _ eq_refl). apply (get_version_bech32 _ _ _ E) in G. simpl. destruct n; intuition. }
  right. pose proof D as D'. apply segwit_decode_iff in D' as (hrp & f & K & B & _ & _).
  rewrite (segwit_sep _ _ _ _ B K Hk) in Hf.
  apply bech32_decode_iff in B as (chk & _ & _ & _ & _ & _ & _ & _ & Es & _).
  rewrite Es in Hf.
  replace (firstn (S (length hrp)) (hrp ++ [49] ++ map bech_char ((ver :: f) ++ chk))) with (hrp ++ [49]) in Hf.
  2:{ symmetry. apply firstn_sep. }
  assert (Hc : exists c r, s' = c :: r /\ pre_b c = true).
  { destruct s' as [|c r].
    - destruct K as [-> | [-> | ->]]; discriminate.
    - exists c, r. split; auto.
      assert (L : lower_char c = 98 \/ lower_char c = 116).
      { destruct K as [-> | [-> | ->]]; simpl in Hf; injection Hf as Hf _; auto. }
      unfold lower_char in L. unfold pre_b. destruct ((65 <=? c) && (c <=? 90)) eqn:E2; lia. }
  destruct Hc as (c & r & Ec & Pc).
  apply (get_version_base58 s' E) in G as (v & rest & Dv & Hv).
  apply (b58decode_check_spec HO) in Dv as [Hok HS].
  2:{ exists c. split; [subst; left; auto|]. unfold pre_b in Pc. intros ->. discriminate. }
  rewrite bytes_ok_cons in Hok. apply andb_prop in Hok as [_ Hr].
  exists v, rest. split; auto.
  destruct (Z.eq_dec v 0) as [->|Nz].
  - exfalso. unfold Base58CheckStr in HS. rewrite Ec in HS.
    destruct HS as (j & b' & s1 & ds & E1 & E2 & H1 & _).
    destruct j as [|j].
    + cbn [repeat app] in E1. subst b'. simpl in H1. lia.
    + cbn [repeat app] in E2. injection E2 as -> _. discriminate.
  - destruct n; simpl in *; intuition.
Qed.

Lemma lower_is a l : lower_char a = l -> 97 <= l <= 122 -> a = l \/ a = l - 32.
Proof. unfold lower_char. destruct ((65 <=? a) && (a <=? 90)) eqn:E; lia. Qed.
Lemma lower_is1 a : lower_char a = 49 -> a = 49.
Proof. unfold lower_char. destruct ((65 <=? a) && (a <=? 90)) eqn:E; lia. Qed.

(** Version 0 addresses, except lower-case b ... of 62 characters: unconditional. *)
Lemma typo_address_v0 s prog s' k :
  segwit_decode s = Some (0, prog) ->
  length s' = length s ->
  nth_error s k = Some 49 ->
  firstn (S k) (lower s') = firstn (S k) (lower s) ->
  (1 <= hamming (lower s) (lower s') <= 4)%nat ->
  ~ (length s = 62%nat /\ hd 0 s' = 98) ->
  get_version s' = Raise ValueError /\ address_to_scriptpubkey s' = Raise ValueError.
Proof.
  intros D Hl Hk Hf Hw H62. destruct (typo_address _ _ _ _ _ D Hl Hk Hf Hw) as [A|(v & rest & Hv & Hr & HS)]; auto.
  exfalso. pose proof D as D'. apply segwit_decode_iff in D' as (hrp & f & K & B & RG & (_ & _ & _ & H0)).
  rewrite (segwit_sep _ _ _ _ B K Hk) in Hf.
  apply bech32_decode_iff in B as (chk & _ & _ & _ & _ & _ & _ & Lc & Es & _).
  pose proof (Regroup_length _ _ RG) as RL'. specialize (H0 eq_refl).
  assert (Ls : length s = (length hrp + 8 + length f)%nat).
  { rewrite <- (lower_length s), Es, !app_length, map_length, app_length, Lc. simpl. lia. }
  rewrite Es in Hf.
  replace (firstn (S (length hrp)) (hrp ++ [49] ++ map bech_char ((0 :: f) ++ chk))) with (hrp ++ [49]) in Hf.
  2:{ symmetry. apply firstn_sep. }
  assert (Lf : length f = 32%nat \/ length f = 52%nat) by lia.
  assert (HT : In (firstn (S (length hrp)) s', zlen (skipn (S (length hrp)) s')) v0_table).
  { unfold zlen. rewrite skipn_length, Hl, Ls.
    replace (length hrp + 8 + length f - S (length hrp))%nat with (7 + length f)%nat by lia.
    unfold lower in Hf. rewrite firstn_map in Hf.
    destruct K as [-> | [-> | ->]]; cbn [length] in *.
    - change (length (str "bc")) with 2%nat in *.
      destruct s' as [|a [|b [|c r]]]; try (simpl in Hf; discriminate Hf).
      cbn [firstn map] in *. simpl in Hf. injection Hf as Ea Eb Ec.
      apply lower_is in Ea; [|lia]. apply lower_is in Eb; [|lia]. apply lower_is1 in Ec. subst c.
      destruct Lf as [Lf|Lf]; rewrite Lf in *.
      + destruct Ea as [->| ->]; destruct Eb as [->| ->]; vm_compute; tauto.
      + assert (a <> 98) by (intros ->; apply H62; split; [lia|reflexivity]).
        destruct Ea as [->| ->]; [contradiction|]. destruct Eb as [->| ->]; vm_compute; tauto.
    - change (length (str "tb")) with 2%nat in *.
      destruct s' as [|a [|b [|c r]]]; try (simpl in Hf; discriminate Hf).
      cbn [firstn map] in *. simpl in Hf. injection Hf as Ea Eb Ec.
      apply lower_is in Ea; [|lia]. apply lower_is in Eb; [|lia]. apply lower_is1 in Ec. subst c.
      destruct Lf as [Lf|Lf]; rewrite Lf in *;
        destruct Ea as [->| ->]; destruct Eb as [->| ->]; vm_compute; tauto.
    - change (length (str "bcrt")) with 4%nat in *.
      destruct s' as [|a [|b [|c [|d [|e r]]]]]; try (simpl in Hf; discriminate Hf).
      cbn [firstn map] in *. simpl in Hf. injection Hf as Ea Eb Ec Ed Ee.
      apply lower_is in Ea; [|lia]. apply lower_is in Eb; [|lia]. apply lower_is in Ec; [|lia].
      apply lower_is in Ed; [|lia]. apply lower_is1 in Ee. subst e.
      destruct Lf as [Lf|Lf]; rewrite Lf in *;
        destruct Ea as [->| ->]; destruct Eb as [->| ->]; destruct Ec as [->| ->]; destruct Ed as [->| ->]; vm_compute; tauto. }
  unfold Base58CheckStr in HS. rewrite <- (firstn_skipn (S (length hrp)) s') in HS.
  revert HS. cbn [app]. apply table_not_base58; auto.
  rewrite bytes_ok_app, Hr. apply (checksum_bytes_ok (HB HO)).
Qed.

End WithCrypto.
