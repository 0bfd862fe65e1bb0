(** Property theorems C10 (address level), C14 - C20, C22, C23: bit/format.py,
    bit/curve.py and address_to_scriptpubkey. *)
From Coq Require Import String.
From Verif Require Import M_format S_Base58 S_Bech32 S_Script S_Addr S_Curve F_address F_curve X_crypto.

(** C14 *)
Theorem C14_wif_roundtrip :
  forall (CR : Crypto), HashOk CR ->
  forall secret version (compressed : bool), bytes_ok secret = true -> length secret = 32%nat ->
  wif_to_bytes (bytes_to_wif secret version compressed) = Ok (secret, compressed, version) /\
  length (bytes_to_wif secret version compressed) = (if compressed then 52%nat else 51%nat).
Proof. intros CR HO secret v c H L. split; [apply (wif_roundtrip HO)|apply (wif_length HO)]; auto. Qed.

(** The exported string is Base58Check of the standard payload. *)
Theorem C14_wif_format :
  forall (CR : Crypto), HashOk CR ->
  forall secret version (compressed : bool), bytes_ok secret = true ->
  Base58CheckStr ([match version with Main => 0x80 | Test => 0xef end] ++ secret ++ (if compressed then [1] else []))
                 (bytes_to_wif secret version compressed).
Proof.
  intros CR HO secret v c H. rewrite bytes_to_wif_eq. apply (encode_check_str HO). apply wif_payload_ok; auto.
Qed.

Example C14_example :
  let secret := hex "c28a9f80738f770d527803a566cf6fc3edf6cea586c4fc4a5223a5ad797e1ac3" in
  HashOk hash_only /\ bytes_ok secret = true /\ length secret = 32%nat /\
  @bytes_to_wif hash_only secret Main true = str "L3jsepcttyuJK3HKezD4qqRKGtwc8d2d1Nw6vsoPDX9cMcUxqqMv" /\
  @bytes_to_wif hash_only secret Main false = str "5KHxtARu5yr1JECrYGEA2YpCPdh1i9ciEgQayAF8kcqApkGzT9s" /\
  @bytes_to_wif hash_only secret Test true = str "cU6s7jckL3bZUUkb3Q2CD9vNu8F1o58K5R5a3JFtidoccMbhEGKZ" /\
  @bytes_to_wif hash_only secret Test false = str "934bTuFSgCv9GHi9Ac84u9NA3J3isK9uadGY3nbe6MaDbnQdcbn".
Proof. split; [apply hash_only_ok|]. vm_compute. repeat split. Qed.

(** C15.  The hypothesis excludes only strings made of the character 1 alone
    (and the empty string), which no WIF is. *)
Theorem C15_accepts_iff :
  forall (CR : Crypto), HashOk CR ->
  forall w key (compressed : bool) version, (exists c, In c w /\ c <> 49) ->
  (wif_to_bytes w = Ok (key, compressed, version) <->
   exists rest, bytes_ok rest = true /\
     Base58CheckStr ((match version with Main => 0x80 | Test => 0xef end) :: rest) w /\
     (if compressed then length w = 52%nat /\ rest = key ++ [1]
      else rest = key /\
           ~ (length w = 52%nat /\ last ((match version with Main => 0x80 | Test => 0xef end) :: rest) 0 = 1))).
Proof. intros CR HO w key c v H. exact (wif_to_bytes_iff HO w key c v H). Qed.

Theorem C15_only_value_error :
  forall (CR : Crypto) w, (exists r, wif_to_bytes w = Ok r) \/ wif_to_bytes w = Raise ValueError.
Proof. intros CR w. apply wif_to_bytes_exn. Qed.

Theorem C15_checksum_check_iff :
  forall (CR : Crypto), HashOk CR ->
  forall w, (exists c, In c w /\ c <> 49) ->
  exists b, wif_checksum_check w = Ok b /\
  (b = true <-> exists v rest, In v [0x80; 0xef] /\ bytes_ok rest = true /\ Base58CheckStr (v :: rest) w).
Proof.
  intros CR HO w Hn. destruct (wif_checksum_iff HO w Hn) as (b & E & I). exists b. split; auto. rewrite I. split.
  - intros (v & rest & A & B). exists (wif_prefix v), rest. split; auto. destruct v; simpl; auto.
  - intros (v & rest & [<-|[<-|[]]] & A & B); [exists Main, rest|exists Test, rest]; auto.
Qed.

Theorem C15_checksum_check_total :
  forall (CR : Crypto) w, exists b, wif_checksum_check w = Ok b.
Proof. intros CR w. apply wif_checksum_total. Qed.

Example C15_example :
  @wif_to_bytes hash_only (str "L3jsepcttyuJK3HKezD4qqRKGtwc8d2d1Nw6vsoPDX9cMcUxqqMv") =
    Ok (hex "c28a9f80738f770d527803a566cf6fc3edf6cea586c4fc4a5223a5ad797e1ac3", true, Main) /\
  @wif_to_bytes hash_only (str "L3jsepcttyuJK3HKezD4qqRKGtwc8d2d1Nw6vsoPDX9cMcUxqqMw") = Raise ValueError /\
  @wif_checksum_check hash_only (str "1ELReFsTCUY2mfaDTy32qxYiT49z786eFg") = Ok false /\
  @wif_checksum_check hash_only (str "L3jsepcttyuJK3HKezD4qqRKGtwc8d2d1Nw6vsoPDX9cMcUxqqMv") = Ok true.
Proof. vm_compute. repeat split. Qed.

(** C16 *)
Theorem C16_roundtrip :
  forall x y (compressed : bool), OnCurve x y ->
  exists key, coords_to_public_key x y compressed = Ok key /\
    (if compressed then SEC1_compressed x y key else SEC1_uncompressed x y key) /\
    public_key_to_coords key = Ok (x, y).
Proof.
  intros x y c H. apply OnCurve_FS in H as (Hx & Hy & E). pose proof FS_bound as FB. destruct c.
  - destruct (coords_compressed x y) as (key & E1 & S & _); [lia|]. exists key. split; auto. split; auto.
    apply decode_compressed; auto.
  - destruct (coords_uncompressed x y) as (key & E1 & S & _); [lia|lia|]. exists key. split; auto. split; auto.
    apply decode_uncompressed; auto.
Qed.

(** Decompression gives the point with the requested parity whenever x is on the
    curve; the prefix byte itself is not checked (only its lowest bit is used). *)
Theorem C16_decompress :
  forall pre xb y0, length xb = 32%nat -> bytes_ok (pre :: xb) = true -> be_value xb < secp_p ->
  (y0 * y0) mod secp_p = (be_value xb * be_value xb * be_value xb + 7) mod secp_p ->
  exists y, public_key_to_coords (pre :: xb) = Ok (be_value xb, y) /\ OnCurve (be_value xb) y /\ y mod 2 = pre mod 2.
Proof.
  intros pre xb y0 L B Hx E. rewrite be_value_from_be in *.
  destruct (decode_any_prefix pre xb y0 L B E) as (y & D & R & E' & P).
  exists y. split; auto. split; auto. split; [|split; auto].
  split; auto. rewrite bytes_ok_cons in B. apply andb_prop in B as [_ B]. apply from_be_bound in B. lia.
Qed.

Theorem C16_length_rejected :
  forall key, length key <> 33%nat -> length key <> 65%nat -> public_key_to_coords key = Raise ValueError.
Proof. exact decode_bad_length. Qed.

(** The prefix of a 33-byte key is not validated: full rejection is refuted. *)
Theorem C16_bad_prefix_refuted :
  exists key, length key = 33%nat /\ hd 0 key = 5 /\ exists xy, public_key_to_coords key = Ok xy.
Proof.
  exists (5 :: repeat 0 32). split; [reflexivity|]. split; [reflexivity|]. eexists. reflexivity.
Qed.

(** The generator point of secp256k1. *)
Example C16_example :
  let x := 0x79BE667EF9DCBBAC55A06295CE870B07029BFCDB2DCE28D959F2815B16F81798 in
  let y := 0x483ADA7726A3C4655DA4FBFC0E1108A8FD17B448A68554199C47D08FFB10D4B8 in
  OnCurve x y /\ coords_to_public_key x y true =
    Ok (hex "0279be667ef9dcbbac55a06295ce870b07029bfcdb2dce28d959f2815b16f81798").
Proof.
  split.
  - vm_compute. repeat split; discriminate.
  - vm_compute. reflexivity.
Qed.

(** C17.  An address could in principle also parse as Bech32 (with a foreign
    prefix); it is then rejected, never paid to a different script.  The key
    hash is assumed not to be all zeros. *)
Theorem C17_p2pkh :
  forall (CR : Crypto), HashOk CR ->
  forall pk version, length pk = 33%nat \/ length pk = 65%nat ->
  (exists b, In b (hash160 pk) /\ b <> 0) ->
  exists addr, public_key_to_address pk version = Ok addr /\
    Base58CheckStr ((match version with Main => 0x00 | Test => 0x6f end) :: hash160 pk) addr /\
    (bech32_decode addr = None ->
      get_version addr = Ok version /\
      address_to_public_key_hash addr = Ok (hash160 pk) /\
      exists script, address_to_scriptpubkey addr = Ok (Some script) /\ IsP2PKH (hash160 pk) script) /\
    (bech32_decode addr <> None -> get_version addr = Raise ValueError /\ address_to_scriptpubkey addr = Raise ValueError).
Proof.
  intros CR HO pk v Hl (b & Hb & Nz). unfold public_key_to_address.
  replace ((zlen pk =? 33) || (zlen pk =? 65)) with true by (unfold zlen; lia). cbn [negb].
  assert (L : length (hash160 pk) = 20%nat) by apply (RL HO).
  assert (B : bytes_ok (hash160 pk) = true) by apply (RB HO).
  destruct v; cbn [app]; (eexists; split; [reflexivity|]).
  - split. { refine (encode_check_str HO (0 :: hash160 pk) _). rewrite bytes_ok_cons, B. reflexivity. }
    destruct (address_exact HO 0 (hash160 pk) Main) as [A1 A2]; auto; [simpl; auto|exists b; split; [right; auto|auto]|].
    split; auto. intros HN. destruct (A1 HN) as (G1 & G2 & G3). split; auto. split; auto.
    eexists. split; [exact G3|]. apply p2pkh_parse; auto.
  - split. { refine (encode_check_str HO (111 :: hash160 pk) _). rewrite bytes_ok_cons, B. reflexivity. }
    destruct (address_exact HO 111 (hash160 pk) Test) as [A1 A2]; auto; [simpl; auto|exists b; split; [right; auto|auto]|].
    split; auto. intros HN. destruct (A1 HN) as (G1 & G2 & G3). split; auto. split; auto.
    eexists. split; [exact G3|]. apply p2pkh_parse; auto.
Qed.

Theorem C17_other_lengths_rejected :
  forall (CR : Crypto) pk version, length pk <> 33%nat -> length pk <> 65%nat ->
  public_key_to_address pk version = Raise ValueError.
Proof.
  intros CR pk v H1 H2. unfold public_key_to_address, zlen.
  replace ((Z.of_nat (length pk) =? 33) || (Z.of_nat (length pk) =? 65)) with false by lia. reflexivity.
Qed.

Example C17_example :
  let pk := hex "033d5c2875c9bd116875a71a5db64cffcb13396b163d039b1d9327824891804334" in
  HashOk hash_only /\ @public_key_to_address hash_only pk Main = Ok (str "1ExJJsNLQDNVVM1s1sdyt1o5P3GC5r32UG") /\
  @public_key_to_address hash_only pk Test = Ok (str "muUFbvTKDEokGTVUjScMhw1QF2rtv5hxCz") /\
  (exists b, In b (@hash160 hash_only pk) /\ b <> 0) /\
  bech32_decode (str "1ExJJsNLQDNVVM1s1sdyt1o5P3GC5r32UG") = None /\
  @address_to_scriptpubkey hash_only (str "1ExJJsNLQDNVVM1s1sdyt1o5P3GC5r32UG") =
    Ok (Some (hex "76a914990ef60d63b5b5964a1c2282061af45123e93fcb88ac")).
Proof.
  split; [apply hash_only_ok|]. split; [vm_compute; reflexivity|]. split; [vm_compute; reflexivity|].
  split; [exists 0x99; vm_compute; split; [left; reflexivity|discriminate]|]. split; vm_compute; reflexivity.
Qed.

(** C18: P2SH addresses of a script. *)
Definition PaysToScriptHash {CR : Crypto} (redeem : bytes) (version : net) (addr : pystr) : Prop :=
  Base58CheckStr ((match version with Main => 0x05 | Test => 0xc4 end) :: hash160 redeem) addr /\
  (bech32_decode addr = None ->
    get_version addr = Ok version /\
    address_to_public_key_hash addr = Ok (hash160 redeem) /\
    exists script, address_to_scriptpubkey addr = Ok (Some script) /\ IsP2SH (hash160 redeem) script) /\
  (bech32_decode addr <> None -> get_version addr = Raise ValueError /\ address_to_scriptpubkey addr = Raise ValueError).

Lemma pays_to_script_hash (CR : Crypto) (HO : HashOk CR) redeem version :
  PaysToScriptHash redeem version
    (b58encode_check ((match version with Test => TEST_SCRIPT_HASH | Main => MAIN_SCRIPT_HASH end) ++ ripemd160_sha256 redeem)).
Proof.
  assert (L : length (hash160 redeem) = 20%nat) by apply (RL HO).
  assert (B : bytes_ok (ripemd160_sha256 redeem) = true) by apply (RB HO).
  unfold PaysToScriptHash. destruct version; cbn [app].
  - split. { refine (encode_check_str HO (5 :: ripemd160_sha256 redeem) _). rewrite bytes_ok_cons, B. reflexivity. }
    destruct (address_exact HO 5 (hash160 redeem) Main) as [A1 A2]; auto; [simpl; auto|exists 5; split; [left; auto|lia]|].
    split; auto. intros HN. destruct (A1 HN) as (G1 & G2 & G3). split; auto. split; auto.
    eexists. split; [exact G3|]. apply p2sh_parse; auto.
  - split. { refine (encode_check_str HO (196 :: ripemd160_sha256 redeem) _). rewrite bytes_ok_cons, B. reflexivity. }
    destruct (address_exact HO 196 (hash160 redeem) Test) as [A1 A2]; auto; [simpl; auto|exists 196; split; [left; auto|lia]|].
    split; auto. intros HN. destruct (A1 HN) as (G1 & G2 & G3). split; auto. split; auto.
    eexists. split; [exact G3|]. apply p2sh_parse; auto.
Qed.

Theorem C18_nested_segwit_address :
  forall (CR : Crypto), HashOk CR -> forall pk version,
  (length pk = 33%nat -> exists addr, public_key_to_segwit_address pk version = Ok addr /\
     exists redeem, IsWitness 0 (hash160 pk) redeem /\ PaysToScriptHash redeem version addr) /\
  (length pk <> 33%nat -> public_key_to_segwit_address pk version = Raise ValueError).
Proof.
  intros CR HO pk v. unfold public_key_to_segwit_address, zlen. split; intros Hl.
  - rewrite Hl. change (negb (Z.of_nat 33 =? 33)) with false. cbv iota. eexists. split; [reflexivity|].
    exists ([0; 20] ++ hash160 pk). split; [|apply (pays_to_script_hash CR HO)].
    destruct (witness_parse 0 (hash160 pk)) as (s & E & W); [lia| | |].
    + unfold hash160. rewrite (RL HO). lia.
    + apply (RB HO).
    + unfold segwit_scriptpubkey in E. destruct (bytes_ok _); [|discriminate]. injection E as <-.
      unfold hash160, zlen in W. rewrite (RL HO) in W. exact W.
  - replace (Z.of_nat (length pk) =? 33) with false by lia. reflexivity.
Qed.

Theorem C18_multisig_address :
  forall (CR : Crypto), HashOk CR -> forall keys m version redeem,
  multisig_to_redeemscript keys m = Ok redeem ->
  exists addr, multisig_to_address keys m version = Ok addr /\ PaysToScriptHash redeem version addr.
Proof.
  intros CR HO keys m v redeem E. unfold multisig_to_address. rewrite E. cbn [bind].
  eexists. split; [reflexivity|]. apply (pays_to_script_hash CR HO).
Qed.

Theorem C18_multisig_segwit_address :
  forall (CR : Crypto), HashOk CR -> forall keys m version redeem,
  multisig_to_redeemscript keys m = Ok redeem ->
  exists addr, multisig_to_segwit_address keys m version = Ok addr /\
    exists outer, IsWitness 0 (sha256 redeem) outer /\ PaysToScriptHash outer version addr.
Proof.
  intros CR HO keys m v redeem E. unfold multisig_to_segwit_address. rewrite E. cbn [bind].
  eexists. split; [reflexivity|]. exists ([0; 32] ++ sha256 redeem). split; [|apply (pays_to_script_hash CR HO)].
  destruct (witness_parse 0 (sha256 redeem)) as (s & E' & W); [lia| | |].
  - rewrite (HL HO). lia.
  - apply (HB HO).
  - unfold segwit_scriptpubkey in E'. destruct (bytes_ok _); [|discriminate]. injection E' as <-.
    unfold zlen in W. rewrite (HL HO) in W. exact W.
Qed.

(** No address without a redeem script. *)
Theorem C18_multisig_errors :
  forall (CR : Crypto) keys m version e,
  multisig_to_redeemscript keys m = Raise e ->
  multisig_to_address keys m version = Raise e /\ multisig_to_segwit_address keys m version = Raise e.
Proof. intros CR keys m v e E. unfold multisig_to_address, multisig_to_segwit_address. rewrite E. auto. Qed.

Example C18_example :
  let pk := hex "033d5c2875c9bd116875a71a5db64cffcb13396b163d039b1d9327824891804334" in
  @public_key_to_segwit_address hash_only pk Main = Ok (str "3291hXxutb58vbDVVumaJpopanmfxjVpgJ") /\
  @public_key_to_segwit_address hash_only pk Test = Ok (str "2MshDmGtwW3aV8Nr3B3PSvmo5o8yqhwJFKZ") /\
  (exists r, multisig_to_redeemscript [pk; pk] 2 = Ok r /\ bech32_decode (str "3291hXxutb58vbDVVumaJpopanmfxjVpgJ") = None).
Proof.
  split; [vm_compute; reflexivity|]. split; [vm_compute; reflexivity|].
  eexists. split; [vm_compute; reflexivity|vm_compute; reflexivity].
Qed.

(** C19 *)
Theorem C19_policy :
  forall keys m script, 1 <= m -> multisig_to_redeemscript keys m = Ok script ->
  IsMultisig m keys script /\ (length keys <= 15)%nat /\ (length script <= 520)%nat /\
  Forall (fun k => length k = 33%nat \/ length k = 65%nat) keys.
Proof. exact (fun keys m s H => redeem_multisig keys m s H). Qed.

Theorem C19_accepts_iff :
  forall keys m, 1 <= m ->
  ((exists script, multisig_to_redeemscript keys m = Ok script) <->
   m <= Z.of_nat (length keys) /\ Forall (fun k => length k = 33%nat \/ length k = 65%nat) keys /\
   (3 + list_sum (map (fun k => S (length k)) keys) <= 520)%nat) /\
  ((exists script, multisig_to_redeemscript keys m = Ok script) \/ multisig_to_redeemscript keys m = Raise ValueError).
Proof.
  intros keys m Hm. destruct (redeem_exact keys m ltac:(lia)) as [I J]. split; auto. split.
  - intros (s & E). apply I in E as (A & B & C & _). auto.
  - intros (A & B & C). eexists. apply I. unfold zlen. repeat split; auto; exact B.
Qed.

Example C19_example :
  let k1 := hex "033d5c2875c9bd116875a71a5db64cffcb13396b163d039b1d9327824891804334" in
  let k2 := hex "0279be667ef9dcbbac55a06295ce870b07029bfcdb2dce28d959f2815b16f81798" in
  multisig_to_redeemscript [k1; k2] 2 = Ok ([0x52; 33] ++ k1 ++ [33] ++ k2 ++ [0x52; 0xae]) /\
  multisig_to_redeemscript [k1; k2] 3 = Raise ValueError /\
  multisig_to_redeemscript [k1; 0 :: k2] 1 = Raise ValueError /\
  multisig_to_redeemscript (repeat k1 16) 1 = Raise ValueError.
Proof. vm_compute. repeat split. Qed.

(** C20: the finding. *)
Theorem C20_nonpositive_accepted_refuted :
  forall keys m, -80 <= m <= 0 -> Forall (fun k => length k = 33%nat \/ length k = 65%nat) keys ->
  (3 + list_sum (map (fun k => S (length k)) keys) <= 520)%nat ->
  exists script, multisig_to_redeemscript keys m = Ok script /\
    hd 0 script = m + 80 /\ ~ (0x51 <= hd 0 script <= 0x60) /\
    forall m', ~ IsMultisig m' keys script.
Proof.
  intros keys m Hm F L. eexists. split.
  - apply redeem_exact; [lia|]. split; [unfold zlen; lia|]. split; [exact F|]. split; [exact L|reflexivity].
  - cbn [hd]. split; auto. split; [lia|]. intros m' (H1 & H2 & P). cbn [app] in P.
    remember (OP_1 + m' - 1) as c eqn:Ec. remember (m + 80) as a eqn:Ea.
    inversion P as [|s o r ops N P' E1 E2]. clear P P' E1 E2. unfold next_op in N. unfold OP_1 in Ec.
    assert (T : forall n l o r, take_push n l = Some (o, r) -> exists d, o = Push d).
    { intros n l o0 r0 T. unfold take_push in T. destruct (_ <? n); [discriminate|].
      destruct (take_exact _ _) as [[? ?]|]; inv T. eauto. }
    destruct (a <=? 0x4b). { apply T in N as (d & N). discriminate. }
    destruct (a =? 0x4c). { destruct (pushes keys ++ _); [discriminate|]. apply T in N as (d & N). discriminate. }
    destruct (a =? 0x4d). { destruct (pushes keys ++ _) as [|? [|? ?]]; try discriminate. apply T in N as (d & N). discriminate. }
    destruct (a =? 0x4e).
    { destruct (pushes keys ++ _) as [|? [|? [|? [|? ?]]]]; try discriminate. apply T in N as (d & N). discriminate. }
    injection N as N _. lia.
Qed.

Theorem C20_below_range_raises :
  forall keys m, m < -80 -> multisig_to_redeemscript keys m = Raise OverflowError.
Proof. exact redeem_overflow. Qed.

(** m = -80 gives OP_0: a zero-of-n policy. *)
Example C20_example :
  let k1 := hex "033d5c2875c9bd116875a71a5db64cffcb13396b163d039b1d9327824891804334" in
  multisig_to_redeemscript [k1] 0 = Ok ([0x50; 33] ++ k1 ++ [0x51; 0xae]) /\
  multisig_to_redeemscript [k1] (-80) = Ok ([0x00; 33] ++ k1 ++ [0x51; 0xae]) /\
  multisig_to_redeemscript [k1] (-81) = Raise OverflowError.
Proof. vm_compute. repeat split. Qed.

(** C22 *)
Theorem C22_classification :
  forall (CR : Crypto), HashOk CR ->
  forall s n, (exists c, In c s /\ c <> 49) ->
  (get_version s = Ok n <->
    (exists hrp data, BechString s hrp data /\
       match n with Main => hrp = str "bc" | Test => hrp = str "tb" \/ hrp = str "bcrt" end) \/
    ((forall hrp data, ~ BechString s hrp data) /\
     exists v rest, bytes_ok (v :: rest) = true /\ Base58CheckStr (v :: rest) s /\
       In v (match n with Main => [0x00; 0x05] | Test => [0x6f; 0xc4] end))).
Proof. intros CR HO s n H. exact (get_version_iff HO s n H). Qed.

Theorem C22_otherwise_value_error :
  forall (CR : Crypto) s, (exists n, get_version s = Ok n) \/ get_version s = Raise ValueError.
Proof. intros CR s. apply get_version_exn. Qed.

(** The networks are exclusive. *)
Example C22_example :
  @get_version hash_only (str "1ELReFsTCUY2mfaDTy32qxYiT49z786eFg") = Ok Main /\
  @get_version hash_only (str "3291hXxutb58vbDVVumaJpopanmfxjVpgJ") = Ok Main /\
  @get_version hash_only (str "mtrNwJxS1VyHYn3qBY1Qfsm3K3kh1mGRMS") = Ok Test /\
  @get_version hash_only (str "bc1qar0srrr7xfkvy5l643lydnw9re59gtzzwf5mdq") = Ok Main /\
  @get_version hash_only (str "tb1qw508d6qejxtdg4y5r3zarvary0c5xw7kxpjzsx") = Ok Test /\
  @get_version hash_only (str "A12UEL5L") = Raise ValueError /\
  @get_version hash_only (str "1ELReFsTCUY2mfaDTy32qxYiT49z786eFh") = Raise ValueError.
Proof. vm_compute. repeat split. Qed.

(** C23 *)
Theorem C23_standard_scripts :
  forall (CR : Crypto), HashOk CR ->
  forall s script, (exists c, In c s /\ c <> 49) ->
  address_to_scriptpubkey s = Ok (Some script) ->
  (exists v h, bytes_ok (v :: h) = true /\ Base58CheckStr (v :: h) s /\ In v [0x00; 0x05; 0x6f; 0xc4] /\
     (length h = 20%nat -> (In v [0x00; 0x6f] /\ IsP2PKH h script) \/ (In v [0x05; 0xc4] /\ IsP2SH h script))) \/
  (exists ver prog, segwit_decode s = Some (ver, prog) /\ IsWitness ver prog script).
Proof.
  intros CR HO s script Hn H.
  destruct (accepted_script HO s script Hn H) as [(v & h & A & B & C)|W]; [left|right; auto].
  exists v, h. split; auto. split; auto. split; [simpl in *; tauto|].
  intros L. destruct C as [[Hv ->]|[Hv ->]].
  - left. split; auto. apply p2pkh_parse; auto.
  - right. split; auto. apply p2sh_parse; auto.
Qed.

Theorem C23_segwit_addresses :
  forall (CR : Crypto) s ver prog,
  segwit_decode s = Some (ver, prog) -> b58decode_check s = Raise ValueError ->
  exists script, address_to_scriptpubkey s = Ok (Some script) /\ IsWitness ver prog script.
Proof. intros CR s ver prog. apply segwit_script. Qed.

(** Without the length condition the claim is false, whatever the hash function:
    the payload 00 01 has a valid address and gives a script that does not parse. *)
Lemma short_not_bech32 s : (length s <= 7)%nat -> bech32_decode s = None.
Proof.
  intros L. destruct (bech32_decode s) as [[hrp d]|] eqn:E; auto. exfalso.
  apply bech32_decode_iff in E as (chk & _ & _ & _ & Hh & _ & _ & Lc & Es & _).
  apply (f_equal (@length Z)) in Es. rewrite lower_length, !app_length, map_length, app_length, Lc in Es.
  destruct hrp; [contradiction|]. simpl in Es. lia.
Qed.

Theorem C23_unrestricted_refuted :
  forall (CR : Crypto), HashOk CR ->
  exists s script, address_to_scriptpubkey s = Ok (Some script) /\ forall ops, ~ ParsesTo script ops.
Proof.
  intros CR HO. set (s := b58encode_check [0; 1]).
  assert (D : b58decode_check s = Ok [0; 1]).
  { apply (check_roundtrip HO); [reflexivity|]. exists 1. simpl. split; auto. lia. }
  assert (L : length s = 7%nat).
  { unfold s, b58encode_check. set (ck := double_sha256_checksum [0; 1]).
    assert (Hck : bytes_ok ck = true) by apply (checksum_bytes_ok (HB HO)).
    assert (Lck : length ck = 4%nat) by apply (checksum_length (HL HO)).
    unfold b58encode. cbn [app leading Z.eqb repeat length].
    rewrite map_length. f_equal. apply b58_digits_length.
    change (from_be (0 :: 1 :: ck)) with (from_be (1 :: ck)).
    pose proof (from_be_range 1 ck Hck) as R. unfold zlen in R. rewrite Lck in R.
    change (256 ^ Z.of_nat 4) with 4294967296 in R.
    change (58 ^ Z.of_nat 5) with 656356768. change (58 ^ Z.of_nat 6) with 38068692544. lia. }
  assert (N : bech32_decode s = None) by (apply short_not_bech32; lia).
  assert (G : get_version s = Ok Main).
  { apply get_version_base58; auto. exists 0, [1]. split; auto. simpl. auto. }
  exists s, (hex "76a9140188ac"). split.
  - unfold address_to_scriptpubkey, address_to_public_key_hash. rewrite G. cbn [bind]. rewrite D. vm_compute. reflexivity.
  - intros ops P. change (hex "76a9140188ac") with [0x76; 0xa9; 0x14; 1; 0x88; 0xac] in P.
    inversion P as [|? ? ? ? N1 P1]; subst. vm_compute in N1. inv N1.
    inversion P1 as [|? ? ? ? N2 P2]; subst. vm_compute in N2. inv N2.
    inversion P2 as [|? ? ? ? N3 P3]; subst. vm_compute in N3. discriminate.
Qed.

(** A valid Bech32 string with known prefix but invalid witness program raises
    TypeError from the internals instead of ValueError. *)
Theorem C23_invalid_program_type_error :
  forall (CR : Crypto) s hrp data, BechString s hrp data -> In hrp [str "bc"; str "tb"; str "bcrt"] ->
  segwit_decode s = None -> b58decode_check s = Raise ValueError ->
  address_to_scriptpubkey s = Raise TypeError.
Proof.
  intros CR s hrp data B K W D. apply bech32_decode_iff in B.
  assert (G : exists n, get_version s = Ok n).
  { destruct K as [<-|K]; [exists Main|exists Test]; apply (get_version_bech32 _ _ _ B); [reflexivity|simpl in K; intuition]. }
  destruct G as (n & G). unfold address_to_scriptpubkey. rewrite G, D. cbn [bind]. rewrite W. reflexivity.
Qed.

Example C23_example :
  @address_to_scriptpubkey hash_only (str "bc1qc7slrfxkknqcq2jevvvkdgvrt8080852dfjewde450xdlk4ugp7szw5tk9") =
    Ok (Some (hex "0020c7a1f1a4d6b4c1802a59631966a18359de779e8a6a65973735a3ccdfdabc407d")) /\
  @b58decode_check hash_only (str "bc1qc7slrfxkknqcq2jevvvkdgvrt8080852dfjewde450xdlk4ugp7szw5tk9") = Raise ValueError /\
  @address_to_scriptpubkey hash_only (str "39SrGQEfFXcTYJhBvjZeQja66Cpz82EEUn") =
    Ok (Some (hex "a91455131efb7a0edd4c76cc3bbe833bfc59a6f73c6b87")) /\
  (* bc1rw5uspcuh: version 3, one-byte program (BIP173 invalid vector) *)
  @address_to_scriptpubkey hash_only (str "bc1rw5uspcuh") = Raise TypeError.
Proof. vm_compute. repeat split. Qed.

(** C10 at the level of the functions that decide where money goes. *)
Theorem C10_typos_rejected :
  forall (CR : Crypto), HashOk CR ->
  forall s ver prog s' k,
  segwit_decode s = Some (ver, prog) ->
  length s' = length s ->
  nth_error s k = Some 49 ->
  firstn (S k) (lower s') = firstn (S k) (lower s) ->
  (1 <= hamming (lower s) (lower s') <= 4)%nat ->
  (get_version s' = Raise ValueError /\ address_to_scriptpubkey s' = Raise ValueError) \/
  (exists v rest, In v [0x05; 0x6f; 0xc4] /\ bytes_ok rest = true /\ Base58CheckStr (v :: rest) s').
Proof. intros CR HO s ver prog s' k. apply (typo_address HO). Qed.

(** For P2WPKH and P2WSH addresses the second case cannot occur, whatever the
    hash function, except for 62-character strings starting with lower-case b. *)
Theorem C10_v0_typos_rejected :
  forall (CR : Crypto), HashOk CR ->
  forall s prog s' k,
  segwit_decode s = Some (0, prog) ->
  length s' = length s ->
  nth_error s k = Some 49 ->
  firstn (S k) (lower s') = firstn (S k) (lower s) ->
  (1 <= hamming (lower s) (lower s') <= 4)%nat ->
  ~ (length s = 62%nat /\ hd 0 s' = 98) ->
  get_version s' = Raise ValueError /\ address_to_scriptpubkey s' = Raise ValueError.
Proof. intros CR HO s prog s' k. apply (typo_address_v0 HO). Qed.

Print Assumptions C10_typos_rejected.
Print Assumptions C10_v0_typos_rejected.
Print Assumptions C14_wif_roundtrip.
Print Assumptions C14_wif_format.
Print Assumptions C15_accepts_iff.
Print Assumptions C15_only_value_error.
Print Assumptions C15_checksum_check_iff.
Print Assumptions C15_checksum_check_total.
Print Assumptions C16_roundtrip.
Print Assumptions C16_decompress.
Print Assumptions C16_length_rejected.
Print Assumptions C16_bad_prefix_refuted.
Print Assumptions C17_p2pkh.
Print Assumptions C17_other_lengths_rejected.
Print Assumptions C18_nested_segwit_address.
Print Assumptions C18_multisig_address.
Print Assumptions C18_multisig_segwit_address.
Print Assumptions C18_multisig_errors.
Print Assumptions C19_policy.
Print Assumptions C19_accepts_iff.
Print Assumptions C20_nonpositive_accepted_refuted.
Print Assumptions C20_below_range_raises.
Print Assumptions C22_classification.
Print Assumptions C22_otherwise_value_error.
Print Assumptions C23_standard_scripts.
Print Assumptions C23_segwit_addresses.
Print Assumptions C23_unrestricted_refuted.
Print Assumptions C23_invalid_program_type_error.
