(** C90: how keys come to be: constructors, DER and PEM; how they are shown. *)
From Coq Require Import String.
From Verif Require Import F_base F_utils F_hex F_wif M_key M_keygen M_init S_Addr S_Base58 P_format P_keys P_keygen X_toy.

(** What is asked of coincurve's DER and PEM: what it writes it reads back, and
    what it reads is a valid secret. *)
Record CoderOk {CR : Crypto} (C : Coder) : Prop := {
  co_der : forall s, NewSecret s -> from_der C (to_der C s) = Ok s;
  co_pem : forall s, NewSecret s -> from_pem C (to_pem C s) = Ok s;
  co_der_valid : forall b s, from_der C b = Ok s -> NewSecret s;
  co_pem_valid : forall b s, from_pem C b = Ok s -> NewSecret s
}.

Section WithCrypto.
Context {CR : Crypto} (HO : HashOk CR) (EO : EcOk CR) (C : Coder) (CO : CoderOk C).

Lemma IsKey_new v s c : NewSecret s -> IsKey v s c (make_key v s c).
Proof. intros (A & B & D). repeat split; auto. Qed.

(** ** A new key: the secret drawn, compressed, of the class; every way of storing
    it gives it back, with both addresses. *)
Theorem C90_new cls random : NewSecret random -> exists k,
  new_key cls random NoWif = Ok k /\ IsKey cls random true k /\
  forall random', NewSecret random' ->
    new_key cls random' (Wif (key_to_wif k)) = Ok k /\ wif_to_key (key_to_wif k) = Ok k /\
    key_from_der C cls random' (key_to_der C k) = Ok k /\ key_from_pem C cls random' (key_to_pem C k) = Ok k /\
    key_from_hex cls (key_to_hex k) = Ok k /\ key_from_bytes cls (key_to_bytes k) = Ok k /\ key_from_int cls (key_to_int k) = Ok k.
Proof.
  intros N. exists (make_key cls random true). split; [reflexivity|]. pose proof (IsKey_new cls random true N) as K. split; auto. intros r' N'.
  destruct (C70_roundtrips EO _ _ _ _ K) as (R1 & R2 & R3 & _).
  split; [|split; [exact (C65_restores HO EO _ _ _ _ K)|split; [|split; [|auto]]]].
  - pose proof (IsKey_compressed EO _ _ _ _ K) as Ec. destruct N as (N1 & N2 & N3). unfold key_to_wif. rewrite Ec. cbn [k_version k_secret make_key].
    destruct (C14_wif_roundtrip CR HO random cls true N3 N2) as [W WL]. unfold new_key. destruct (bytes_to_wif random cls true) as [|ch w] eqn:Ew.
    + discriminate WL.
    + cbn [truth]. rewrite W. cbn [bind]. rewrite N1. reflexivity.
  - unfold key_from_der, key_to_der. cbn [k_secret make_key]. rewrite (co_der _ CO) by auto. reflexivity.
  - unfold key_from_pem, key_to_pem. cbn [k_secret make_key]. rewrite (co_pem _ CO) by auto. reflexivity.
Qed.

(** A WIF string, of either network and compression, is adhered to, except for its
    network; the random secret is not used. *)
Theorem C90_wif v s c k cls random : IsKey v s c k -> new_key cls random (Wif (key_to_wif k)) = Ok (make_key cls s c).
Proof.
  intros K. pose proof (IsKey_compressed EO _ _ _ _ K) as Ec. destruct K as (H1 & H2 & H3 & N1 & N2 & N3). unfold key_to_wif. rewrite Ec, H1, H2.
  destruct (C14_wif_roundtrip CR HO s v c N3 N2) as [W WL]. unfold new_key. destruct (bytes_to_wif s v c) as [|ch w] eqn:Ew.
  - destruct c; discriminate WL.
  - cbn [truth]. rewrite W. cbn [bind]. rewrite N1. reflexivity.
Qed.

(** ** Every key that a constructor makes is a valid key of the class, and its
    secret is the one given: the random one only if the argument is false. *)
Theorem C90_sound cls random a k : NewSecret random -> (forall s, a = ECKey s -> NewSecret s) ->
  (forall w p, a = Wif w -> wif_to_bytes w = Ok p -> (length (fst (fst p)) <= 32)%nat /\ bytes_ok (fst (fst p)) = true) ->
  new_key cls random a = Ok k ->
  exists s c, IsKey cls s c k /\
    match a with
    | NoWif | Other _ => s = random /\ c = true
    | Wif [] => s = random /\ c = true
    | Wif w => exists b v, wif_to_bytes w = Ok (b, c, v) /\ from_be s = from_be b
    | ECKey s' => s = s' /\ c = true
    end.
Proof.
  intros N E W H. destruct a as [|[|ch w]|s'|[]]; cbn [new_key truth] in H.
  - injection H as <-. exists random, true. split; auto. apply IsKey_new; auto.
  - injection H as <-. exists random, true. split; auto. apply IsKey_new; auto.
  - unfold new_key in H. cbn [truth] in H. apply bind_ok in H as (((b & c) & v) & H1 & H2). cbv beta iota in H2. apply bind_ok in H2 as (s & H2 & H3). injection H3 as <-.
    destruct (W _ _ eq_refl H1) as [L B]. cbn [fst] in L, B. exists s, c. split; [exact (IsKey_make EO cls s c b B L H2)|].
    exists b, v. split; auto. apply (secret_valid EO) in H2 as (-> & _); auto. apply from_be_pad.
  - injection H as <-. exists s', true. split; auto. apply IsKey_new; auto.
  - discriminate.
  - injection H as <-. exists random, true. split; auto. apply IsKey_new; auto.
Qed.

(** ** What is refused: objects that are not strings, if true; strings that are not
    Base58Check with one of the two version bytes. *)
Theorem C90_refused cls random : new_key cls random (Other true) = Raise TypeError /\
  forall w, (exists c, In c w /\ c <> 49) ->
    ~ (exists v rest, In v [0x80; 0xef] /\ bytes_ok rest = true /\ Base58CheckStr (v :: rest) w) -> new_key cls random (Wif w) = Raise ValueError.
Proof.
  split; [reflexivity|]. intros w X Q. destruct w as [|ch w]; [destruct X as (? & [] & _)|]. unfold new_key. cbn [truth].
  destruct (C15_only_value_error CR (ch :: w)) as [(((key & c) & v) & R)|R]; [|rewrite R; reflexivity]. exfalso. apply Q.
  apply (C15_accepts_iff CR HO _ _ _ _ X) in R as (rest & B & R & _). exists (match v with Main => 0x80 | Test => 0xef end), rest.
  split; [destruct v; cbn; auto|auto].
Qed.
(** The empty string is no WIF either, but gives a new random key: a program whose
    stored key is empty gets a wallet that it cannot restore. *)
Theorem C90_empty_refuted : exists w, ~ (exists payload, bytes_ok payload = true /\ Base58CheckStr payload w) /\
  forall cls random, new_key cls random (Wif w) = Ok (make_key cls random true).
Proof.
  exists []. split; [|reflexivity]. intros (b & O & B). unfold Base58CheckStr in B.
  assert (N : Base58 [] []) by (exists 0%nat, [], [], []; cbn; repeat split; auto; lia).
  assert (O' : bytes_ok (b ++ firstn 4 (sha256 (sha256 b))) = true) by (rewrite bytes_ok_app, O; apply bytes_ok_firstn, bytes_ok_Forall, (sha256_byte _ HO)).
  pose proof (f_equal (@length Z) (Base58_inj _ [] _ O' eq_refl B N)) as L. rewrite app_length, firstn_length, (sha256_len _ HO) in L. cbn in L. lia.
Qed.

(** ** DER and PEM forget the compression: what is read is the compressed key of
    the secret.  The same address only if two forms of the public key collide. *)
Theorem C90_der_pem v s c k cls random : IsKey v s c k ->
  key_from_der C cls random (key_to_der C k) = Ok (make_key cls s true) /\ key_from_pem C cls random (key_to_pem C k) = Ok (make_key cls s true) /\
  (key_address (make_key v s true) = key_address k -> hash160 (ec_pubkey s true) = hash160 (ec_pubkey s c)).
Proof.
  intros K. pose proof (IsKey_eq _ _ _ _ K) as Ek. destruct K as (H1 & H2 & H3 & N). unfold key_from_der, key_to_der, key_from_pem, key_to_pem. rewrite H2.
  rewrite (co_der _ CO), (co_pem _ CO) by exact N. split; [reflexivity|]. split; [reflexivity|]. intros A. destruct N as (N1 & N2 & N3).
  subst k. unfold key_address, public_key_to_address, zlen in A. cbn [k_public_key k_version make_key] in A. rewrite !(eo_pub _ EO) in A by auto.
  assert (O : forall p x, 0 <= p < 256 -> bytes_ok (p :: hash160 x) = true).
  { intros p x Hp. apply bytes_ok_Forall. constructor; auto. apply (ripemd160_byte _ HO). }
  assert (G : forall p x y, 0 <= p < 256 -> b58encode_check (p :: hash160 x) = b58encode_check (p :: hash160 y) -> hash160 x = hash160 y).
  { intros p x y Hp Q. assert (O4 : forall z, bytes_ok ((p :: hash160 z) ++ firstn 4 (sha256 (sha256 (p :: hash160 z)))) = true).
    { intros z. rewrite bytes_ok_app, O by auto. apply bytes_ok_firstn, bytes_ok_Forall, (sha256_byte _ HO). }
    pose proof (encode_check_str HO (p :: hash160 x) (O p x Hp)) as S1. pose proof (encode_check_str HO (p :: hash160 y) (O p y Hp)) as S2.
    rewrite Q in S1. pose proof (Base58_inj _ _ _ (O4 _) (O4 _) S1 S2) as E. cbn [app] in E. injection E as E.
    assert (L : forall z, length (hash160 z) = 20%nat) by (intros z; apply (ripemd160_len _ HO)).
    apply (f_equal (firstn 20)) in E. rewrite !firstn_app, !L in E. rewrite !Nat.sub_diag, !firstn_O, !app_nil_r, !firstn_all2 in E by (rewrite L; lia). auto. }
  destruct c; [reflexivity|]. assert (I : forall a b : pystr, Ok a = Ok b -> a = b) by congruence.
  destruct v; cbn [negb orb Z.of_nat Z.eqb Pos.of_succ_nat Pos.succ Pos.eqb] in A; apply I in A; [apply (G 0); [lia|exact A]|apply (G 111); [lia|exact A]].
Qed.
(** What is not the output of the encoder is refused or gives a valid key. *)
Theorem C90_der_sound cls random b k : (key_from_der C cls random b = Ok k \/ key_from_pem C cls random b = Ok k) -> exists s, IsKey cls s true k.
Proof.
  unfold key_from_der, key_from_pem. intros [H|H]; apply bind_ok in H as (s & H1 & H2); injection H2 as <-; exists s; apply IsKey_new; [eapply co_der_valid|eapply co_pem_valid]; eauto.
Qed.

(** ** What is shown of a key is its class and its address: nothing of the secret
    beyond the public key. *)
Theorem C90_repr v s c k : IsKey v s c k -> exists a,
  key_repr k = Ok (str (match v with Main => "<PrivateKey: " | Test => "<PrivateKeyTestnet: " end) ++ a ++ str ">") /\
  Base58CheckStr ((match v with Main => 0x00 | Test => 0x6f end) :: hash160 (ec_pubkey s c)) a.
Proof.
  intros K. pose proof (IsKey_eq _ _ _ _ K) as ->. destruct K as (_ & _ & _ & N1 & N2 & N3). unfold key_repr, key_address, public_key_to_address, zlen. cbn [k_public_key k_version make_key].
  rewrite (eo_pub _ EO) by auto. replace (negb _) with false by (destruct c; reflexivity). cbn [bind].
  assert (O : forall p, 0 <= p < 256 -> bytes_ok (p :: hash160 (ec_pubkey s c)) = true).
  { intros p Hp. apply bytes_ok_Forall. constructor; auto. apply (ripemd160_byte _ HO). }
  destruct v; eexists; (split; [reflexivity|]); [apply (encode_check_str HO (0 :: hash160 (ec_pubkey s c)))|apply (encode_check_str HO (111 :: hash160 (ec_pubkey s c)))]; apply O; lia.
Qed.
Theorem C90_repr_no_secret k k' : k_version k = k_version k' -> k_public_key k = k_public_key k' -> key_repr k = key_repr k'.
Proof. unfold key_repr, key_address. intros -> ->. reflexivity. Qed.
Theorem C90_multi_repr ms rs : multisig_to_redeemscript (ms_public_keys ms) (ms_m ms) = Ok rs -> exists a,
  ms_repr ms = Ok (str (match ms_version ms with Main => "<MultiSig: " | Test => "<MultiSigTestnet: " end) ++ a ++ str ">") /\
  Base58CheckStr ((match ms_version ms with Main => 0x05 | Test => 0xc4 end) :: hash160 rs) a.
Proof.
  intros E. unfold ms_repr, ms_address, multisig_to_address. rewrite E. cbn [bind].
  assert (O : forall p, 0 <= p < 256 -> bytes_ok (p :: hash160 rs) = true).
  { intros p Hp. apply bytes_ok_Forall. constructor; auto. apply (ripemd160_byte _ HO). }
  destruct (ms_version ms); eexists; (split; [reflexivity|]); [apply (encode_check_str HO (5 :: hash160 rs))|apply (encode_check_str HO (196 :: hash160 rs))]; apply O; lia.
Qed.
Theorem C90_multi_repr_no_secret a b : ms_version a = ms_version b -> ms_public_keys a = ms_public_keys b -> ms_m a = ms_m b -> ms_repr a = ms_repr b.
Proof. unfold ms_repr, ms_address. intros -> -> ->. reflexivity. Qed.
End WithCrypto.
Print Assumptions C90_new.
Print Assumptions C90_wif.
Print Assumptions C90_sound.
Print Assumptions C90_refused.
Print Assumptions C90_empty_refuted.
Print Assumptions C90_der_pem.
Print Assumptions C90_der_sound.
Print Assumptions C90_repr.
Print Assumptions C90_repr_no_secret.
Print Assumptions C90_multi_repr.
Print Assumptions C90_multi_repr_no_secret.

(** ** The hypotheses are met: a coder that writes a tag and the secret. *)
Definition tagged (tag : Z) (s : bytes) : bytes := tag :: s.
Definition untagged (tag : Z) (b : bytes) : result bytes :=
  match b with t :: s => if ((t =? tag) && (List.length s =? 32)%nat)%bool then toy_secret s else Raise ValueError | [] => Raise ValueError end.
Definition toy_coder : Coder := mkCoder (tagged 48) (untagged 48) (tagged 45) (untagged 45).
Lemma untagged_ok tag s : @NewSecret toy s -> untagged tag (tagged tag s) = Ok s.
Proof. intros (A & B & _). unfold untagged, tagged. rewrite B, Z.eqb_refl. exact A. Qed.
Lemma untagged_valid tag b s : untagged tag b = Ok s -> @NewSecret toy s.
Proof.
  destruct b as [|t b]; [discriminate|]. cbn [untagged]. destruct (_ && _)%bool eqn:Q; [|discriminate]. apply andb_prop in Q as [_ Q]. apply Nat.eqb_eq in Q.
  intros H. assert (B : bytes_ok b = true). { unfold toy_secret in H. destruct (bytes_ok b); auto. rewrite andb_false_r in H. discriminate. }
  destruct (@secret_valid toy toy_ec_ok b s B) as (_ & V); [lia|exact H|exact V].
Qed.
Lemma toy_coder_ok : @CoderOk toy toy_coder.
Proof. split; cbn [toy_coder from_der to_der from_pem to_pem]; intros *; try apply untagged_ok; apply untagged_valid. Qed.
Example C90_case : @HashOk toy /\ @EcOk toy /\ @CoderOk toy toy_coder /\ @NewSecret toy vanity /\ @NewSecret toy other_secret.
Proof. split; [exact toy_ok|]. split; [exact toy_ec_ok|]. split; [exact toy_coder_ok|]. split; repeat split; vm_compute; reflexivity. Qed.
(** An uncompressed key loses its address in DER. *)
Example C90_lost : let k := @make_key toy Main vanity false in exists k', @key_from_der toy toy_coder Main vanity (@key_to_der toy_coder k) = Ok k' /\
  @key_address toy k' <> @key_address toy k /\ key_eqb k k' = true.
Proof. eexists. split; [reflexivity|]. split; [vm_compute; discriminate|reflexivity]. Qed.
(** A string that is refused, of the letters of Base58. *)
Example C90_refused_case : @new_key toy Main vanity (Wif (str "5Kb8kLf9zgWQnogidDA76MzPL6TsZZY36hWXMssSzNydYXYB9KF")) = Raise ValueError.
Proof. vm_compute. reflexivity. Qed.
