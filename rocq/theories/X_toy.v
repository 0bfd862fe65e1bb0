(** A toy signature scheme and toy hashes (a checksum and the first bytes), to
    show that hypotheses on signatures and hashes can be met; cheap to compute.
    A secret is 32 bytes, its public key contains it, a signature is 30, the
    secret, the message, six zeros.  (Real hashes are used in the conformance files.) *)
From Coq Require Import String.
From Verif Require Export X_crypto.

Definition fix32 (b : bytes) : bytes := firstn 32 (map (fun z => z mod 256) b ++ repeat 0 32).
Lemma fix32_len b : List.length (fix32 b) = 32%nat.
Proof. unfold fix32. rewrite firstn_length, app_length, repeat_length. lia. Qed.
Lemma bytes_ok_firstn n b : bytes_ok b = true -> bytes_ok (firstn n b) = true.
Proof.
  intros H. apply bytes_ok_Forall. apply bytes_ok_Forall in H. rewrite Forall_forall in *. intros z Hz. apply H. rewrite <- (firstn_skipn n b). apply in_or_app. auto.
Qed.
Lemma fix32_ok b : bytes_ok (fix32 b) = true.
Proof.
  unfold fix32. apply bytes_ok_firstn. rewrite bytes_ok_app. apply andb_true_iff. split; [|reflexivity].
  apply bytes_ok_Forall. apply Forall_forall. intros z Hz. apply in_map_iff in Hz as (y & <- & _). pose proof (Z.mod_pos_bound y 256). lia.
Qed.
Lemma fix32_id b : List.length b = 32%nat -> bytes_ok b = true -> fix32 b = b.
Proof.
  intros L O. unfold fix32. rewrite firstn_app, map_length, L. rewrite ?Nat.sub_diag, ?firstn_O. rewrite app_nil_r.
  rewrite firstn_all2 by (rewrite map_length; lia). apply bytes_ok_Forall in O.
  rewrite <- (map_id b) at 2. apply map_ext_in. rewrite Forall_forall in O. intros z Hz. apply Z.mod_small. auto.
Qed.

Definition toy_sign (s m : bytes) : bytes := 0x30 :: fix32 s ++ fix32 m ++ repeat 0 6.
Definition toy_pub (s : bytes) (compressed : bool) : bytes :=
  if compressed then 2 :: fix32 s else 4 :: fix32 s ++ fix32 s.
Definition toy_verify (sig m pub : bytes) : result bool := Ok (list_eqb sig (toy_sign (firstn 32 (skipn 1 pub)) m)).
Definition toy_hash (b : bytes) : bytes := fix32 (fold_left (fun a z => (7 * a + z) mod 256) b 1 :: b).
Definition toy_secret (b : bytes) : result bytes :=
  if ((List.length b <=? 32)%nat && bytes_ok b && (0 <? from_be b) && (from_be b <? 2 ^ 255))%bool then Ok (repeat 0 (32 - List.length b) ++ b) else Raise ValueError.
Definition toy : Crypto :=
  {| sha256 := toy_hash; ripemd160 := fun b => firstn 20 (toy_hash b); ec_secret := toy_secret; ec_pubkey := toy_pub;
     ec_sign := toy_sign; ec_verify := toy_verify; der_ok := fun b => match b with 0x30 :: _ => true | _ => false end |}.
Lemma toy_ok : HashOk toy.
Proof.
  split; intros x; cbn [sha256 ripemd160 toy]; unfold toy_hash.
  - apply fix32_len.
  - apply bytes_ok_Forall. apply fix32_ok.
  - rewrite firstn_length, fix32_len. reflexivity.
  - apply bytes_ok_Forall. apply bytes_ok_firstn, fix32_ok.
Qed.

Lemma toy_sign_len s m : List.length (toy_sign s m) = 71%nat.
Proof. unfold toy_sign. cbn [List.length]. rewrite !app_length, !fix32_len. reflexivity. Qed.
Lemma toy_sign_ok s m : bytes_ok (toy_sign s m) = true.
Proof. unfold toy_sign. change (bytes_ok ([48] ++ fix32 s ++ fix32 m ++ repeat 0 6) = true). rewrite !bytes_ok_app, !fix32_ok. reflexivity. Qed.
Lemma toy_pub_secret s c : firstn 32 (skipn 1 (toy_pub s c)) = fix32 s.
Proof.
  destruct c; cbn [toy_pub skipn].
  - apply firstn_all2. rewrite fix32_len. lia.
  - rewrite firstn_app, fix32_len. rewrite ?Nat.sub_diag, ?firstn_O. rewrite app_nil_r. apply firstn_all2. rewrite fix32_len. lia.
Qed.
Lemma fix32_idem s : fix32 (fix32 s) = fix32 s.
Proof. apply fix32_id; [apply fix32_len|apply fix32_ok]. Qed.
Lemma toy_verify_own s c m : toy_verify (toy_sign s m) m (toy_pub s c) = Ok true.
Proof. unfold toy_verify. rewrite toy_pub_secret. f_equal. apply list_eqb_eq. unfold toy_sign. rewrite fix32_idem. reflexivity. Qed.
Lemma toy_verify_other s s' c m : fix32 s <> fix32 s' -> toy_verify (toy_sign s m) m (toy_pub s' c) = Ok false.
Proof.
  intros N. unfold toy_verify. rewrite toy_pub_secret. f_equal. apply list_eqb_neq. unfold toy_sign. intros E. apply N. injection E as E.
  apply (f_equal (firstn 32)) in E. rewrite !firstn_app, !fix32_len in E. rewrite ?Nat.sub_diag, ?firstn_O in E. rewrite !app_nil_r in E.
  rewrite !firstn_all2 in E by (rewrite fix32_len; lia). rewrite fix32_idem in E. auto.
Qed.
