(** What the secret of a key is used for (C86). *)
From Coq Require Import String.
From Verif Require Import M_app S_Sighash S_Tx F_base F_sign F_signtx F_spend X_world P_sign P_wallet P_create P_send.

(** A library that signs as the device [f] does, whatever key it is given; it makes
    no keys. *)
Definition device (CR : Crypto) (f : bytes -> bytes) : Crypto := {|
  sha256 := sha256; ripemd160 := ripemd160; ec_secret := fun _ => Raise ValueError; ec_pubkey := fun _ _ => [];
  ec_sign := fun _ data => f data; ec_verify := ec_verify; der_ok := der_ok |}.
(** A key without its secret. *)
Definition shell (k : PrivateKey) : PrivateKey := mkKey (k_version k) [] (k_public_key k).
Definition shell_of (sg : signer) : signer := match sg with
  | Single k => Single (shell k)
  | Multi ms => Multi (mkMulti (shell (ms_key ms)) (ms_version ms) (ms_public_keys ms) (ms_m ms) (ms_redeemscript ms)) end.

Section Sign.
Context {CR : Crypto} (sg : signer) (f : bytes -> bytes).
Notation D := (device CR f).
Notation sh := (shell_of sg).

Lemma dev_can_sign u : @sg_can_sign D sh u = sg_can_sign sg u.
Proof. destruct sg as [[v s p]|[[v s p] v' ps m r]]; reflexivity. Qed.
Lemma dev_scriptcode : @sg_scriptcode D sh = sg_scriptcode sg.
Proof. destruct sg as [[v s p]|[[v s p] v' ps m r]]; reflexivity. Qed.
Lemma dev_public_key : sg_public_key sh = sg_public_key sg.
Proof. destruct sg as [[v s p]|[[v s p] v' ps m r]]; reflexivity. Qed.
Lemma dev_dict us : forall d, @build_dict D sh us d = build_dict sg us d.
Proof.
  induction us as [|u us IH]; intros d; [reflexivity|]. cbn [build_dict]. rewrite dev_can_sign. destruct (sg_can_sign sg u) as [[]|]; cbn [bind negb]; auto.
  destruct (hex_to_bytes (u_txid u)); cbn [bind]; auto. destruct (to_bytes_le (u_txindex u) 4); cbn [bind]; auto.
Qed.
Lemma dev_prepare d idx : forall ins field params, @prepare_loop D sh d idx ins field params = prepare_loop sg d idx ins field params.
Proof.
  induction idx as [|i idx IH]; intros ins field params; [reflexivity|]. cbn [prepare_loop]. rewrite dev_scriptcode.
  destruct (nth_in ins i) as [x|]; cbn [bind]; auto. destruct (dict_get (outpoint x) d) as [u|]; auto.
  destruct (sg_scriptcode sg) as [c|]; cbn [bind]; auto. destruct (int_to_varint (zlen c)); cbn [bind]; auto.
  destruct (d_is_segwit u); auto. destruct (to_bytes_le (d_amount u) 8); cbn [bind]; auto.
Qed.
Definition Agrees (hash : bytes) : Prop := f hash = ec_sign (k_secret (sg_key sg)) hash.
Lemma dev_sigs sigs hash pubs : forall acc, @match_sigs D sigs hash pubs acc = match_sigs sigs hash pubs acc.
Proof. reflexivity. Qed.
Lemma dev_one push hash fld seg stx : Agrees hash -> @sign_one D sh push hash fld seg stx = sign_one sg push hash fld seg stx.
Proof.
  unfold Agrees. destruct sg as [[v s p]|[[v s p] v' ps m r]]; cbn [sg_key k_secret ms_key]; intros A; cbn [sign_one shell_of].
  - unfold sign_single. cbn [ec_sign device shell k_secret k_public_key k_version]. rewrite A. reflexivity.
  - unfold sign_multi. cbn [ec_sign device shell k_secret k_public_key k_version ms_key ms_public_keys ms_m ms_redeemscript ms_version]. rewrite A. reflexivity.
Qed.
Lemma dev_loop push stx field todo : Forall (fun t => Agrees (fst t)) todo ->
  forall ins, @sign_loop D sh push stx field todo ins = sign_loop sg push stx field todo ins.
Proof.
  induction 1 as [|[h [[i x0] seg]] todo A _ IH]; intros ins; [reflexivity|]. cbn [fst] in A. cbn [sign_loop].
  destruct (nth_in ins i) as [x|]; cbn [bind]; auto.
  assert (EQ : (match sh with Multi ms => match nth_error field i with None => Raise IndexError | Some f => @sign_multi D ms h f seg stx end | Single k => @sign_single D k push h seg stx end) =
               (match sg with Multi ms => match nth_error field i with None => Raise IndexError | Some f => sign_multi ms h f seg stx end | Single k => sign_single k push h seg stx end)).
  { pose proof (fun fld => dev_one push h fld seg stx A) as O. unfold sign_one in O. destruct sg as [k|ms]; cbn [shell_of] in *.
    - exact (O []).
    - destruct (nth_error field i); auto. }
  rewrite EQ. match goal with |- bind ?m _ = _ => destruct m as [[ss w]|] end; cbn [bind]; auto. destruct (int_to_varint (zlen ss)); cbn [bind]; auto.
Qed.

(** ** It is enough that the device signs the standard messages of the inputs to be
    signed, each for the coin that it spends. *)
Theorem C86_asked x t us : RepObj x t ->
  (forall j i u code msg, nth_error (TxIns t) j = Some i -> LastMatch sg us (outpoint i) u -> sg_scriptcode sg = Ok code ->
     SigMsg (u_is_segwit u) x j code (u_amount u) msg -> f (sha256 msg) = ec_sign (k_secret (sg_key sg)) (sha256 msg)) ->
  @sign_tx D sh t us = sign_tx sg t us.
Proof.
  intros R A. unfold sign_tx. assert (EQ : @sign_tx_obj D sh t us = sign_tx_obj sg t us); [|rewrite EQ; reflexivity].
  unfold sign_tx_obj. rewrite dev_dict, dev_public_key. destruct (build_dict sg us []) as [d|] eqn:Ed; cbn [bind]; auto.
  destruct (tx_is_segwit t) as [stx|]; cbn [bind]; auto. destruct (script_push (zlen (sg_public_key sg))) as [push|]; cbn [bind]; auto.
  rewrite dev_prepare. pose proof (prepare_pointwise sg d (TxIns t) [] [] [] eq_refl) as PP. cbn [length app] in PP. rewrite PP. clear PP.
  destruct (mapM (prep sg d) (TxIns t)) as [r|] eqn:Er; cbn [bind]; auto. apply mapM_ok in Er.
  set (T := mkTx (version t) (map p_in r) (TxOuts t) (locktime t)).
  change (@calculate_preimages D T (poss 0 (map p_flag r))) with (calculate_preimages T (poss 0 (map p_flag r))).
  destruct (calculate_preimages T (poss 0 (map p_flag r))) as [pres|] eqn:Ep; cbn [bind]; auto.
  rewrite dev_loop; auto. unfold calculate_preimages in Ep. apply bind_ok in Ep as (c1 & _ & Ep). apply bind_ok in Ep as (c2 & _ & Ep). apply mapM_ok in Ep.
  assert (PO : forall p, In p (poss 0 (map p_flag r)) -> exists j q seg, p = (j, HASH_TYPE, seg) /\ nth_error r j = Some q /\ p_flag q = Some seg).
  { clear. assert (G : forall r n p, In p (poss n (map p_flag r)) -> exists j q seg, p = ((n + j)%nat, HASH_TYPE, seg) /\ nth_error r j = Some q /\ p_flag q = Some seg).
    { clear r. induction r as [|q r IH]; intros n p I; [destruct I|]. cbn [map poss] in I. destruct (p_flag q) as [seg|] eqn:EF.
      - destruct I as [<-|I]; [exists 0%nat, q, seg; rewrite Nat.add_0_r; auto|]. destruct (IH _ _ I) as (j & q' & seg' & -> & N & F). exists (S j), q', seg'. replace (n + S j)%nat with (S n + j)%nat by lia. auto.
      - destruct (IH _ _ I) as (j & q' & seg' & -> & N & F). exists (S j), q', seg'. replace (n + S j)%nat with (S n + j)%nat by lia. auto. }
    intros p I. exact (G r 0%nat p I). }
  apply Forall_forall. intros [h p] I. pose proof (in_combine_r _ _ _ _ I) as Ip. destruct (PO _ Ip) as (j & q & seg & -> & N & F). cbn [fst].
  assert (PR : preimage_of T (j, HASH_TYPE, seg) = Ok h).
  { clear -Ep I. induction Ep as [|a b l m E _ IH]; [destruct I|]. cbn [combine] in I. destruct I as [I|I]; [injection I as -> ->; exact E|auto]. }
  destruct (prepared_preimage sg d x t r j q seg R Er N F) as (i & w & code & msg & Hi & G & -> & Ec & _ & _ & Epr & M).
  fold T in Epr. rewrite PR in Epr. injection Epr as ->. destruct (build_dict_spec sg us [] d Ed (outpoint i)) as [B _].
  destruct (B _ G) as [(u & LM & ->)|[_ Z]]; [|discriminate]. unfold Agrees. apply (A j i u code msg Hi LM Ec). exact M.
Qed.
Lemma dev_sign t us : (forall h, f h = ec_sign (k_secret (sg_key sg)) h) -> @sign_tx D sh t us = sign_tx sg t us.
Proof.
  intros A. unfold sign_tx, sign_tx_obj. rewrite dev_dict, dev_public_key. destruct (build_dict sg us []) as [d|] eqn:Ed; cbn [bind]; auto.
  destruct (tx_is_segwit t) as [stx|]; cbn [bind]; auto. destruct (script_push (zlen (sg_public_key sg))) as [push|]; cbn [bind]; auto.
  rewrite dev_prepare. destruct (prepare_loop sg d (sign_inputs d (TxIns t) 0) (TxIns t) (map script_sig (TxIns t)) []) as [[[ins field] params]|]; cbn [bind]; auto.
  change (@calculate_preimages D) with (calculate_preimages (CR:=CR)). destruct (calculate_preimages _ params); cbn [bind]; auto.
  rewrite dev_loop; auto. apply Forall_forall. intros [h p] _. apply A.
Qed.
End Sign.

(** ** The wallet with a device in the place of the secret *)
Section Wallet.
Context {CR : Crypto} {W Amt : Type} {WD : World W Amt} (sg : signer).
Definition device_of : Crypto := device CR (ec_sign (k_secret (sg_key sg))).
Notation D := device_of.
Notation sh := (shell_of sg).

Lemma dev_create us outs : @create_new_transaction D sh us outs = create_new_transaction sg us outs.
Proof.
  unfold create_new_transaction. change (@construct_outputs D) with (construct_outputs (CR:=CR)).
  destruct (construct_outputs outs); cbn [bind]; auto. destruct (mapM new_input us); cbn [bind]; auto. apply dev_sign. reflexivity.
Qed.
Lemma ibind_ext {S A B} (m : IO S A) (f g : A -> IO S B) s : (forall a s, f a s = g a s) -> ibind m f s = ibind m g s.
Proof. intros H. unfold ibind. destruct (m s) as [[a|] s']; auto. Qed.
Lemma ibind_cong {S A B} (m m' : IO S A) (f g : A -> IO S B) s : m s = m' s -> (forall a s, f a s = g a s) -> ibind m f s = ibind m' g s.
Proof. intros E H. unfold ibind. rewrite E. destruct (m' s) as [[a|] s']; auto. Qed.

Theorem C86_addresses : @sg_address D sh = sg_address sg /\ @sg_segwit_address D sh = sg_segwit_address sg /\ sg_version sh = sg_version sg.
Proof. destruct sg as [[v s p]|[[v s p] v' ps m r]]; repeat split; reflexivity. Qed.
Theorem C86_unspents s : @get_unspents D W Amt WD sh s = get_unspents sg s.
Proof. destruct sg as [[v k p]|[[v k p] v' ps m r]]; reflexivity. Qed.
Theorem C86_transactions s : @M_wallet.get_transactions D W Amt WD sh s = M_wallet.get_transactions sg s.
Proof. destruct sg as [[v k p]|[[v k p] v' ps m r]]; reflexivity. Qed.
Theorem C86_create outputs fee leftover unspents o s :
  @create_transaction D W Amt WD sh outputs fee leftover unspents o s = create_transaction sg outputs fee leftover unspents o s.
Proof.
  destruct C86_addresses as (Ea & Es & Ev). unfold create_transaction. rewrite Ea, Es, Ev.
  change (@sanitize_tx_data D W Amt WD) with (@sanitize_tx_data CR W Amt WD).
  apply ibind_cong.
  { destruct (nonempty unspents); [reflexivity|]. apply ibind_cong; [apply C86_unspents|reflexivity]. }
  intros [own us] s'. apply ibind_ext. intros ra s1. apply ibind_ext. intros fe s2. apply ibind_ext. intros [us' outs] s3. rewrite dev_create. reflexivity.
Qed.
Theorem C86_send outputs fee leftover unspents o s :
  @send D W Amt WD sh outputs fee leftover unspents o s = send sg outputs fee leftover unspents o s.
Proof.
  destruct C86_addresses as (_ & _ & Ev). unfold send. rewrite Ev. apply ibind_cong; [apply C86_create|reflexivity].
Qed.
Theorem C86_sign tx_data unspents s : @sign_transaction D W Amt WD sh tx_data unspents s = sign_transaction sg tx_data unspents s.
Proof.
  assert (SC : forall us0 s, (us <~ (match nonempty us0 with Some us => iret us | None => @get_unspents D W Amt WD sh end) ;;
      tx <~ ilift (match tx_data with Text s => deserialize_hex s | Json _ _ => Raise ValueError end) ;; ilift (@sign_tx D sh tx us)) s =
     (us <~ (match nonempty us0 with Some us => iret us | None => get_unspents sg end) ;;
      tx <~ ilift (match tx_data with Text s => deserialize_hex s | Json _ _ => Raise ValueError end) ;; ilift (sign_tx sg tx us)) s).
  { intros us0 s0. apply ibind_cong; [destruct (nonempty us0); [reflexivity|apply C86_unspents]|]. intros us s'.
    apply ibind_ext. intros tx s1. unfold ilift. f_equal. apply dev_sign. reflexivity. }
  unfold sign_transaction. destruct tx_data as [us outs|txt]; [destruct unspents as [us1|]|]; [apply SC| |apply SC].
  unfold itry, ilift at 1 3. rewrite dev_create. destruct (create_new_transaction sg _ _); auto. apply SC.
Qed.
End Wallet.

(** On the network and with the balance in a currency. *)
Theorem C86_balance {CR : Crypto} {E} {OU : Outside E} {CH : Chance E} rounds sg currency s :
  @key_get_balance (device_of sg) E OU CH rounds (shell_of sg) currency s = key_get_balance rounds sg currency s.
Proof. destruct sg as [[v k p]|[[v k p] v' ps m r]]; reflexivity. Qed.
Theorem C86_network {CR : Crypto} {E} {OU : Outside E} {CH : Chance E} rounds sg outputs fee leftover unspents o s :
  @send (device_of sg) _ _ (@network (device_of sg) E OU CH rounds) (shell_of sg) outputs fee leftover unspents o s =
  @send CR _ _ (network rounds) sg outputs fee leftover unspents o s.
Proof. apply C86_send. Qed.
Print Assumptions C86_asked.
Print Assumptions C86_addresses.
Print Assumptions C86_unspents.
Print Assumptions C86_transactions.
Print Assumptions C86_create.
Print Assumptions C86_send.
Print Assumptions C86_sign.
Print Assumptions C86_balance.
Print Assumptions C86_network.

(** A transaction with a legacy, a nested segwit and a foreign input: two hashes are
    signed, and a device that signs these two and no other is enough; one that signs
    neither is not. *)
Definition hashes_of {CR : Crypto} (sg : signer) (t : TxObj) (us : list Unspent) : result (list bytes) :=
  d <- build_dict sg us [] ;;
  p <- prepare_loop sg d (sign_inputs d (TxIns t) 0) (TxIns t) (map script_sig (TxIns t)) [] ;;
  calculate_preimages (mkTx (version t) (fst (fst p)) (TxOuts t) (locktime t)) (snd p).
Definition from_ok (r : result (list bytes)) : list bytes := match r with Ok l => l | _ => [] end.
Definition toy_asked : list bytes := from_ok (@hashes_of toy (Single toy_key) (toy_t [0]) toy_us).
Definition toy_signs (only : list bytes) (h : bytes) : bytes := if existsb (list_eqb h) only then toy_sign (repeat 7 32) h else [].
Definition by_device (only : list bytes) : result pystr := @sign_tx (device toy (toy_signs only)) (shell_of (Single toy_key)) (toy_t [0]) toy_us.
Definition same (a b : result pystr) : bool := match a, b with Ok x, Ok y => list_eqb x y | _, _ => false end.
Example C86_asked_case : length toy_asked = 2%nat /\ same (by_device toy_asked) (@sign_tx toy (Single toy_key) (toy_t [0]) toy_us) = true /\
  same (by_device []) (@sign_tx toy (Single toy_key) (toy_t [0]) toy_us) = false /\ same (by_device (firstn 1 toy_asked)) (@sign_tx toy (Single toy_key) (toy_t [0]) toy_us) = false.
Proof. do 3 (split; [vm_compute; reflexivity|]). vm_compute. reflexivity. Qed.
Example C86_asked_hypotheses : RepObj toy_x (toy_t [0]) /\ exists h, @sign_tx (device toy (toy_sign (repeat 7 32))) (shell_of (Single toy_key)) (toy_t [0]) toy_us = Ok h.
Proof.
  split; [apply toy_rep; auto|]. rewrite (@C86_asked toy (Single toy_key) (toy_sign (repeat 7 32)) toy_x); [|apply toy_rep; auto|reflexivity].
  apply toy_signed_ok. vm_compute. reflexivity.
Qed.
(** A whole payment. *)
Definition send_by_device := @send (@device_of toy (Single wkey)) _ _ toy_world (shell_of (Single wkey)) (wouts other_key) None None None (wopts true true) wallet0.
Lemma send_by_device_same : send_by_device = send_toy.
Proof. unfold send_by_device, send_toy. apply (@C86_send toy _ _ toy_world (Single wkey)). Qed.
Example C86_send_case : exists i s', send_by_device = (Ok i, s') /\ length i = 64%nat /\ length (wl_world s') = 1%nat.
Proof. rewrite send_by_device_same. exact C73_hypotheses. Qed.
