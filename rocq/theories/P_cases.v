(** Concrete cases for theorems that have none beside them: each case meets the
    hypotheses, and where it is short shows the result too. *)
From Coq Require Import String.
From Verif Require Import F_base F_tx F_sign F_cosign F_msstep F_cosigntx S_Script S_Fee F_select M_utils P_base58 P_tx P_sign P_multi P_select P_wallet P_outputs P_create P_consensus P_app
  M_wallet F_wallet X_toy X_world X_net S_History M_network M_app F_app.

(** C08: one payload and its text; a changed last character is refused. *)
Example C08_case : bytes_ok [0; 7; 255] = true /\
  (exists x, In x ([0; 7; 255] ++ firstn 4 (@sha256 toy (@sha256 toy [0; 7; 255]))) /\ x <> 0) /\
  @b58decode_check toy (@b58encode_check toy [0; 7; 255]) = Ok [0; 7; 255] /\
  @b58decode_check toy (removelast (@b58encode_check toy [0; 7; 255]) ++ str "z") = Raise ValueError.
Proof. split; [reflexivity|]. split; [exists 7; split; [right; left; reflexivity|discriminate]|]. split; vm_compute; reflexivity. Qed.

(** C25, C26: the transaction of C24 with one witness. *)
Example C25_case : exists v ins outs l, Rep ex_tx v ins outs l /\ ins <> [].
Proof.
  destruct (C24_wellformed_exist ex_tx ex_tx_wf) as (v & ins & outs & l & R). exists v, ins, outs, l. split; auto.
  intros ->. pose proof (F2_len _ _ _ (rp_ins _ _ _ _ _ R)) as Q. discriminate.
Qed.

(** C33: one signature is there (of the key 6), the next is added; with two of
    two no more. *)
Definition sig_of (b : Z) (h : bytes) : bytes := @ec_sign toy (k_secret (toy_k b)) h ++ [0x01].
Definition one_sig (h : bytes) : sigmap := sset (fun _ => None) (k_public_key (toy_k 6)) (sig_of 6 h).
Definition two_sigs (h : bytes) : sigmap := sset (one_sig h) (k_public_key (toy_k 5)) (sig_of 5 h).
Example C33_any_case h seg : exists f f' z z', @SigsGood toy toy_env h (one_sig h) /\ @Field toy_env seg (one_sig h) z f /\
  zlen (sigs_of (one_sig h) (e_pubs toy_env)) < e_m toy_env /\
  @SigsGood toy toy_env h (two_sigs h) /\ @Field toy_env seg (two_sigs h) z' f' /\
  e_m toy_env <= zlen (sigs_of (two_sigs h) (e_pubs toy_env)).
Proof.
  assert (G1 : @SigsGood toy toy_env h (one_sig h)).
  { apply (@SigsGood_set toy toy_env h (fun _ => None) (toy_k 6)); [apply toy_cosigner; auto|]. intros p g _ Q. discriminate. }
  assert (G2 : @SigsGood toy toy_env h (two_sigs h)) by (apply (@SigsGood_set toy toy_env h (one_sig h) (toy_k 5)); [apply toy_cosigner; auto|exact G1]).
  assert (PL : exists l, RedeemPush toy_env seg l).
  { destruct seg; cbn [RedeemPush]; [|eexists; vm_compute; reflexivity]. exists [zlen (e_redeem toy_env)]. vm_compute zlen. constructor. lia. }
  destruct PL as (l & PL).
  exists ((if seg then [5] else []) ++ body toy_env (one_sig h) 1 l), ((if seg then [4] else []) ++ body toy_env (two_sigs h) 0 l), 1%nat, 0%nat.
  split; [exact G1|]. split; [exists l, 5; split; [exact PL|reflexivity]|]. split; [reflexivity|]. split; [exact G2|].
  split; [exists l, 4; split; [exact PL|reflexivity]|]. vm_compute. discriminate.
Qed.

(** C35-C40: three coins.  Drawn at random, all of them, and with a fee of 500. *)
Lemma idle_shuffle : Shuffle (fun l => l).
Proof. intros l. apply Permutation_refl. Qed.
Example C35_case : Shuffle (fun l => l) /\
  select_coins (fun _ => true) (fun l => l) 20000 2 [34; 34] 546 false false ex_coins = Ok ([plain 50000 "p2pkh"], 50000 - 20000 - 2 * 226).
Proof. split; [exact idle_shuffle|exact draw_example]. Qed.
Example C37_case : select_coins (fun _ => true) (fun l => l) 20000 2 [34; 34] 546 false true ex_coins = Ok (ex_coins, 87000 - 20000 - 2 * 466).
Proof. vm_compute. reflexivity. Qed.
Example C38_case : select_coins (fun _ => true) (fun l => l) 20000 500 [34; 34] 546 true false ex_coins = Ok ([plain 50000 "p2pkh"], 29500).
Proof. vm_compute. reflexivity. Qed.
Example C39_case : FeeFor false 2 [34; 34] ex_coins 932 /\ 20000 + 932 + 546 <= amounts ex_coins /\ amounts ex_coins < 86000 + 932 + 546 /\
  select_coins (fun _ => true) (fun l => l) 86000 2 [34; 34] 546 false true ex_coins = Raise InsufficientFunds.
Proof.
  split; [change 932 with (coin_fee false 2 [34; 34] ex_coins); apply coin_fee_For; reflexivity|]. split; [vm_compute; discriminate|].
  split; [vm_compute; reflexivity|]. vm_compute. reflexivity.
Qed.
(** The match has no change: what is left is less than the least change. *)
Example C40_case : exists sel, select_coins (fun _ => true) (fun l => l) 79000 2 [34; 34] 546 false false ex_coins = Ok (sel, 0) /\
  ~ (exists f, FeeFor false 2 [34; 34] sel f /\ amounts sel = 79000 + f + 0 /\ 546 <= 0).
Proof. eexists. split; [exact match_example|]. intros (f & _ & _ & Q). lia. Qed.

(** C46: a message of 75 letters can be read back from the chain, one of 76 not. *)
Example C46_case : MsgBytes (MText (repeat 97 75)) false (repeat 97 75) /\ MsgBytes (MBytes (repeat 7 76)) true (repeat 7 76) /\
  (exists msgs txouts, message_outputs (Some (MText (repeat 97 75))) false = Ok msgs /\ @construct_outputs toy msgs = Ok txouts /\ length txouts = 1%nat) /\
  (exists msgs txouts, message_outputs (Some (MBytes (repeat 7 81))) true = Ok msgs /\ @construct_outputs toy msgs = Ok txouts /\ length txouts = 2%nat).
Proof.
  split; [split; [reflexivity|]|].
  - generalize 75%nat as m. induction m as [|n IH]; [constructor|]. exact (S_Utf8.utf8_cons 97 (repeat 97 n) [97] (repeat 97 n) ltac:(constructor; lia) IH).
  - split; [split; reflexivity|]. split; do 2 eexists; (split; [vm_compute; reflexivity|]); (split; [vm_compute; reflexivity|]); reflexivity.
Qed.
(** C47: an address, and a list of outputs of both kinds. *)
Example C47_case : (exists script, @address_to_scriptpubkey toy (addr_of wkey) = Ok (Some script) /\ zlen script = 25) /\
  (exists txouts, @construct_outputs toy [(Addr (addr_of wkey), 5000); (Data [104; 105], 0)] = Ok txouts /\ length txouts = 2%nat) /\
  @construct_outputs toy [(Addr (addr_of wkey), 0)] = Raise TypeError.
Proof. split; [eexists; split; [vm_compute; reflexivity|reflexivity]|]. split; [eexists; split; [vm_compute; reflexivity|reflexivity]|]. vm_compute. reflexivity. Qed.

(** C48: with and without the option; the coins of the wallet do not signal. *)
Example C48_case : (match sanitize_toy other_key true true with (Ok (sel, _), _) => map u_sequence sel | _ => [] end) = repeat 0xfffffffd 3 /\
  (match sanitize_toy other_key true false with (Ok (sel, _), _) => map u_sequence sel | _ => [] end) = map u_sequence wcoins /\
  map u_sequence wcoins = repeat 0xffffffff 3.
Proof. split; [vm_compute; reflexivity|]. split; vm_compute; reflexivity. Qed.

(** C61: the main network asks the node, the test network the public services. *)
Example C61_case : let ops := [Connect (str "u") (str "p") (str "h") 8332 false false []; @Balance Town Test (str "a")] in
  connected Main ops = Some (str "http://u:p@h:8332/") /\ connected Test ops = None.
Proof. split; vm_compute; reflexivity. Qed.

(** C76: the send of C75_send_hypotheses, which succeeds, is such a method, and
    the state it leaves is reached. *)
Definition town_method := @send toy _ _ (@network toy Town town town_chance 5) (Single wkey) town_outs (Some 2) None None (wopts true true).
Example C76_case : @Method toy Town town town_chance 5 _ town_method /\
  @Reached toy Town town town_chance 5 0 0 (0, []) [] (wl_world (snd (town_method town_wallet))).
Proof.
  destruct C75_send_hypotheses as (R & _).
  assert (M : @Method toy Town town town_chance 5 _ town_method) by (exists (sg_version (Single wkey)); unfold town_method; constructor).
  split; [exact M|]. exact (R_method 5 0 0 (0, []) [] _ _ _ M R).
Qed.

Local Opaque create_transaction get_unspents.
(** C80: the transaction of C79_single_case is one that was asked for. *)
Example C80_case : exists us s1 h s' sel f w x, toy_fetched = (Ok us, s1) /\ create_toy true = (Ok h, s') /\
  @Asked toy _ _ toy_world (Single wkey) (wouts other_key) f None (wopts true true) us sel w h x /\ Distinct us /\ Forall (Describes (ledger_of toy_us1)) us.
Proof.
  destruct C50_single_hypotheses as (K & M & (h & s' & E) & us & s1 & F & Lu & T & D & SC & _).
  destruct C79_single_hypotheses as (us' & s1' & F' & _ & DE & _). rewrite F in F'. injection F' as <- <-.
  destruct (@C50_create_single toy toy_ok _ _ toy_world toy_random_ok wkey (wouts other_key) None None None (wopts true true) wallet0 h s' us s1 K M E F T D SC)
    as (x & sel & f & w & _ & Ak & _).
  exists us, s1, h, s', sel, f, w, x. auto.
Qed.

Local Transparent create_transaction get_unspents.
(** C81: all three coins are combined, and what remains is the change. *)
Example C81_change_case : o_combine (wopts true true) = true /\
  (exists sel outs us w, sanitize_toy other_key true true = (Ok (sel, outs), (us, w)) /\ length sel = 3%nat /\ length outs = 4%nat) /\
  FeeFor false 2 [34; 32; 89; 32] wcoins (coin_fee false 2 [34; 32; 89; 32] wcoins) /\
  amounts wcoins = total [25000; 1000] + coin_fee false 2 [34; 32; 89; 32] wcoins + 62830.
Proof.
  split; [reflexivity|]. destruct C44_hypotheses as (_ & H & _). split; [exact H|]. split; [apply coin_fee_For; reflexivity|]. vm_compute. reflexivity.
Qed.
