(** C44-C49: what sanitize_tx_data and construct_outputs do. *)
From Coq Require Import String Permutation.
From Verif Require Import F_wallet F_utf8 S_Utf8 S_Script P_select P_outputs X_world.

(** The module random permutes when it shuffles. *)
Definition RandomOk {W Amt} (WD : World W Amt) : Prop :=
  forall w rnd w', w_random w = (Ok rnd, w') -> Shuffle (r_shuffle rnd).

(** The script of an address plus 9 bytes for the amount and the length. *)
Definition OutputSize {CR : Crypto} (a : pystr) (s : Z) : Prop :=
  exists script, address_to_scriptpubkey a = Ok (Some script) /\ s = Z.of_nat (length script) + 9.
(** Sizes the code reckons with: one per payment, one for the messages, one for change. *)
Definition OutputSizes {CR : Crypto} (pay : list pystr) (messages : nat) (back : pystr) (sizes : list Z) : Prop :=
  exists l c, Forall2 OutputSize pay l /\ OutputSize back c /\ sizes = l ++ [89 * Z.of_nat messages; c].

Lemma rbf_same (u : Unspent) : u_amount (opt_in_for_RBF u) = u_amount u /\ u_vsize (opt_in_for_RBF u) = u_vsize u /\
  u_is_segwit (opt_in_for_RBF u) = u_is_segwit u.
Proof. unfold opt_in_for_RBF. destruct (_ >? _); auto. Qed.
Lemma rbf_maps l : map u_amount (map opt_in_for_RBF l) = map u_amount l /\ map u_vsize (map opt_in_for_RBF l) = map u_vsize l /\
  existsb u_is_segwit (map opt_in_for_RBF l) = existsb u_is_segwit l.
Proof. induction l as [|u l (A & B & C)]; cbn; auto. destruct (rbf_same u) as (-> & -> & ->). rewrite A, B, C. auto. Qed.

Section WithWorld.
Context {CR : Crypto} {W Amt : Type} {WD : World W Amt}.

(** ** C44 *)
Theorem C44_outputs us w outs fee leftover min_change v o sel outs' us' w' :
  sanitize_tx_data outs fee leftover min_change v o (us, w) = (Ok (sel, outs'), (us', w')) ->
  exists sats w1 change msgs back,
    Converted w outs sats w1 /\ leftover = Some back /\
    outs' = combine (map Addr (dests outs)) sats ++ change ++ msgs /\
    length sats = length outs /\
    (change = [] \/ exists n, 0 < n /\ change = [(Addr back, n)]) /\
    (match o_message o with
     | None => msgs = []
     | Some m => forall b, MsgBytes m (o_message_is_hex o) b ->
         exists chunks, msgs = map (fun c => (Data c, 0)) chunks /\ Chunks b chunks
     end) /\
    message_outputs (o_message o) (o_message_is_hex o) = Ok msgs.
Proof.
  intros E. destruct (sanitize_ok _ _ _ _ _ _ _ _ _ _ _ _ E) as (sats & w1 & msgs & sizes & back & script & rnd & sel0 & rem &
    C & L & NE & Em & Fs & -> & Eb & Er & Es & -> & -> & Fv & ->).
  exists sats, w1, (if rem >? 0 then [(Addr back, rem)] else []), msgs, back. split; auto. split; auto. split; [|split; auto; split; [|split; auto]].
  - rewrite map_app. rewrite <- app_assoc. f_equal.
    + generalize (dests outs). clear. induction sats; intros [|d l]; cbn; auto. f_equal. auto.
    + destruct (rem >? 0); reflexivity.
  - destruct (Z.gtb_spec rem 0); [right; exists rem; split; auto; lia|auto].
  - destruct (o_message o) as [m|]; [|injection Em as <-; reflexivity]. intros b M.
    destruct (C46_payloads m _ b M) as (chunks & Em' & Cc). rewrite Em in Em'. injection Em' as ->. eauto.
Qed.

(** Inputs equal outputs plus fee, and the fee is the one asked for: the given
    amount if absolute, else the rate times the estimated size; or, unless all
    coins are combined, a changeless match (bounds in S_Fee.v). *)
Theorem C44_books (RO : RandomOk WD) us w outs fee leftover min_change v o sel outs' us' w' :
  0 <= min_change ->
  sanitize_tx_data outs fee leftover min_change v o (us, w) = (Ok (sel, outs'), (us', w')) ->
  exists sats w1 msgs back sizes,
    Converted w outs sats w1 /\ leftover = Some back /\ message_outputs (o_message o) (o_message_is_hex o) = Ok msgs /\
    OutputSizes (dests outs) (length msgs) back sizes /\
    let paid := amounts sel - total (map snd outs') in
    (FeeFor (o_absolute_fee o) fee sizes sel paid \/
     (o_absolute_fee o = false /\ o_combine o = false /\ total (map snd outs') = total sats /\
      Changeless (total sats) fee sizes (map coin sel))).
Proof.
  intros Hm E. destruct (sanitize_ok _ _ _ _ _ _ _ _ _ _ _ _ E) as (sats & w1 & msgs & sizes & back & script & rnd & sel0 & rem &
    C & L & NE & Em & Fs & -> & Eb & Er & Es & -> & -> & Fv & ->).
  exists sats, w1, msgs, back. eexists. split; [exact C|]. split; [reflexivity|]. split; [exact Em|].
  assert (SZ : OutputSizes (dests outs) (length msgs) back (sizes ++ [zlen msgs * 89; zlen script + 9])).
  { exists sizes, (zlen script + 9). split; [exact Fs|]. split; [exists script; auto|]. unfold zlen. do 2 f_equal. lia. }
  split; [exact SZ|]. cbv zeta.
  assert (Z0 : total (map snd msgs) = 0).
  { unfold message_outputs in Em. destruct (o_message o) as [m|]; [|injection Em as <-; reflexivity].
    destruct (msg_empty m); [injection Em as <-; reflexivity|]. apply bind_ok in Em as (ch & _ & Em). injection Em as <-.
    clear. induction ch; cbn; auto. }
  assert (TP : forall l, total (map snd (map (fun '(a, n) => (Addr a, n)) l)) = total (map snd l)).
  { clear. induction l as [|(a & n) l IH]; cbn; auto. rewrite IH. auto. }
  assert (T : total (map snd (map (fun '(a, n) => (Addr a, n))
      (combine (dests outs) sats ++ (if rem >? 0 then [(back, rem)] else [])) ++ msgs)) = total sats + (if rem >? 0 then rem else 0)).
  { rewrite map_app, total_app, Z0, TP, map_app, total_app. assert (map snd (combine (dests outs) sats) = sats) as ->.
    { assert (length (dests outs) = length sats) as Hl by (unfold dests; rewrite map_length; auto). clear -Hl. revert sats Hl.
      induction (dests outs); intros [|n sats] H; try discriminate; cbn; auto. injection H as H. rewrite (IHl sats H). auto. }
    destruct (rem >? 0); cbn; lia. }
  rewrite T. set (sel := if o_replace_by_fee o then _ else _).
  assert (HA : amounts sel = amounts sel0 /\ map u_vsize sel = map u_vsize sel0 /\ existsb u_is_segwit sel = existsb u_is_segwit sel0 /\ map coin sel = map coin sel0).
  { unfold sel, amounts. destruct (o_replace_by_fee o); auto. destruct (rbf_maps sel0) as (-> & -> & ->). repeat (split; auto).
    rewrite map_map. apply map_ext. intros u. unfold coin. destruct (rbf_same u) as (-> & -> & _). auto. }
  destruct HA as (HA1 & HA2 & HA3 & HA4). rewrite zsum_total in Es.
  destruct (C35_books _ _ _ _ _ _ _ _ _ _ _ (RO _ _ _ Er) Es) as [(-> & A & B & Ch)|(f & F & Am & Mc)].
  - right. split; auto. split; auto. split; [cbn; lia|]. rewrite HA4. exact Ch.
  - left. replace (amounts sel - _) with f by (rewrite HA1; destruct (Z.gtb_spec rem 0); lia).
    destruct F as (s & F & Ef). exists s. rewrite HA2, HA3. auto.
Qed.

(** The inputs are coins of the caller; all of them when combining. *)
Theorem C44_inputs (RO : RandomOk WD) us w outs fee leftover min_change v o sel outs' us' w' :
  sanitize_tx_data outs fee leftover min_change v o (us, w) = (Ok (sel, outs'), (us', w')) ->
  exists taken unused, Permutation (taken ++ unused) us /\ taken <> [] /\ (o_combine o = true -> taken = us) /\
    sel = if o_replace_by_fee o then map opt_in_for_RBF taken else taken.
Proof.
  intros E. destruct (sanitize_ok _ _ _ _ _ _ _ _ _ _ _ _ E) as (sats & w1 & msgs & sizes & back & script & rnd & sel0 & rem &
    C & L & NE & Em & Fs & -> & Eb & Er & Es & -> & -> & Fv & ->).
  destruct (C36_submultiset _ _ _ _ _ _ _ _ _ _ _ (RO _ _ _ Er) Es) as (N & u & P). exists sel0, u. split; auto. split; auto. split; auto.
  intros Ec. rewrite Ec in Es. eapply C37_consolidate_all; eauto.
Qed.

(** It does succeed: with readable addresses of the right network, an encodable
    message and coins that cover the payments, the change minimum and the fee
    for spending all of them. *)
Theorem C44_succeeds (RO : RandomOk WD) us w outs fee back min_change v o sats w1 rnd w2 msgs sizes f :
  us <> [] -> Converted w outs sats w1 -> w_random w1 = (Ok rnd, w2) ->
  message_outputs (o_message o) (o_message_is_hex o) = Ok msgs ->
  OutputSizes (dests outs) (length msgs) back sizes ->
  Forall (fun a => get_version a = Ok v) (back :: dests outs) ->
  FeeFor (o_absolute_fee o) fee sizes us f -> total sats + f + min_change <= amounts us ->
  exists sel outs', sanitize_tx_data outs fee (Some back) min_change v o (us, w) = (Ok (sel, outs'), (sel, w2)).
Proof.
  intros NE C Er Em (sz & c & Fs & (script & Eb & ->) & ->) Fv HF Suf.
  destruct (C39_sufficient_not_refused (r_bits rnd) (r_shuffle rnd) (total sats) fee _
    min_change (o_absolute_fee o) (o_combine o) us f (RO _ _ _ Er) NE HF Suf) as (sel & rem & Es).
  pose proof (sanitize_run us w outs fee back min_change v o sats w1 rnd w2 msgs sz script sel rem NE C Er Em Fs Eb Es) as R.
  cbv zeta in R. rewrite R. clear R. apply Forall_cons_iff in Fv as [Fb Fv].
  destruct (dests_combine outs sats (Converted_length _ _ _ _ C)) as [Lf Ls].
  assert (check_version v (combine (dests outs) sats ++ (if rem >? 0 then [(back, rem)] else [])) = Ok tt) as ->.
  { apply check_version_ok. apply Forall_app. split.
    - rewrite <- Lf in Fv. apply Forall_map in Fv. exact Fv.
    - destruct (rem >? 0); repeat constructor. exact Fb. }
  cbn [bind]. eauto.
Qed.

(** ** C45: what is sent goes to addresses of the requested network.
    (get_version is characterised by C22.)  The message outputs follow. *)
Theorem C45_same_network us w outs fee leftover min_change v o sel outs' us' w' :
  sanitize_tx_data outs fee leftover min_change v o (us, w) = (Ok (sel, outs'), (us', w')) ->
  exists pay msgs, outs' = pay ++ msgs /\ message_outputs (o_message o) (o_message_is_hex o) = Ok msgs /\
    Forall (fun p => exists a, fst p = Addr a /\ get_version a = Ok v) pay /\
    (forall a, In a (dests outs) -> get_version a = Ok v).
Proof.
  intros E. destruct (sanitize_ok _ _ _ _ _ _ _ _ _ _ _ _ E) as (sats & w1 & msgs & sizes & back & script & rnd & sel0 & rem &
    C & L & NE & Em & Fs & -> & Eb & Er & Es & -> & -> & Fv & ->).
  eexists. exists msgs. split; [reflexivity|]. split; auto. split.
  - apply Forall_map. eapply Forall_impl; [|exact Fv]. intros (a & n) G. exists a. auto.
  - intros a Ha. apply Forall_app in Fv as [Fv _]. rewrite Forall_forall in Fv.
    assert (Hl : length (dests outs) = length sats) by (unfold dests; rewrite map_length; auto).
    apply In_nth_error in Ha as (j & Ha). assert (j < length sats)%nat by (rewrite <- Hl; apply nth_error_Some; congruence).
    destruct (nth_error sats j) as [n|] eqn:En; [|apply nth_error_None in En; lia].
    apply (Fv (a, n)). clear -Ha En. revert j sats Ha En. induction (dests outs); intros [|j] [|s sats] Ha En; try discriminate; cbn in *.
    + injection Ha as ->. injection En as ->. auto.
    + right. eauto.
Qed.
(** A foreign change address is refused too if change is due. *)
Theorem C45_change_same_network us w outs fee leftover min_change v o sel outs' us' w' a n :
  sanitize_tx_data outs fee leftover min_change v o (us, w) = (Ok (sel, outs'), (us', w')) ->
  In (Addr a, n) outs' -> n <> 0 -> get_version a = Ok v.
Proof.
  intros E Hin Hn. destruct (C45_same_network _ _ _ _ _ _ _ _ _ _ _ _ E) as (pay & msgs & -> & Em & F & _).
  apply in_app_or in Hin as [Hin|Hin].
  - rewrite Forall_forall in F. destruct (F _ Hin) as (a' & E1 & E2). cbn in E1. injection E1 as <-. auto.
  - exfalso. unfold message_outputs in Em. destruct (o_message o) as [m|]; [|injection Em as <-; destruct Hin].
    destruct (msg_empty m); [injection Em as <-; destruct Hin|]. apply bind_ok in Em as (ch & _ & Em). injection Em as <-.
    apply in_map_iff in Hin as (c & E1 & _). congruence.
Qed.

(** ** C48 *)
Theorem C48_signalled us w outs fee leftover min_change v o sel outs' us' w' :
  sanitize_tx_data outs fee leftover min_change v o (us, w) = (Ok (sel, outs'), (us', w')) -> o_replace_by_fee o = true ->
  exists sel0, Forall2 (fun u u' => u_sequence u' = Z.min (u_sequence u) 0xfffffffd /\ u_sequence u' <= 0xfffffffd /\
     (u_sequence u <= 0xfffffffd -> u' = u) /\
     (u_amount u', u_txid u', u_txindex u', u_script u', u_segwit u') = (u_amount u, u_txid u, u_txindex u, u_script u, u_segwit u)) sel0 sel /\
    forall (RO : RandomOk WD), exists unused, Permutation (sel0 ++ unused) us.
Proof.
  intros E R. destruct (sanitize_ok _ _ _ _ _ _ _ _ _ _ _ _ E) as (sats & w1 & msgs & sizes & back & script & rnd & sel0 & rem &
    C & L & NE & Em & Fs & -> & Eb & Er & Es & -> & -> & Fv & ->). rewrite R. exists sel0. split.
  - clear. induction sel0 as [|u l IH]; cbn; constructor; auto. unfold opt_in_for_RBF. destruct (Z.gtb_spec (u_sequence u) 4294967293); cbn.
    + repeat split; lia.
    + repeat split; auto; lia.
  - intros RO. destruct (C36_submultiset _ _ _ _ _ _ _ _ _ _ _ (RO _ _ _ Er) Es) as (N & P). auto.
Qed.
Theorem C48_not_signalled (RO : RandomOk WD) us w outs fee leftover min_change v o sel outs' us' w' :
  sanitize_tx_data outs fee leftover min_change v o (us, w) = (Ok (sel, outs'), (us', w')) -> o_replace_by_fee o = false ->
  exists unused, Permutation (sel ++ unused) us.
Proof.
  intros E R. destruct (C44_inputs RO _ _ _ _ _ _ _ _ _ _ _ _ E) as (t & u & P & _ & _ & ->). rewrite R. eauto.
Qed.

(** ** C49: the caller's list of unspents, whatever happens. *)
Theorem C49_caller_list us w outs fee leftover min_change v o r us' w' :
  sanitize_tx_data outs fee leftover min_change v o (us, w) = (r, (us', w')) ->
  (us' = us /\ exists e, r = Raise e) \/
  (exists sats w1 sizes rnd taken rem, Converted w outs sats w1 /\ w_random w1 = (Ok rnd, w') /\
     select_coins (r_bits rnd) (r_shuffle rnd) (total sats) fee sizes min_change (o_absolute_fee o) (o_combine o) us = Ok (taken, rem) /\
     us' = (if o_replace_by_fee o then map opt_in_for_RBF taken else taken) /\
     (forall sel outs', r = Ok (sel, outs') -> us' = sel)).
Proof.
  intros E. destruct (sanitize_state _ _ _ _ _ _ _ _ _ _ _ E) as [L|(sats & w1 & sizes & rnd & sel0 & rem & C & Er & Es & ->)]; auto.
  right. exists sats, w1, sizes, rnd, sel0, rem. rewrite zsum_total in Es. split; auto. split; auto. split; auto. split; auto.
  intros sel outs' ->. destruct (sanitize_ok _ _ _ _ _ _ _ _ _ _ _ _ E) as (sats' & w1' & msgs & sizes' & back & script & rnd' & sel0' & rem' &
    _ & _ & _ & _ & _ & _ & _ & _ & _ & _ & Q & _). auto.
Qed.
(** In particular when a payment or the change goes to the wrong network:
    the call raises ValueError, but the list has been overwritten. *)
Theorem C49_overwritten_on_error us w outs fee back min_change v v' o sats w1 msgs sizes rnd w2 taken rem bad :
  us <> [] -> Converted w outs sats w1 -> w_random w1 = (Ok rnd, w2) ->
  message_outputs (o_message o) (o_message_is_hex o) = Ok msgs ->
  OutputSizes (dests outs) (length msgs) back sizes ->
  In bad (dests outs) -> get_version bad = Ok v' -> v' <> v -> (forall a, In a (dests outs) -> exists n, get_version a = Ok n) ->
  select_coins (r_bits rnd) (r_shuffle rnd) (total sats) fee sizes min_change (o_absolute_fee o) (o_combine o) us = Ok (taken, rem) ->
  sanitize_tx_data outs fee (Some back) min_change v o (us, w)
    = (Raise ValueError, (if o_replace_by_fee o then map opt_in_for_RBF taken else taken, w2)).
Proof.
  intros NE C Er Em (sz & c & Fs & (script & Eb & ->) & ->) Hb Gb Nv Ga Es.
  pose proof (sanitize_run us w outs fee back min_change v o sats w1 rnd w2 msgs sz script taken rem NE C Er Em Fs Eb Es) as R.
  cbv zeta in R. rewrite R. clear R.
  destruct (dests_combine outs sats (Converted_length _ _ _ _ C)) as [Lf Ls].
  assert (CV : forall l t, In bad (map fst l) -> (forall a, In a (map fst l) -> exists n, get_version a = Ok n) ->
     check_version v (l ++ t) = Raise ValueError).
  { clear -Gb Nv. induction l as [|(a & n) l IH]; intros t Hb Ga; [destruct Hb|]. cbn [app check_version].
    destruct (Ga a (or_introl eq_refl)) as (m & G). rewrite G. cbn [bind]. destruct (net_eqb m v) eqn:En; auto.
    apply IH; [|intros; apply Ga; right; auto]. destruct Hb as [Hb|Hb]; auto. cbn in Hb. subst a. rewrite Gb in G. injection G as <-.
    destruct v, v'; try discriminate; contradiction. }
  rewrite CV; [reflexivity|rewrite Lf; auto|rewrite Lf; auto].
Qed.
End WithWorld.
Print Assumptions C44_outputs.
Print Assumptions C44_books.
Print Assumptions C44_inputs.
Print Assumptions C44_succeeds.
Print Assumptions C45_same_network.
Print Assumptions C45_change_same_network.
Print Assumptions C48_signalled.
Print Assumptions C48_not_signalled.
Print Assumptions C49_caller_list.
Print Assumptions C49_overwritten_on_error.

(** ** The hypotheses are met (see X_world.v). *)
Lemma toy_random_ok : RandomOk toy_world.
Proof. intros w rnd w' E. injection E as <- <-. intros l. cbn [r_shuffle]. symmetry. apply Permutation_rev. Qed.
Definition wouts (k : PrivateKey) : list (pystr * Z * pystr) :=
  [(addr_of k, 25000, str "satoshi"); (segwit_addr_of k, 1000, str "satoshi")].
Definition wopts (combine rbf : bool) : Options := mkOptions combine (Some (MText (str "hello"))) false false rbf.
Definition wcoins : list Unspent := legacy_coins ++ segwit_coins.
Definition sanitize_toy (k : PrivateKey) (combine rbf : bool) :=
  @sanitize_tx_data toy (list pystr) Z toy_world (wouts k) 2 (Some (segwit_addr_of wkey)) 0 Main (wopts combine rbf) (wcoins, []).
Lemma sanitize_toy_ok combine rbf n m : (match sanitize_toy other_key combine rbf with
    | (Ok (sel, outs), _) => (length sel =? n)%nat && (length outs =? m)%nat | _ => false end) = true ->
  exists sel outs us w, sanitize_toy other_key combine rbf = (Ok (sel, outs), (us, w)) /\ length sel = n /\ length outs = m.
Proof.
  generalize (sanitize_toy other_key combine rbf) as r. intros ([(sel & outs)|] & (us & w)) E; [|discriminate].
  apply andb_true_iff in E as [E1 E2]. apply Nat.eqb_eq in E1, E2. do 4 eexists. eauto.
Qed.
(** Two payments, change and a message, paid with one or two or all three coins. *)
Example C44_hypotheses : RandomOk toy_world /\
  (exists sel outs us w, sanitize_toy other_key true true = (Ok (sel, outs), (us, w)) /\ length sel = 3%nat /\ length outs = 4%nat) /\
  (exists sel outs us w, sanitize_toy other_key false false = (Ok (sel, outs), (us, w)) /\ length sel = 1%nat /\ length outs = 4%nat).
Proof. split; [apply toy_random_ok|]. split; apply sanitize_toy_ok; vm_compute; reflexivity. Qed.

Lemma toy_sizes : @OutputSizes toy (dests (wouts other_key)) 1 (segwit_addr_of wkey) [34; 32; 89; 32].
Proof.
  assert (G : forall a s, match @address_to_scriptpubkey toy a with Ok (Some sc) => Z.of_nat (length sc) + 9 =? s | _ => false end = true -> @OutputSize toy a s).
  { intros a s. unfold OutputSize. generalize (@address_to_scriptpubkey toy a). intros [[sc|]|] E; try discriminate. exists sc. split; auto. lia. }
  exists [34; 32], 32. split; [|split; [|reflexivity]].
  - constructor; [apply G; vm_compute; reflexivity|]. constructor; [apply G; vm_compute; reflexivity|constructor].
  - apply G; vm_compute; reflexivity.
Qed.
Lemma toy_converted k w : @Converted (list pystr) Z toy_world w (wouts k) [25000; 1000] w.
Proof. econstructor; [reflexivity|]. econstructor; [reflexivity|]. constructor. Qed.
Example C44_succeeds_hypotheses : @Converted _ _ toy_world [] (wouts other_key) [25000; 1000] [] /\
  (exists rnd w2, @w_random _ _ toy_world [] = (Ok rnd, w2)) /\
  (exists msgs, message_outputs (o_message (wopts false false)) (o_message_is_hex (wopts false false)) = Ok msgs /\ length msgs = 1%nat) /\
  @OutputSizes toy (dests (wouts other_key)) 1 (segwit_addr_of wkey) [34; 32; 89; 32] /\
  Forall (fun a => @get_version toy a = Ok Main) (segwit_addr_of wkey :: dests (wouts other_key)) /\
  (exists f, FeeFor false 2 [34; 32; 89; 32] wcoins f /\ total [25000; 1000] + f + 0 <= amounts wcoins).
Proof.
  split; [apply toy_converted|]. split; [do 2 eexists; reflexivity|]. split; [eexists; split; [vm_compute; reflexivity|reflexivity]|].
  split; [apply toy_sizes|]. split.
  - constructor; [vm_compute; reflexivity|]. constructor; [vm_compute; reflexivity|]. constructor; [vm_compute; reflexivity|constructor].
  - eexists. split; [apply coin_fee_For; reflexivity|]. vm_compute. discriminate.
Qed.
(** Payments on the test network: refused, after the three coins were replaced by one. *)
Example C45_refused : fst (sanitize_toy test_key false false) = Raise ValueError /\
  length (fst (snd (sanitize_toy test_key false false))) = 1%nat.
Proof. split; vm_compute; reflexivity. Qed.
Example C49_hypotheses : exists rnd taken rem,
  @Converted _ _ toy_world [] (wouts test_key) [25000; 1000] [] /\ @w_random _ _ toy_world [] = (Ok rnd, []) /\
  @OutputSizes toy (dests (wouts test_key)) 1 (segwit_addr_of wkey) [34; 32; 89; 32] /\
  (forall a, In a (dests (wouts test_key)) -> @get_version toy a = Ok Test) /\
  select_coins (r_bits rnd) (r_shuffle rnd) (total [25000; 1000]) 2 [34; 32; 89; 32] 0 false false wcoins = Ok (taken, rem) /\
  taken <> wcoins.
Proof.
  do 3 eexists. split; [apply toy_converted|]. split; [reflexivity|]. split.
  { assert (G : forall a s, match @address_to_scriptpubkey toy a with Ok (Some sc) => Z.of_nat (length sc) + 9 =? s | _ => false end = true -> @OutputSize toy a s).
    { intros a s. unfold OutputSize. generalize (@address_to_scriptpubkey toy a). intros [[sc|]|] E; try discriminate. exists sc. split; auto. lia. }
    exists [34; 32], 32. split; [|split; [|reflexivity]].
    - constructor; [apply G; vm_compute; reflexivity|]. constructor; [apply G; vm_compute; reflexivity|constructor].
    - apply G; vm_compute; reflexivity. }
  split; [intros a [<- | [<- | []]]; vm_compute; reflexivity|]. split; [vm_compute; reflexivity|]. vm_compute. discriminate.
Qed.

