(** C111: what the errors of create_transaction mean. *)
From Coq Require Import String Permutation.
From Verif Require Import F_address F_base58 F_select F_signtx F_wallet F_utf8 F_spend F_cosigntx F_build F_redeem F_wire P_outputs P_select P_sign P_multi P_wallet P_create P_send P_size.
From Verif Require Import S_Consensus P_consensus P_live P_utils P_again X_world.

Section WithCrypto.
Context {CR : Crypto} (HO : HashOk CR) {W Amt : Type} {WD : World W Amt}.

Lemma script_exn a : match address_to_scriptpubkey a with Ok _ => True | Raise e => e = ValueError \/ e = TypeError end.
Proof.
  unfold address_to_scriptpubkey, address_to_public_key_hash. destruct (get_version_exn a) as [(n & ->)| ->]; cbn [bind]; auto.
  destruct (b58decode_check_exn a) as [(p & ->)| ->]; cbn [bind].
  - destruct (_ || _); auto. destruct (_ || _); auto.
  - unfold segwit_scriptpubkey. destruct (segwit_decode a) as [[v p]|]; cbn [rmap]; auto. destruct (bytes_ok _); cbn; auto.
Qed.
Definition NoScript (a : pystr) : Prop := forall script, address_to_scriptpubkey a <> Ok (Some script).
Lemma size_exn a e : output_size_of (Some a) = Raise e -> NoScript a /\ (e = ValueError \/ e = TypeError).
Proof.
  unfold output_size_of, some_script, NoScript. pose proof (script_exn a) as X. destruct (address_to_scriptpubkey a) as [[s|]|x]; cbn [bind].
  - discriminate.
  - intros [= <-]. split; auto. discriminate.
  - intros [= <-]. split; auto. discriminate.
Qed.
Lemma sizes_exn (l : list (pystr * Z)) e : mapM (fun '(a, _) => output_size_of (Some a)) l = Raise e ->
  exists a, In a (map fst l) /\ NoScript a /\ (e = ValueError \/ e = TypeError).
Proof.
  induction l as [|(a & n) l IH]; cbn [mapM]; [discriminate|]. destruct (output_size_of (Some a)) as [s|x] eqn:E; cbn [bind].
  - destruct (mapM _ l) as [r|x]; cbn [bind]; [discriminate|]. intros [= <-]. destruct (IH eq_refl) as (b & I & H). exists b. cbn. auto.
  - intros [= <-]. exists a. split; [left; reflexivity|]. apply size_exn. exact E.
Qed.
Lemma check_exn v l e : check_version v l = Raise e -> e = ValueError /\ exists p, In p l /\ get_version (fst p) <> Ok v.
Proof.
  induction l as [|(a & n) l IH]; cbn [check_version]; [discriminate|]. destruct (get_version_exn a) as [(m & G)|G]; rewrite G; cbn [bind].
  - destruct (net_eqb m v) eqn:N; [intros H; destruct (IH H) as (Q & p & I & Hp); split; auto; exists p; split; auto; right; auto|].
    intros [= <-]. split; auto. exists (a, n). split; [left; auto|]. cbn [fst]. rewrite G. intros [= ->]. destruct v; discriminate.
  - intros [= <-]. split; auto. exists (a, n). split; [left; auto|]. cbn [fst]. rewrite G. discriminate.
Qed.

(** The first amount that cannot be converted *)
Definition CannotConvert (w : W) (outputs : list (pystr * Amt * pystr)) (e : exc) : Prop :=
  exists pre a amount currency post sats w1 w2, outputs = pre ++ (a, amount, currency) :: post /\ Converted w pre sats w1 /\ w_convert amount currency w1 = (Raise e, w2).
Lemma loop_exn (outs : list (pystr * Amt * pystr)) : forall (us : list Unspent) w e st,
  imapM (fun '(a, amount, currency) =>
           ibind (zoom snd (fun w (s : list Unspent * W) => (fst s, w)) (w_convert amount currency)) (fun sat => iret (a, sat))) outs (us, w)
    = (Raise e, st) -> CannotConvert w outs e.
Proof.
  induction outs as [|((a & x) & c) outs IH]; intros us w e st E.
  - cbn in E. unfold iret in E. congruence.
  - cbn [imapM] in E. unfold ibind at 1 2, zoom in E. cbn [fst snd] in E.
    destruct (w_convert x c w) as [[n|e'] w1] eqn:Ec.
    + unfold iret at 1 in E. unfold ibind at 1 in E. destruct (imapM _ outs (us, w1)) as [[l|e'] st2] eqn:E2; [unfold iret in E; congruence|].
      injection E as -> ->. destruct (IH _ _ _ _ E2) as (pre & b & y & d & post & sats & v1 & v2 & -> & C & H).
      exists ((a, x, c) :: pre), b, y, d, post, (n :: sats), v1, v2. split; [reflexivity|]. split; [econstructor; eauto|exact H].
    + injection E as -> <-. exists [], a, x, c, outs, [], w, w1. split; [reflexivity|]. split; [constructor|exact Ec].
Qed.

(** The coins do not cover the payments and the fee for spending all of them. *)
Definition NotEnough (w : W) (outputs : list (pystr * Amt * pystr)) (f : Z) (o : Options) (back : pystr) (us : list Unspent) : Prop :=
  exists sats w1 msgs sizes all, Converted w outputs sats w1 /\ message_outputs (o_message o) (o_message_is_hex o) = Ok msgs /\
    OutputSizes (dests outputs) (length msgs) back sizes /\ FeeFor (o_absolute_fee o) f sizes us all /\ amounts us < total sats + all.

Lemma sanitize_fails (RO : RandomOk WD) (RA : forall w, exists rnd w', w_random w = (Ok rnd, w')) us w outputs f back v o e st :
  sanitize_tx_data outputs f (Some back) 0 v o (us, w) = (Raise e, st) ->
  CannotConvert w outputs e \/ (us = [] /\ e = ValueError) \/ message_outputs (o_message o) (o_message_is_hex o) = Raise e \/
  (exists a, In a (back :: dests outputs) /\ NoScript a /\ (e = ValueError \/ e = TypeError)) \/
  (us <> [] /\ e = InsufficientFunds /\ NotEnough w outputs f o back us) \/
  (e = ValueError /\ exists a, In a (back :: dests outputs) /\ get_version a <> Ok v).
Proof.
  unfold sanitize_tx_data. intros E. unfold ibind at 1 in E.
  destruct (imapM _ outputs (us, w)) as [[l|e1] [us1 w1]] eqn:E1; [|injection E as -> <-; left; eapply loop_exn; exact E1].
  destruct (F_wallet.convert_loop _ _ _ _ _ _ E1) as (sats & C & -> & L & ->). unfold ibind at 1, iget at 1 in E. cbn [fst] in E.
  destruct us as [|u0 us0]; [injection E as <- <-; right; left; auto|]. set (us := u0 :: us0) in *. right. right.
  destruct (dests_combine outputs sats (Converted_length _ _ _ _ C)) as [Lf Ls].
  unfold ibind at 1, ilift at 1 in E. destruct (message_outputs _ _) as [msgs|e2] eqn:Em; [|injection E as -> <-; left; reflexivity]. right.
  unfold ibind at 1, ilift at 1 in E. destruct (mapM _ (combine (dests outputs) sats)) as [sizes|e2] eqn:Ez.
  2:{ injection E as -> <-. destruct (sizes_exn _ _ Ez) as (a & I & H). left. exists a. rewrite Lf in I. split; [right; exact I|exact H]. }
  unfold ibind at 1, ilift at 1 in E. destruct (output_size_of (Some back)) as [cs|e2] eqn:Ec.
  2:{ injection E as -> <-. left. exists back. split; [left; auto|]. apply size_exn. exact Ec. }
  unfold ibind at 1, zoom at 1 in E. cbn [snd fst] in E. destruct (RA w1) as (rnd & w2 & Er). rewrite Er in E.
  unfold ibind at 1, ilift at 1 in E. right.
  match type of E with context [select_coins ?b ?s ?t ?fe ?os ?mc ?ab ?cb ?uu] => destruct (select_coins b s t fe os mc ab cb uu) as [[sel rem]|e2] eqn:Es end.
  - right. unfold ibind at 1, iget at 1 in E. unfold ibind at 1, iput at 1 in E. unfold ibind at 1 in E.
    destruct (rem >? 0).
    + unfold iret at 1 in E. unfold ibind, ilift in E. destruct (check_version _ _) as [[]|e3] eqn:Ek; [discriminate|]. injection E as -> <-.
      destruct (check_exn _ _ _ Ek) as (-> & (a & n) & I & H). split; auto. exists a. split; [|exact H]. apply in_app_iff in I as [I|[I|[]]]; [right|left; congruence].
      rewrite <- Lf. apply (in_map fst) in I. exact I.
    + unfold iret at 1 in E. unfold ibind, ilift in E. destruct (check_version _ _) as [[]|e3] eqn:Ek; [discriminate|]. injection E as -> <-.
      destruct (check_exn _ _ _ Ek) as (-> & (a & n) & I & H). split; auto. exists a. split; [|exact H]. right. rewrite <- Lf. apply (in_map fst) in I. exact I.
  - left. injection E as -> <-. split; [discriminate|].
    destruct (size_of_some _ _ Ec) as (b & script & [= <-] & Eb & ->).
    set (os := sizes ++ [zlen msgs * (Z.of_nat MESSAGE_LIMIT + 9)] ++ [zlen script + 9]) in *.
    destruct (select_spec (r_bits rnd) (r_shuffle rnd) (zsum (map snd (combine (dests outputs) sats))) f os 0 (o_absolute_fee o) (o_combine o) us (RO _ _ _ Er))
      as [(c & r & E' & _)|(l & E' & HC & P & _)]; rewrite E' in Es; [discriminate|].
    pose proof (draw_spec _ _ _ _ _ _ _ _ _ _ Es) as [[->|(_ & -> & _)] LT]; [|apply Permutation_nil in P; discriminate]. split; auto.
    assert (NL : l <> []) by (intros ->; apply Permutation_nil in P; discriminate). specialize (LT NL). cbn [app] in LT.
    exists sats, w1, msgs, os, (coin_fee (o_absolute_fee o) f os us). split; [exact C|]. split; [exact Em|]. split.
    { exists sizes, (zlen script + 9). split; [|split].
      - apply sizes_ok in Ez. rewrite Lf in Ez. exact Ez.
      - exists script. auto.
      - unfold os, zlen. cbn [MESSAGE_LIMIT]. change (Z.of_nat MESSAGE_LIMIT + 9) with 89. cbn [app]. rewrite Z.mul_comm. reflexivity. }
    split; [apply coin_fee_For; reflexivity|]. rewrite Ls, zsum_total, Z.add_0_r in LT.
    assert (PQ : amounts us = total (map u_amount l)) by (unfold amounts; symmetry; clear -P; induction P; cbn; lia).
    rewrite PQ, <- (coin_fee_perm _ _ _ _ _ P). exact LT.
Qed.

(** What a call that got its coins makes of them *)
Lemma kept (RO : RandomOk WD) (P : Unspent -> Prop) v outputs f o us w1 back w3 sats w2 n sel outs msgs :
  sanitize_tx_data outputs f (Some back) 0 v o (us, w1) = (Ok (sel, outs), (sel, w3)) -> 0 <= f ->
  Converted w1 outputs sats w2 -> Forall (fun z => 0 < z) sats -> message_outputs (o_message o) (o_message_is_hex o) = Ok msgs -> length msgs = n ->
  (forall a script, In a (back :: dests outputs) -> address_to_scriptpubkey a = Ok (Some script) -> zlen script < 2 ^ 64) ->
  zlen outputs + Z.of_nat n + 1 < 2 ^ 64 ->
  us <> [] -> Spends us -> Sensible us -> (forall u, P u -> P (opt_in_for_RBF u)) -> Forall P us ->
  Forall (fun p => snd p = 0) msgs ->
  sel <> [] /\ Spends sel /\ Forall P sel /\
  exists pay, outs = pay ++ msgs /\ Forall OutOk pay /\ Forall DataOk pay /\ zlen outs < 2 ^ 64.
Proof.
  intros E A2 A3 A4 Em Lm SH A9 NE SP (S1 & S2 & S3) HP FP M0.
  destruct (sel_coins RO P us w1 outputs f (Some back) v o sel outs w3 HP FP (sp_once _ SP) E) as (FP' & _ & NE').
  destruct (C44_inputs RO _ _ _ _ _ _ _ _ _ _ _ _ E) as (taken & unused & Pm & _ & _ & Hs).
  destruct (C44_outputs _ _ _ _ _ _ _ _ _ _ _ _ E) as (sats' & w1' & change & msgs' & bk & C & Q & Eo & Ls & Hc & _ & Em').
  injection Q as <-. destruct (Converted_fun _ _ _ _ _ _ A3 C) as [<- _]. rewrite Em in Em'. injection Em' as <-.
  split; auto. split.
  { rewrite Hs. destruct (o_replace_by_fee o); [apply spends_rbf|]; eapply spends_sub; eauto. }
  split; auto.
  destruct (C44_books RO _ _ _ _ _ _ _ _ _ _ _ _ (Z.le_refl 0) E) as (sats' & w1'' & msgs' & bk & sizes' & C' & Q & Em' & SZ & F).
  injection Q as <-. destruct (Converted_fun _ _ _ _ _ _ A3 C') as [<- _]. rewrite Em in Em'. injection Em' as <-.
  assert (FT : forall Q : Unspent -> Prop, Forall Q us -> Forall Q taken).
  { intros Q G. eapply Permutation_Forall in G; [|apply Permutation_sym; exact Pm]. apply Forall_app in G as [G _]. auto. }
  assert (B1 : amounts sel = amounts taken) by (rewrite Hs; unfold amounts; destruct (o_replace_by_fee o); auto; destruct (rbf_maps taken) as (-> & _); auto).
  assert (B2 : amounts sel <= amounts us).
  { rewrite B1. unfold amounts. assert (Q : S_Fee.total (map u_amount (taken ++ unused)) = S_Fee.total (map u_amount us)).
    { clear -Pm. induction Pm; cbn; lia. }
    rewrite <- Q, map_app, total_app. eapply Permutation_Forall in S1; [|apply Permutation_sym; exact Pm]. apply Forall_app in S1 as [_ S1].
    assert (0 <= S_Fee.total (map u_amount unused)) by (apply total_nonneg, Forall_map; exact S1). lia. }
  assert (VS : Forall (fun z => 0 <= z) (map u_vsize sel)).
  { apply Forall_map. rewrite Hs. apply Forall_rbf; [|apply FT; exact S2]. intros u. destruct (rbf_same u) as (_ & -> & _). auto. }
  assert (PN : 0 <= amounts sel - S_Fee.total (map snd outs)).
  { pose proof (sizes_nonneg _ _ _ _ SZ) as SN. cbv zeta in F. destruct F as [(s & Es & Q)|(_ & _ & Ec & Ch & _)].
    - rewrite Q. pose proof (estimated_nonneg _ _ _ _ VS SN Es). destruct (o_absolute_fee o); auto. apply Z.mul_nonneg_nonneg; auto.
    - assert (F1 : map fst (map coin sel) = map u_amount sel) by (rewrite map_map; reflexivity).
      assert (F2 : map snd (map coin sel) = map u_vsize sel) by (rewrite map_map; reflexivity). rewrite F1, F2 in Ch. rewrite Ec.
      unfold amounts. apply total_nonneg in VS.
      assert (SA : 0 <= S_Fee.total (all_but_last sizes')).
      { apply total_nonneg. unfold all_but_last. apply Forall_forall. rewrite Forall_forall in SN. intros z Hz. apply SN. revert Hz. apply firstn_sub. }
      assert (0 <= f * (S_Fee.total (map u_vsize sel) + 4 * (9 + S_Fee.total (all_but_last sizes')))) by (apply Z.mul_nonneg_nonneg; lia). lia. }
  assert (LC : length (combine (map Addr (dests outputs)) sats) = length outputs).
  { rewrite combine_length, Ls. unfold dests. rewrite !map_length. lia. }
  assert (PP : Forall (fun p => 0 <= snd p) outs).
  { rewrite Eo. apply Forall_app. split; [|apply Forall_app; split].
    - apply Forall_forall. intros (d & z) Hz. apply in_combine_r in Hz. rewrite Forall_forall in A4. specialize (A4 z Hz). cbn. lia.
    - destruct Hc as [-> |(z & Hz & ->)]; repeat constructor. cbn. lia.
    - eapply Forall_impl; [|exact M0]. intros p H; cbn in *; lia. }
  assert (TL : Forall (fun p => snd p <= MAX_MONEY) outs).
  { pose proof (total_le (map snd outs) ltac:(apply Forall_map; exact PP)) as TL. rewrite Forall_forall in TL |- *. intros p Hp. specialize (TL (snd p) (in_map snd _ _ Hp)). lia. }
  assert (MM : MAX_MONEY < 2 ^ 64) by reflexivity.
  assert (PA : forall a, In a (back :: dests outputs) -> exists script, address_to_scriptpubkey a = Ok (Some script) /\ zlen script < 2 ^ 64).
  { destruct SZ as (sz & c & Fs & (script & Eb & _) & _). intros a [<-|Ha]; [exists script; split; auto; apply (SH back); cbn; auto|].
    clear -Fs Ha SH. assert (G : exists script, address_to_scriptpubkey a = Ok (Some script)).
    { induction Fs as [|d z ds zs (script & Q & _) F IH]; [contradiction|]. destruct Ha as [<-|Ha]; [eauto|]. apply IH; auto. intros a' sc' [Q'|Q']; apply SH; [left|right; right]; auto. }
    destruct G as (script & G). exists script. split; auto. apply (SH a); cbn; auto. }
  exists (combine (map Addr (dests outputs)) sats ++ change). rewrite <- app_assoc. split; [exact Eo|].
  split; [|split].
  - rewrite Eo in TL. apply Forall_app in TL as [TL1 TL]. apply Forall_app in TL as [TL2 _]. apply Forall_app. split.
    + apply Forall_forall. intros (d & z) Hz. rewrite Forall_forall in TL1. specialize (TL1 _ Hz). pose proof (in_combine_r _ _ _ _ Hz) as Hz2. apply in_combine_l in Hz.
      apply in_map_iff in Hz as (a & <- & Ha). rewrite Forall_forall in A4. specialize (A4 z Hz2). unfold OutOk. cbn [fst snd] in *. split; [lia|]. apply PA. right. auto.
    + destruct Hc as [-> |(z & Hz & ->)]; repeat constructor; cbn [fst snd]; auto.
      * apply Forall_cons_iff in TL2 as [TL2 _]. cbn in TL2. lia.
      * apply PA. left. auto.
  - apply Forall_app. split.
    + apply Forall_forall. intros (d & z) Hz. apply in_combine_l in Hz. apply in_map_iff in Hz as (a & <- & _). exact I.
    + destruct Hc as [-> |(z & Hz & ->)]; repeat constructor.
  - rewrite Eo. unfold zlen in *. rewrite !app_length, LC, Lm. assert (length change <= 1)%nat by (destruct Hc as [-> |(z & Hz & ->)]; cbn; lia). lia.
Qed.

(** Messages *)
Definition BadMessage (o : Options) (e : exc) : Prop :=
  (exists b, o_message o = Some (MBytes b) /\ o_message_is_hex o = false /\ e = AttributeError) \/
  (exists s c, o_message o = Some (MText s) /\ o_message_is_hex o = false /\ In c s /\ 0xd800 <= c < 0xe000 /\ e = UnicodeEncodeError) \/
  (exists s, o_message o = Some (MText s) /\ o_message_is_hex o = true /\ s <> [] /\ e = TypeError).
Lemma utf8_exn s e : utf8 s = Raise e -> exists c, In c s /\ 0xd800 <= c < 0xe000 /\ e = UnicodeEncodeError.
Proof.
  unfold utf8. induction s as [|c s IH]; cbn [mapM rmap]; [discriminate|]. destruct (utf8_char c) as [b|x] eqn:E; cbn [bind rmap].
  - destruct (mapM utf8_char s) as [r|x]; cbn [bind rmap] in *; [discriminate|]. intros H. destruct (IH H) as (d & I & D). exists d. split; [right; auto|auto].
  - intros [= <-]. exists c. split; [left; auto|]. unfold utf8_char in E. destruct (c <? 128); [discriminate|]. destruct (c <? 2048); [discriminate|].
    destruct ((55296 <=? c) && (c <? 57344)) eqn:Q; [|destruct (c <? 65536); discriminate]. split; [lia|congruence].
Qed.
Lemma message_raises o e : message_outputs (o_message o) (o_message_is_hex o) = Raise e -> BadMessage o e.
Proof.
  unfold message_outputs, BadMessage. destruct (o_message o) as [m|]; [|discriminate]. destruct (msg_empty m); [discriminate|].
  destruct (o_message_is_hex o); [destruct m; discriminate|]. destruct m as [t|b].
  - destruct (utf8 t) as [b|x] eqn:E; cbn [bind]; [discriminate|]. intros [= <-]. destruct (utf8_exn _ _ E) as (c & I & R & ->). right. left. exists t, c. auto 6.
  - cbn [bind]. intros [= <-]. left. exists b. auto.
Qed.
Lemma message_cases o msgs : MsgOk o -> message_outputs (o_message o) (o_message_is_hex o) = Ok msgs ->
  Forall (fun p => snd p = 0) msgs /\
  ((Forall OutOk msgs /\ Forall DataOk msgs) \/
   (BadMessage o TypeError /\ exists c rest, msgs = (Addr c, 0) :: rest /\ zlen c < 256)).
Proof.
  intros M E. pose proof (message_data o msgs) as MD.
  assert (Z0 : Forall (fun p => snd p = 0) msgs).
  { revert E. unfold message_outputs. destruct (o_message o) as [m|]; [|intros [= <-]; constructor]. destruct (msg_empty m); [intros [= <-]; constructor|].
    destruct (if o_message_is_hex o then _ else _) as [l|x]; cbn [bind]; [|discriminate]. intros [= <-]. apply Forall_map, Forall_forall. auto. }
  split; auto.
  assert (DL : forall (b : bytes), Forall OutOk (map (fun c => (c, 0)) (map Data (chunk_data b MESSAGE_LIMIT)))).
  { intros b. destruct (C04_chunks Z b 80 ltac:(lia)) as (_ & Cs). rewrite map_map. apply Forall_map, Forall_forall. intros c I. unfold OutOk. cbn [fst snd]. split; auto.
    apply In_nth_error in I as (j & J). destruct (Cs j c J) as (L & _). unfold zlen. lia. }
  revert E. unfold message_outputs, BadMessage. destruct (o_message o) as [m|] eqn:Q; [|intros [= <-]; left; auto]. destruct (msg_empty m) eqn:EM; [intros [= <-]; left; auto|].
  intros E. destruct (o_message_is_hex o) eqn:X, m as [t|b].
  - right. split; [right; right; exists t; split; auto; split; auto; split; [intros ->; discriminate|auto]|].
    cbn [bind] in E. injection E as <-. destruct (C04_chunks Z t 80 ltac:(lia)) as (Cc & Cs). change MESSAGE_LIMIT with 80%nat.
    destruct (chunk_data t 80) as [|c r] eqn:EC; [cbn in Cc; subst t; discriminate|]. exists c. eexists. split; [reflexivity|]. destruct (Cs 0%nat c eq_refl) as (L & _). unfold zlen. lia.
  - left. cbn [bind] in E. injection E as <-. split; [apply DL|]. apply MD; auto. cbn [message_outputs]. rewrite EM; reflexivity.
  - left. split; [|apply MD; auto; cbn [message_outputs]; rewrite EM; exact E]. destruct (utf8 t) as [b|x]; cbn [bind] in E; [|discriminate]. injection E as <-. apply DL.
  - discriminate.
Qed.

Lemma mapM_app_raise {A B} (f : A -> result B) l x r e : (forall y, In y l -> exists b, f y = Ok b) -> f x = Raise e -> mapM f (l ++ x :: r) = Raise e.
Proof.
  intros H E. induction l as [|y l IH]; cbn [app mapM].
  - rewrite E. reflexivity.
  - destruct (H y (or_introl eq_refl)) as (b & ->). cbn [bind]. rewrite IH; [reflexivity|]. intros z I. apply H. right. auto.
Qed.
Lemma mapM_exn {A B} (f : A -> result B) (P : exc -> Prop) l e : (forall y x, In y l -> f y = Raise x -> P x) -> mapM f l = Raise e -> P e.
Proof.
  induction l as [|y l IH]; cbn [mapM]; [discriminate|]. intros H. destruct (f y) as [b|x] eqn:E; cbn [bind].
  - destruct (mapM f l) as [r|x]; cbn [bind]; [discriminate|]. intros [= <-]. apply IH; auto. intros z x0 I. apply H. right. auto.
  - intros [= <-]. apply (H y); auto. left. auto.
Qed.
Lemma mapM_all {A B} (f : A -> result B) l r : mapM f l = Ok r -> forall y, In y l -> exists b, f y = Ok b.
Proof.
  revert r. induction l as [|x l IH]; intros r E y I; [contradiction|]. cbn [mapM] in E. apply bind_ok in E as (b & E1 & E). apply bind_ok in E as (bs & E2 & _).
  destruct I as [<-|I]; eauto.
Qed.
Lemma addr_exn a n e : (forall script, address_to_scriptpubkey a = Ok (Some script) -> zlen script < 2 ^ 64) -> ~ NoScript a ->
  construct_output (Addr a, n) = Raise e -> e = TypeError \/ e = OverflowError.
Proof.
  intros SH NS. unfold construct_output. destruct (n =? 0); cbn [negb].
  - unfold to_bytes_le. destruct (_ || _); cbn [bind]; intros [= <-]; auto.
  - destruct (address_to_scriptpubkey a) as [[script|]|x] eqn:Q; cbn [bind].
    + unfold to_bytes_le. destruct (_ || _); cbn [bind]; [intros [= <-]; auto|]. destruct (new_out_total (le_bytes 8 n) script (SH _ eq_refl)) as (t & ->). discriminate.
    + exfalso. apply NS. intros s H. rewrite Q in H. discriminate.
    + exfalso. apply NS. intros s H. rewrite Q in H. discriminate.
Qed.
Lemma nonpositive_out a n : n <= 0 -> exists e, construct_output (Addr a, n) = Raise e.
Proof.
  intros H. unfold construct_output. destruct (n =? 0) eqn:Z0; cbn [negb].
  - unfold to_bytes_le. destruct (_ || _); cbn [bind]; eauto.
  - destruct (address_to_scriptpubkey a) as [[script|]|x]; cbn [bind]; eauto; unfold to_bytes_le; replace (n <? 0) with true by lia; cbn [orb bind]; eauto.
Qed.

(** Where the change goes *)
Definition ChangeTo (sg : signer) (leftover : option pystr) (us : list Unspent) (back : pystr) : Prop :=
  match leftover with
  | Some (c :: r) => back = c :: r
  | _ => if existsb u_is_segwit us then sg_segwit_address sg = Ok (Some back) else sg_address sg = Ok back
  end.

(** Why a request is refused: the error and what is the matter. *)
Inductive Why (sg : signer) (outputs : list (pystr * Amt * pystr)) (fee : option Z) (leftover : option pystr) (unspents : option (list Unspent))
    (o : Options) (s : @Wallet W) : exc -> Prop :=
| y_fetch e s1 : given unspents = false -> get_unspents sg s = (Raise e, s1) -> Why sg outputs fee leftover unspents o s e
| y_fee us s1 e w : Available sg unspents s us s1 -> fee = None \/ fee = Some 0 -> w_fee (wl_world s1) = (Raise e, w) -> Why sg outputs fee leftover unspents o s e
| y_amount us s1 f w1 e : Available sg unspents s us s1 -> FeeRate fee (wl_world s1) f w1 -> CannotConvert w1 outputs e -> Why sg outputs fee leftover unspents o s e
| y_none s1 : Available sg unspents s [] s1 -> Why sg outputs fee leftover unspents o s ValueError
| y_message e : BadMessage o e -> Why sg outputs fee leftover unspents o s e
| y_address us s1 back a e : Available sg unspents s us s1 -> ChangeTo sg leftover us back -> In a (back :: dests outputs) ->
    ~ Payable (sg_version sg) a -> e = ValueError \/ e = TypeError -> Why sg outputs fee leftover unspents o s e
| y_funds us s1 f w1 back : Available sg unspents s us s1 -> us <> [] -> FeeRate fee (wl_world s1) f w1 -> ChangeTo sg leftover us back ->
    NotEnough w1 outputs f o back us -> Why sg outputs fee leftover unspents o s InsufficientFunds
| y_nonpositive us s1 f w1 sats w2 e : Available sg unspents s us s1 -> FeeRate fee (wl_world s1) f w1 -> Converted w1 outputs sats w2 ->
    Exists (fun z => z <= 0) sats -> e = TypeError \/ e = OverflowError -> Why sg outputs fee leftover unspents o s e.

Definition Ordinary (sg : signer) (P : Unspent -> Prop) (outputs : list (pystr * Amt * pystr)) (fee : option Z) (leftover : option pystr) (unspents : option (list Unspent))
    (o : Options) (s : @Wallet W) : Prop :=
  (forall us s1, Available sg unspents s us s1 -> us <> [] -> Spends us /\ Sensible us /\ Forall P us) /\
  (forall us s1 f w, Available sg unspents s us s1 -> FeeRate fee (wl_world s1) f w -> 0 <= f) /\
  (forall us s1 back a script, Available sg unspents s us s1 -> ChangeTo sg leftover us back -> In a (back :: dests outputs) ->
     address_to_scriptpubkey a = Ok (Some script) -> zlen script < 2 ^ 64) /\
  (forall msgs, message_outputs (o_message o) (o_message_is_hex o) = Ok msgs -> zlen outputs + zlen msgs + 1 < 2 ^ 64).

Lemma fails sg P outputs fee leftover unspents o s e s' :
  RandomOk WD -> (forall w, exists rnd w', w_random w = (Ok rnd, w')) -> MsgOk o -> Ordinary sg P outputs fee leftover unspents o s ->
  (forall u, P u -> P (opt_in_for_RBF u)) ->
  (forall us s1, Available sg unspents s us s1 -> exists back, ChangeTo sg leftover us back) -> OwnAddresses sg ->
  (forall sel outs, sel <> [] -> Spends sel -> Forall P sel -> Forall OutOk outs -> Forall DataOk outs -> zlen outs < 2 ^ 64 -> exists h, create_new_transaction sg sel outs = Ok h) ->
  create_transaction sg outputs fee leftover unspents o s = (Raise e, s') -> Why sg outputs fee leftover unspents o s e.
Proof.
  intros RO RA MO (O1 & O2 & O3 & O4) HP BK OA TOT E. unfold create_transaction in E. unfold ibind at 1 in E.
  match type of E with context [match ?x with pair _ _ => _ end] => destruct x as [[[own us]|e0] s1] eqn:EA end.
  2:{ injection E as -> ->. apply (y_fetch _ _ _ _ _ _ _ _ s').
      - destruct unspents as [[|u r]|]; auto. cbn in EA. discriminate.
      - destruct unspents as [[|u r]|]; cbn [nonempty] in EA; unfold ibind in EA; try (destruct (get_unspents sg s) as [[l|x] t]; [discriminate|injection EA as -> ->; reflexivity]). discriminate. }
  assert (A : Available sg unspents s us s1 /\ (own = true -> wl_unspents s1 = us) /\ (own = false -> wl_caller s1 = us)).
  { destruct unspents as [[|u r]|]; cbn [nonempty Available] in *.
    - unfold ibind in EA. destruct (get_unspents sg s) as [[l|x] t] eqn:G; [|discriminate]. injection EA as <- <- <-. split; auto. split; [|discriminate]. intros _. eapply get_unspents_own; eauto.
    - unfold modify, ibind, iget, iput, iret in EA. injection EA as <- <- <-. split; auto. split; [discriminate|auto].
    - unfold ibind in EA. destruct (get_unspents sg s) as [[l|x] t] eqn:G; [|discriminate]. injection EA as <- <- <-. split; auto. split; [|discriminate]. intros _. eapply get_unspents_own; eauto. }
  destruct A as (A & OW1 & OW2). clear EA.
  pose proof (BK _ _ A) as B.
  destruct B as (back & B). destruct (back_is _ _ _ _ OA B) as (ra & Er & Eb). unfold ibind at 1, ilift at 1 in E. rewrite Er in E.
  unfold ibind at 1, world at 1, zoom at 1 in E. destruct (fee_or_cached fee (wl_world s1)) as [[f|e0] w1] eqn:Ef.
  2:{ injection E as -> <-. apply (y_fee _ _ _ _ _ _ _ us s1 e w1 A); unfold fee_or_cached in Ef; destruct fee as [g|]; auto; destruct (Z.eqb_spec g 0) as [->|N]; auto; discriminate. }
  apply fee_rate in Ef. unfold ibind at 1 in E. rewrite Eb in E.
  assert (Q : exists r us' w', sanitize_tx_data outputs f (Some back) 0 (sg_version sg) o (us, w1) = (r, (us', w')) /\
    match r with Ok (sel, outs) => create_new_transaction sg sel outs = Raise e | Raise x => x = e end).
  { unfold run_sanitize, zoom in E. destruct own; cbn [wl_unspents wl_caller wl_world set_world] in E; rewrite ?(OW1 eq_refl), ?(OW2 eq_refl) in E;
      destruct (sanitize_tx_data outputs f (Some back) 0 (sg_version sg) o (us, w1)) as [r [us' w']]; exists r, us', w'; (split; [reflexivity|]);
      destruct r as [[sel outs]|x]; unfold ilift in E; congruence. }
  destruct Q as (r & us' & w' & Es & En). destruct r as [[sel outs]|x].
  2:{ subst x. destruct (sanitize_fails RO RA _ _ _ _ _ _ _ _ _ Es) as [H|[(-> & ->)|[H|[(a & I & NS & X)|[(NE & -> & H)|(-> & a & I & H)]]]]].
      - eapply y_amount; eauto.
      - eapply y_none; eauto.
      - apply y_message. apply message_raises. exact H.
      - apply (y_address _ _ _ _ _ _ _ us s1 back a); auto. intros (_ & script & Q & _). exact (NS _ Q).
      - eapply y_funds; eauto.
      - apply (y_address _ _ _ _ _ _ _ us s1 back a); auto. intros (Q & _). exact (H Q). }
  assert (us' = sel) as ->.
  { destruct (sanitize_ok _ _ _ _ _ _ _ _ _ _ _ _ Es) as (? & ? & ? & ? & ? & ? & ? & ? & ? & _ & _ & _ & _ & _ & _ & _ & _ & _ & _ & Q & _). exact Q. }
  destruct (C44_outputs _ _ _ _ _ _ _ _ _ _ _ _ Es) as (sats & w2 & change & msgs & bk & C & [= <-] & Eo & Ls & Hc & _ & Em).
  assert (NE : us <> []).
  { destruct (sanitize_ok _ _ _ _ _ _ _ _ _ _ _ _ Es) as (? & ? & ? & ? & ? & ? & ? & ? & ? & _ & _ & Q & _). exact Q. }
  destruct (O1 _ _ A NE) as (SP & SE & FP). destruct (message_cases _ _ MO Em) as (M0 & MC).
  assert (SH : forall a script, In a (back :: dests outputs) -> address_to_scriptpubkey a = Ok (Some script) -> zlen script < 2 ^ 64) by (intros a script; apply (O3 _ _ _ a script A B)).
  destruct (Forall_Exists_dec (fun z => 0 < z) ltac:(intros z; apply Z_lt_dec) sats) as [PO|NP].
  - destruct (kept RO P _ _ _ _ _ _ _ _ _ _ _ _ _ _ Es (O2 _ _ _ _ A Ef) C PO Em eq_refl SH (O4 _ Em) NE SP SE HP FP M0) as (NE' & SP' & FP' & pay & -> & F1 & F2 & LO).
    destruct MC as [[F3 F4]|(BM & c & rest & -> & LC)].
    + destruct (TOT sel (pay ++ msgs) NE' SP' FP') as (h & H); [apply Forall_app; auto|apply Forall_app; auto|exact LO|]. congruence.
    + unfold create_new_transaction, construct_outputs in En. rewrite (mapM_app_raise construct_output pay (Addr c, 0) rest TypeError) in En.
      * cbn [bind] in En. injection En as <-. apply y_message. exact BM.
      * intros p I. rewrite Forall_forall in F1. apply out_total. apply F1. exact I.
      * unfold construct_output. cbn [Z.eqb negb]. destruct (le_ok (zlen c) 1) as (l & El); [change (256 ^ Z.of_nat 1) with 256; unfold zlen in *; lia|]. rewrite El. reflexivity.
  - eapply y_nonpositive; eauto.
    + eapply Exists_impl; [|exact NP]. cbn. intros z. lia.
    + unfold create_new_transaction in En. destruct (construct_outputs outs) as [txs|x] eqn:Ec; cbn [bind] in En.
      * exfalso. apply Exists_exists in NP as (z & Iz & Nz). unfold construct_outputs in Ec.
        assert (IA : exists a, In (Addr a, z) outs).
        { rewrite Eo. clear -Iz Ls. revert outputs Ls. induction sats as [|y l IH]; intros [|q qs] Ls; [contradiction|contradiction|discriminate|]. cbn in Ls |- *.
          destruct Iz as [->|Iz]; [eexists; left; reflexivity|]. destruct (IH Iz qs ltac:(lia)) as (a & I). exists a. right. exact I. }
        destruct IA as (a & IA). destruct (mapM_all _ _ _ Ec _ IA) as (t & Q). destruct (nonpositive_out a z ltac:(lia)) as (x & Q'). congruence.
      * injection En as ->. unfold construct_outputs in Ec. eapply (mapM_exn construct_output (fun e => e = TypeError \/ e = OverflowError)); [|exact Ec].
        destruct (C44_books RO _ _ _ _ _ _ _ _ _ _ _ _ (Z.le_refl 0) Es) as (_ & _ & _ & bk & sizes' & _ & [= <-] & _ & (sz & cz & Fs & (script & Eb' & _) & _) & _).
        assert (PA : forall a, In a (back :: dests outputs) -> ~ NoScript a).
        { intros a [<-|Ia] NS; [apply (NS _ Eb')|]. clear -Fs Ia NS. induction Fs as [|d q ds qs (sc & Q & _) F IH]; [contradiction|]. destruct Ia as [<-|Ia]; [apply (NS _ Q)|auto]. }
        rewrite Eo. intros [d n] x I Hx. apply in_app_iff in I as [I|I]; [|apply in_app_iff in I as [I|I]].
        -- apply in_combine_l in I. apply in_map_iff in I as (a & <- & Ia). eapply (addr_exn a n); eauto; [intros sc; apply SH; right; auto|apply PA; right; auto].
        -- destruct Hc as [->|(m & _ & ->)]; [contradiction|]. destruct I as [[= <- <-]|[]]. eapply (addr_exn back m); eauto; [intros sc; apply SH; left; auto|apply PA; left; auto].
        -- rewrite Forall_forall in M0. pose proof (M0 _ I) as N0. cbn in N0. subst n. destruct MC as [[F3 _]|(_ & c & rest & -> & LC)].
           ++ rewrite Forall_forall in F3. destruct (out_total _ (F3 _ I)) as (t & Q). congruence.
           ++ destruct d as [a|b]; [|].
              ** unfold construct_output in Hx. cbn [Z.eqb negb] in Hx. unfold to_bytes_le in Hx. destruct (_ || _); cbn [bind] in Hx; injection Hx as <-; auto.
              ** exfalso. clear -I Em. unfold message_outputs in Em. destruct (o_message o) as [m|]; [|discriminate]. destruct (msg_empty m); [discriminate|].
                 destruct (o_message_is_hex o), m as [t|t]; cbn [bind] in Em; try discriminate.
                 --- injection Em as Em. rewrite <- Em in I. rewrite map_map in I. apply in_map_iff in I as (? & Q & _). discriminate.
                 --- destruct (chunk_data t MESSAGE_LIMIT); discriminate.
                 --- destruct (utf8 t) as [bb|]; cbn [bind] in Em; [|discriminate]. destruct (chunk_data bb MESSAGE_LIMIT); discriminate.
Qed.

(** C111: one of these is the matter whenever a payment from a key is refused. *)
Theorem C111_why (RO : RandomOk WD) (RA : forall w, exists rnd w', w_random w = (Ok rnd, w')) k outputs fee leftover unspents o s e s' :
  KeyOk k -> OwnAddresses (Single k) -> MsgOk o -> Ordinary (Single k) (SingleCoin k) outputs fee leftover unspents o s ->
  create_transaction (Single k) outputs fee leftover unspents o s = (Raise e, s') -> Why (Single k) outputs fee leftover unspents o s e.
Proof.
  intros K OA MO OR. pose proof OA as ((a & Ea & _) & (sa & Es & _)). apply (fails (Single k) (SingleCoin k)); auto.
  - intros u. unfold SingleCoin. destruct (rbf_keep u) as (_ & _ & -> & -> & _). auto.
  - intros us s1 A. unfold ChangeTo. destruct us as [|u0 us0]; [destruct leftover as [[|c r]|]; cbn; eauto|].
    destruct (proj1 OR _ _ A ltac:(discriminate)) as (_ & _ & F). destruct leftover as [[|c r]|]; [|eauto|].
    all: destruct (existsb u_is_segwit _) eqn:X; [|eauto]; apply existsb_exists in X as (u & I & X); rewrite Forall_forall in F; specialize (F u I);
      unfold SingleCoin in F; rewrite X in F; destruct F as (L & _); cbn [sg_segwit_address] in *; unfold key_segwit_address in *;
      replace (key_is_compressed k) with true in * by (unfold key_is_compressed, zlen; rewrite L; reflexivity);
      destruct (public_key_to_segwit_address _ _) as [x|]; cbn in *; [eauto|discriminate].
  - intros. eapply new_single_total; eauto.
Qed.

(** The same for the wallet of a co-signer, if it has an address for the change. *)
Theorem C111_multi (RO : RandomOk WD) (RA : forall w, exists rnd w', w_random w = (Ok rnd, w')) ms k outputs fee leftover unspents o s e s' :
  EnvOk ms -> CoSigner ms k -> OwnAddresses (Multi (wallet ms k)) -> MsgOk o -> Ordinary (Multi (wallet ms k)) (MultiCoin ms) outputs fee leftover unspents o s ->
  (forall us s1, Available (Multi (wallet ms k)) unspents s us s1 -> exists back, ChangeTo (Multi (wallet ms k)) leftover us back) ->
  create_transaction (Multi (wallet ms k)) outputs fee leftover unspents o s = (Raise e, s') -> Why (Multi (wallet ms k)) outputs fee leftover unspents o s e.
Proof.
  intros EO CK OA MO OR CH. apply (fails (Multi (wallet ms k)) (MultiCoin ms)); auto.
  - intros u. unfold MultiCoin. destruct (rbf_keep u) as (_ & _ & -> & -> & _). auto.
  - intros. eapply new_multi_total; eauto.
Qed.

(** send: or no service takes it. *)
Theorem C111_send (RO : RandomOk WD) (RA : forall w, exists rnd w', w_random w = (Ok rnd, w')) k outputs fee leftover unspents o s e s' :
  KeyOk k -> OwnAddresses (Single k) -> MsgOk o -> Ordinary (Single k) (SingleCoin k) outputs fee leftover unspents o s ->
  send (Single k) outputs fee leftover unspents o s = (Raise e, s') ->
  Why (Single k) outputs fee leftover unspents o s e \/
  exists h s1, create_transaction (Single k) outputs fee leftover unspents o s = (Ok h, s1) /\ w_broadcast (k_version k) h (wl_world s1) = (Raise e, wl_world s').
Proof.
  intros K OA MO OR E. unfold send, ibind in E. destruct (create_transaction (Single k) outputs fee leftover unspents o s) as [[h|x] s1] eqn:Ec.
  2:{ injection E as -> ->. left. eapply C111_why; eauto. }
  right. exists h, s1. split; auto. unfold world, zoom in E. cbn [sg_version] in E. destruct (w_broadcast (k_version k) h (wl_world s1)) as [[[]|x] w]; [|injection E as -> <-; reflexivity].
  exfalso. destruct (create_steps _ _ _ _ _ _ _ _ _ Ec) as (us & s2 & back & f & w1 & sel & outs & w2 & A & _ & Es & _).
  assert (NE : us <> []).
  { destruct (sanitize_ok _ _ _ _ _ _ _ _ _ _ _ _ Es) as (? & ? & ? & ? & ? & ? & ? & ? & ? & _ & _ & Q & _). exact Q. }
  destruct (proj1 OR _ _ A NE) as (SP & _ & SC).
  destruct (C50_create_single HO RO k outputs fee leftover unspents o s h s1 us s2 K MO Ec A (sp_id _ SP) (sp_once _ SP) SC) as (x & sel' & f' & w' & _ & As & _).
  destruct (asked_id _ _ _ _ _ _ _ _ _ _ As) as (i & _ & Q). unfold ilift in E. rewrite Q in E. discriminate.
Qed.

(** C111: InsufficientFunds is said only of coins that do not cover the payments
    and the fee for spending all of them (unless a service says it). *)
Theorem C111_insufficient (RO : RandomOk WD) (RA : forall w, exists rnd w', w_random w = (Ok rnd, w')) k outputs fee leftover unspents o s s' :
  KeyOk k -> OwnAddresses (Single k) -> MsgOk o -> Ordinary (Single k) (SingleCoin k) outputs fee leftover unspents o s ->
  (forall n a w w', w_unspent n a w <> (Raise InsufficientFunds, w')) -> (forall w w', w_fee w <> (Raise InsufficientFunds, w')) ->
  (forall x c w w', w_convert x c w <> (Raise InsufficientFunds, w')) ->
  create_transaction (Single k) outputs fee leftover unspents o s = (Raise InsufficientFunds, s') ->
  exists us s1 f w1 back, Available (Single k) unspents s us s1 /\ us <> [] /\ FeeRate fee (wl_world s1) f w1 /\ ChangeTo (Single k) leftover us back /\
    NotEnough w1 outputs f o back us.
Proof.
  intros K OA MO OR N1 N2 N3 E. pose proof OA as ((a0 & Ea & _) & (sa & Es & _)).
  pose proof (C111_why RO RA _ _ _ _ _ _ _ _ _ K OA MO OR E) as Y. remember InsufficientFunds as x eqn:X. destruct Y as
    [x s1 G F|us s1 x w A _ F|us s1 f w1 x A _ (pre & b & am & c & post & sats & v1 & v2 & _ & _ & F)|s1 A|x BM|us s1 back b x A _ _ _ [Y|Y]|us s1 f w1 back A NE F C N|us s1 f w1 sats w2 x A F C NP [Y|Y]]; try congruence.
  - exfalso. subst x. unfold get_unspents in F. unfold ibind in F. unfold ilift in F. cbn [coin_types] in F. cbn [sg_version] in F. rewrite Ea, Es in F. unfold world, zoom in F.
    destruct (w_unspent _ a0 (wl_world s)) as [[l1|x] w1] eqn:U1; [|injection F as -> _; exact (N1 _ _ _ _ U1)]. unfold modify, ibind, iget, iput in F.
    destruct sa as [sa|]; [|discriminate]. destruct (w_unspent _ sa _) as [[l2|x] w2] eqn:U2; [discriminate|]. injection F as -> _. exact (N1 _ _ _ _ U2).
  - subst x. exfalso. exact (N2 _ _ F).
  - subst x. exfalso. exact (N3 _ _ _ _ F).
  - exfalso. destruct BM as [(b & _ & _ & Q)|[(t & c & _ & _ & _ & _ & Q)|(t & _ & _ & _ & Q)]]; congruence.
  - exists us, s1, f, w1, back. auto.
Qed.

(** C111: a wallet without coins cannot pay: ValueError, and nothing is asked for
    beyond the fee and the prices. *)
Theorem C111_no_coins sg outputs fee leftover unspents o s s1 f w1 sats w2 : Available sg unspents s [] s1 -> OwnAddresses sg ->
  FeeRate fee (wl_world s1) f w1 -> Converted w1 outputs sats w2 ->
  exists s', create_transaction sg outputs fee leftover unspents o s = (Raise ValueError, s') /\ send sg outputs fee leftover unspents o s = (Raise ValueError, s') /\
    wl_world s' = w2 /\ wl_unspents s' = [].
Proof.
  intros A ((a & Ea & _) & _) F C. apply fee_rate in F.
  assert (G : get_unspents sg s = (Ok [], s1) /\ nonempty unspents = None).
  { unfold Available in A. destruct unspents as [[|u r]|]; [auto| |auto]. destruct A as [A _]. discriminate. }
  destruct G as (G & N). pose proof (get_unspents_own _ _ _ _ G) as U.
  assert (Q : exists s', create_transaction sg outputs fee leftover unspents o s = (Raise ValueError, s') /\ wl_world s' = w2 /\ wl_unspents s' = []).
  { unfold create_transaction. unfold ibind at 1. rewrite N. unfold ibind at 1. rewrite G. unfold iret at 1. cbv beta iota.
    unfold ibind at 1, ilift at 1. cbn [existsb]. rewrite Ea. cbn [rmap]. unfold ibind at 1, world at 1, zoom at 1. rewrite F.
    unfold ibind at 1, run_sanitize, zoom. cbn [wl_unspents wl_world set_world]. rewrite U. unfold sanitize_tx_data. unfold ibind at 1.
    rewrite (convert_run outputs sats [] w1 w2 C). unfold ibind at 1, iget at 1. cbn [fst]. unfold ilift. eexists. split; [reflexivity|]. cbn. auto. }
  destruct Q as (s' & Q & Q1 & Q2). exists s'. split; auto. split; auto. unfold send, ibind. rewrite Q. reflexivity.
Qed.

(** C111: without an address for the change (a segwit coin, a key that has no
    segwit address, no leftover address given) nothing is built, whatever the
    coins hold: TypeError. *)
Theorem C111_no_change_address k outputs fee leftover u us o s msgs f w1 sats w2 : existsb u_is_segwit (u :: us) = true -> sg_segwit_address (Single k) = Ok None ->
  leftover = None \/ leftover = Some [] -> FeeRate fee (wl_world s) f w1 -> Converted w1 outputs sats w2 -> message_outputs (o_message o) (o_message_is_hex o) = Ok msgs ->
  (forall a, In a (dests outputs) -> exists script, address_to_scriptpubkey a = Ok (Some script)) ->
  exists s', create_transaction (Single k) outputs fee leftover (Some (u :: us)) o s = (Raise TypeError, s') /\ wl_world s' = w2.
Proof.
  intros SW NA NL F C Em D. apply fee_rate in F. destruct (dests_combine outputs sats (Converted_length _ _ _ _ C)) as [Lf Ls].
  unfold create_transaction. unfold ibind at 1. cbn [nonempty]. unfold ibind at 1, modify, iget at 1. unfold ibind at 1, iput at 1, iret at 1. cbv beta iota.
  unfold ibind at 1, ilift at 1. rewrite SW, NA. unfold ibind at 1, world at 1, zoom at 1. cbn [wl_world set_caller]. rewrite F.
  replace (nonempty leftover) with (@None pystr) by (destruct NL as [-> | ->]; reflexivity).
  unfold ibind at 1, run_sanitize, zoom. cbn [wl_unspents wl_world wl_caller set_world set_caller]. unfold sanitize_tx_data. unfold ibind at 1.
  rewrite (convert_run outputs sats (u :: us) w1 w2 C). unfold ibind at 1, iget at 1. cbn [fst]. unfold ibind at 1, ilift at 1. rewrite Em.
  unfold ibind at 1, ilift at 1. destruct (mapM (fun '(a, _) => output_size_of (Some a)) (combine (dests outputs) sats)) as [sizes|x] eqn:Ez.
  2:{ exfalso. destruct (sizes_exn _ _ Ez) as (a & I & NS & _). rewrite Lf in I. destruct (D a I) as (script & Q). exact (NS _ Q). }
  unfold ibind at 1, ilift at 1. cbn [output_size_of some_script]. eexists. split; [reflexivity|reflexivity].
Qed.
End WithCrypto.

(** No reason but a service's answer gives ConnectionError. *)
Lemma why_is_ordinary {CR : Crypto} {W Amt} {WD : World W Amt} sg outputs f0 leftover u us o s : f0 <> 0 ->
  (forall x c w w', w_convert x c w <> (Raise ConnectionError, w')) -> ~ Why sg outputs (Some f0) leftover (Some (u :: us)) o s ConnectionError.
Proof.
  intros N N3 Y. remember ConnectionError as x eqn:X. destruct Y as
    [x s1 G _|us1 s1 x w A [Q|Q] _|us1 s1 f w1 x A _ (pre & b & am & c & post & sats & v1 & v2 & _ & _ & F)|s1 A|x BM|us1 s1 back b x A _ _ _ [Y|Y]|us1 s1 f w1 back A NE F C NN|us1 s1 f w1 sats w2 x A F C NP [Y|Y]]; try congruence; try discriminate.
  - subst x. exact (N3 _ _ _ _ F).
  - destruct BM as [(b & _ & _ & Q)|[(t & c & _ & _ & _ & _ & Q)|(t & _ & _ & _ & Q)]]; congruence.
Qed.

(** ** The hypotheses are met *)
#[local] Opaque create_transaction get_unspents.
Definition poor_outs : list (pystr * Z * pystr) := [(addr_of other_key, 9000000, str "satoshi")].
Definition create_poor (outs : list (pystr * Z * pystr)) := @create_transaction toy _ _ toy_world (Single wkey) outs (Some 10) None (Some legacy_coins) sized_opts wallet0.
Lemma ends_with {A S} (r : result A * S) e : match r with (Raise x, _) => x = e | _ => False end -> exists s', r = (Raise e, s').
Proof. destruct r as [[a|x] s']; [contradiction|]. intros ->. exists s'. reflexivity. Qed.
Lemma short_script a script : (match @address_to_scriptpubkey toy a with Ok (Some s) => zlen s <? 2 ^ 64 | _ => true end) = true -> @address_to_scriptpubkey toy a = Ok (Some script) -> zlen script < 2 ^ 64.
Proof. intros G E. rewrite E in G. lia. Qed.
Lemma poor_ordinary n c : @Ordinary toy _ _ toy_world (Single wkey) (@SingleCoin toy wkey) [(addr_of other_key, n, c)] (Some 10) None (Some legacy_coins) sized_opts wallet0.
Proof.
  destruct C43_single_hypotheses as (K & M & _ & _ & _ & _ & T & D & SC & SZ & _). unfold Ordinary. split; [|split; [|split]].
  - intros us s1 (-> & _) _. split; [|split; [|exact SC]]; [apply spendsb; [exact T|exact D|vm_compute; reflexivity|vm_compute; reflexivity|vm_compute; reflexivity]|apply sensibleb_ok; vm_compute; reflexivity].
  - intros us s1 f w (-> & _) F. rewrite (@rate_given _ _ toy_world 10 f w _ ltac:(lia) F). lia.
  - intros us s1 back a script (-> & _) B [<-|[<-|[]]].
    + assert (back = addr_of wkey) as -> by (vm_compute in B |- *; congruence). apply short_script. vm_compute. reflexivity.
    + apply short_script. vm_compute. reflexivity.
  - intros msgs [= <-]. reflexivity.
Qed.
Lemma toy_random_answers w : exists rnd w', @w_random _ _ toy_world w = (Ok rnd, w').
Proof. eexists. eexists. reflexivity. Qed.
(** 50000 satoshis in the coins, nine million asked for. *)
Example C111_insufficient_case : exists s', create_poor poor_outs = (Raise InsufficientFunds, s') /\
  exists us s1 f w1 back, @Available toy _ _ toy_world (Single wkey) (Some legacy_coins) wallet0 us s1 /\ us <> [] /\ @FeeRate _ _ toy_world (Some 10) (wl_world s1) f w1 /\
    @ChangeTo toy (Single wkey) None us back /\ @NotEnough toy _ _ toy_world w1 poor_outs f sized_opts back us.
Proof.
  destruct (ends_with (create_poor poor_outs) InsufficientFunds) as (s' & E); [vm_compute; reflexivity|].
  exists s'. split; [exact E|].
  destruct C43_single_hypotheses as (K & M & _).
  refine (@C111_insufficient toy toy_ok _ _ toy_world toy_random_ok toy_random_answers wkey poor_outs (Some 10) None (Some legacy_coins) sized_opts wallet0 s' K own_toy M (poor_ordinary _ _) _ _ _ E).
  - intros n a w w'. unfold toy_world, w_unspent. destruct (list_eqb a _); [discriminate|]. destruct (list_eqb a _); discriminate.
  - discriminate.
  - intros x c w w'. unfold toy_world, w_convert. destruct (list_eqb c _); discriminate.
Qed.
(** A currency nobody knows; nothing to pay: each error has its reason. *)
Example C111_why_case : exists e s' e' s'', create_poor [(addr_of other_key, 5, str "pound")] = (Raise e, s') /\ create_poor [(addr_of other_key, 0, str "satoshi")] = (Raise e', s'') /\
  e = ValueError /\ e' = TypeError /\
  @Why toy _ _ toy_world (Single wkey) [(addr_of other_key, 5, str "pound")] (Some 10) None (Some legacy_coins) sized_opts wallet0 e /\
  @Why toy _ _ toy_world (Single wkey) [(addr_of other_key, 0, str "satoshi")] (Some 10) None (Some legacy_coins) sized_opts wallet0 e'.
Proof.
  destruct (ends_with (create_poor [(addr_of other_key, 5, str "pound")]) ValueError) as (s' & E); [vm_compute; reflexivity|].
  destruct (ends_with (create_poor [(addr_of other_key, 0, str "satoshi")]) TypeError) as (s'' & E'); [vm_compute; reflexivity|].
  destruct C43_single_hypotheses as (K & M & _). exists ValueError, s', TypeError, s''. split; [exact E|]. split; [exact E'|]. do 2 (split; [reflexivity|]).
  split; [exact (@C111_why toy toy_ok _ _ toy_world toy_random_ok toy_random_answers wkey _ _ _ _ _ _ _ _ K own_toy M (poor_ordinary _ _) E)|].
  exact (@C111_why toy toy_ok _ _ toy_world toy_random_ok toy_random_answers wkey _ _ _ _ _ _ _ _ K own_toy M (poor_ordinary _ _) E').
Qed.
(** The co-signers' coins hold too little. *)
Definition create_poor_multi := @create_transaction toy _ _ toy_world (Multi (wallet toy_env (toy_k 5))) poor_outs (Some 3) None (Some toy_mus) (wopts true true) wallet0.
Example C111_multi_case : exists s', create_poor_multi = (Raise InsufficientFunds, s') /\
  @Why toy _ _ toy_world (Multi (wallet toy_env (toy_k 5))) poor_outs (Some 3) None (Some toy_mus) (wopts true true) wallet0 InsufficientFunds.
Proof.
  destruct (ends_with (create_poor_multi) InsufficientFunds) as (s' & E); [vm_compute; reflexivity|].
  exists s'. split; [exact E|].
  destruct C50_multi_hypotheses as (EO & SG & _ & M & _ & T & D & SC). apply proj1, Forall_inv in SG.
  assert (B : exists back, @ChangeTo toy (Multi (wallet toy_env (toy_k 5))) None toy_mus back /\ (forall script, @address_to_scriptpubkey toy back = Ok (Some script) -> zlen script < 2 ^ 64)).
  { clear. assert (Q : match @sg_segwit_address toy (Multi (wallet toy_env (toy_k 5))) with Ok (Some a) => match @address_to_scriptpubkey toy a with Ok (Some s) => zlen s <? 2 ^ 64 | _ => true end | _ => false end = true) by (vm_compute; reflexivity).
    unfold ChangeTo. change (existsb u_is_segwit toy_mus) with true. revert Q. generalize (@sg_segwit_address toy (Multi (wallet toy_env (toy_k 5)))). intros [[a|]|] Q; try discriminate Q. exists a. split; [reflexivity|].
    intros script. apply short_script. exact Q. }
  destruct B as (back & B & BS).
  refine (@C111_multi toy toy_ok _ _ toy_world toy_random_ok toy_random_answers toy_env (toy_k 5) poor_outs (Some 3) None (Some toy_mus) (wopts true true) wallet0 InsufficientFunds s' EO SG own_toy_multi M _ _ E).
  - split; [|split; [|split]].
    + intros us s1 (-> & _) _. split; [|split; [|exact SC]]; [apply spendsb; [exact T|exact D|vm_compute; reflexivity|vm_compute; reflexivity|vm_compute; reflexivity]|apply sensibleb_ok; vm_compute; reflexivity].
    + intros us s1 f w (-> & _) F. rewrite (@rate_given _ _ toy_world 3 f w _ ltac:(lia) F). lia.
    + intros us s1 b a script (-> & _) Bb I. assert (b = back) as -> by (unfold ChangeTo in B, Bb; cbn [nonempty] in B, Bb; congruence).
      destruct I as [<-|[<-|[]]]; [apply BS|]. apply short_script. vm_compute. reflexivity.
    + intros msgs E0. vm_compute in E0. injection E0 as <-. reflexivity.
  - intros us s1 (-> & _). exists back. exact B.
Qed.

(** A node that refuses what is sent to it, a wallet nobody paid, and a wallet
    whose only key is uncompressed. *)
Definition closed_world : World (list pystr) Z := {|
  w_convert := @w_convert _ _ toy_world; w_fee := iret 2; w_unspent := fun _ _ => iret []; w_history := @w_history _ _ toy_world;
  w_broadcast := fun _ _ => ilift (Raise ConnectionError); w_random := @w_random _ _ toy_world |}.
Lemma closed_random_ok : RandomOk closed_world.
Proof. exact toy_random_ok. Qed.
Lemma closed_ordinary n c : @Ordinary toy _ _ closed_world (Single wkey) (@SingleCoin toy wkey) [(addr_of other_key, n, c)] (Some 10) None (Some legacy_coins) sized_opts wallet0.
Proof.
  destruct (poor_ordinary n c) as (O1 & O2 & O3 & O4). split; [exact O1|]. split; [|split; [exact O3|exact O4]].
  intros us s1 f w (-> & _) F. rewrite (@rate_given _ _ closed_world 10 f w _ ltac:(lia) F). lia.
Qed.
Example C111_send_case : exists s', @send toy _ _ closed_world (Single wkey) one_out (Some 10) None (Some legacy_coins) sized_opts wallet0 = (Raise ConnectionError, s') /\
  exists h s1, @create_transaction toy _ _ closed_world (Single wkey) one_out (Some 10) None (Some legacy_coins) sized_opts wallet0 = (Ok h, s1).
Proof.
  destruct (ends_with (@send toy _ _ closed_world (Single wkey) one_out (Some 10) None (Some legacy_coins) sized_opts wallet0) ConnectionError) as (s' & E); [vm_compute; reflexivity|].
  exists s'. split; [exact E|]. destruct C43_single_hypotheses as (K & M & _).
  destruct (@C111_send toy toy_ok _ _ closed_world closed_random_ok toy_random_answers wkey _ _ _ _ _ _ _ _ K own_toy M (closed_ordinary _ _) E) as [Y|(h & s1 & C & _)].
  - exfalso. revert Y. apply (why_is_ordinary (WD := closed_world)); [lia|]. intros x c w w'. unfold closed_world, toy_world, w_convert. destruct (list_eqb c _); discriminate.
  - exists h, s1. exact C.
Qed.
Example C111_no_coins_case : exists s', @create_transaction toy _ _ closed_world (Single wkey) one_out None None None sized_opts wallet0 = (Raise ValueError, s') /\ wl_unspents s' = [].
Proof.
  assert (A : exists s1, @Available toy _ _ closed_world (Single wkey) None wallet0 [] s1 /\ wl_world s1 = []).
  { eexists. split; [unfold Available; vm_compute; reflexivity|reflexivity]. }
  destruct A as (s1 & A & WS).
  destruct (@C111_no_coins toy _ _ closed_world (Single wkey) one_out None None None sized_opts wallet0 s1 2 [] [25000] [] A own_toy) as (s' & E & _ & _ & U).
  - rewrite WS. apply F_recommended; [auto|reflexivity].
  - econstructor; [reflexivity|constructor].
  - exists s'. split; [exact E|exact U].
Qed.
Definition old_key : PrivateKey := @make_key toy Main (repeat 7 32) false.
Example C111_no_change_address_case : exists s', @create_transaction toy _ _ toy_world (Single old_key) one_out (Some 10) None (Some segwit_coins) sized_opts wallet0 = (Raise TypeError, s').
Proof.
  destruct (@C111_no_change_address toy _ _ toy_world old_key one_out (Some 10) None (hd (wcoin [] "" 0 0 0) segwit_coins) [] sized_opts wallet0 [] 10 (wl_world wallet0) [25000] (wl_world wallet0)) as (s' & E & _).
  - reflexivity.
  - vm_compute. reflexivity.
  - left. reflexivity.
  - apply F_given. lia.
  - econstructor; [reflexivity|constructor].
  - reflexivity.
  - intros a [<-|[]].
    assert (G : match @address_to_scriptpubkey toy (addr_of other_key) with Ok (Some _) => True | _ => False end) by (vm_compute; exact I).
    change (exists script, @address_to_scriptpubkey toy (addr_of other_key) = Ok (Some script)).
    revert G. generalize (@address_to_scriptpubkey toy (addr_of other_key)). intros [[sc|]|] G; try contradiction. exists sc. reflexivity.
  - exists s'. exact E.
Qed.

Print Assumptions C111_why.
Print Assumptions C111_multi.
Print Assumptions C111_send.
Print Assumptions C111_insufficient.
Print Assumptions C111_no_coins.
Print Assumptions C111_no_change_address.
