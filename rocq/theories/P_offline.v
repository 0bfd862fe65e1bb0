(** C51: preparing a transaction on one machine and signing it on another. *)
From Coq Require Import String Permutation.
From Verif Require Import F_wallet F_utf8 F_spend F_cosigntx X_world F_build P_outputs P_select P_unspent P_sign P_multi P_wallet P_create P_state.

(** No message was given. *)
Definition NoMessage (o : Options) : Prop := match o_message o with None => True | Some (MText s) => s = [] | Some (MBytes b) => b = [] end.

Section WithWorld.
Context {CR : Crypto} {W Amt : Type} {WD : World W Amt}.

Lemma json_dest_addr outs : Forall (fun o => exists a, fst o = Addr a) outs -> exists js, mapM json_dest outs = Ok js /\ map (fun '(a, n) => (Addr a, n)) js = outs.
Proof.
  induction 1 as [|(d & n) outs (a & Q) F (js & E & M)]; [exists []; auto|]. cbn in Q. subst d. exists ((a, n) :: js). cbn [mapM json_dest bind map]. rewrite E, M. auto.
Qed.
Lemma json_dest_inv outs js : mapM json_dest outs = Ok js -> map (fun '(a, n) => (Addr a, n)) js = outs.
Proof.
  revert js. induction outs as [|(d & n) outs IH]; intros js E; cbn [mapM] in E; [injection E as <-; auto|].
  apply bind_ok in E as (p & Ep & E). apply bind_ok in E as (ps & Es & E). injection E as <-. destruct d; [|discriminate]. injection Ep as <-. cbn [map]. rewrite (IH _ Es). auto.
Qed.

Lemma no_message o msgs : NoMessage o -> message_outputs (o_message o) (o_message_is_hex o) = Ok msgs -> msgs = [].
Proof. unfold NoMessage, message_outputs. destruct (o_message o) as [[t|b]|]; intros N E; try subst; cbn in E; congruence. Qed.

Lemma reach_sel (RO : RandomOk WD) us w outputs f back v o sel outs w2 : Forall Reachable us ->
  sanitize_tx_data outputs f back 0 v o (us, w) = (Ok (sel, outs), (sel, w2)) -> map from_dict (map to_dict sel) = sel.
Proof.
  intros R E. destruct (C44_inputs RO _ _ _ _ _ _ _ _ _ _ _ _ E) as (taken & unused & Pm & _ & _ & Hs).
  assert (FT : Forall Reachable taken) by (eapply Permutation_Forall in R; [|apply Permutation_sym; exact Pm]; apply Forall_app in R as [R _]; auto).
  rewrite map_map. rewrite <- (map_id sel) at 2. apply map_ext_in. intros u Hu. apply C52_dict_roundtrip.
  subst sel. rewrite Forall_forall in FT. destruct (o_replace_by_fee o); [|auto]. apply in_map_iff in Hu as (v' & <- & Hu). constructor. auto.
Qed.

(** The steps of prepare_transaction on coins given by the caller. *)
Lemma prepare_given cls address outputs fee leftover us o c w : us <> [] ->
  prepare_transaction cls address outputs fee leftover (Some us) o (c, w) =
  match fee_or_cached fee w with
  | (Raise e, w1) => (Raise e, (us, w1))
  | (Ok f, w1) =>
      match sanitize_tx_data outputs f (Some (match nonempty leftover with Some l => l | None => address end)) 0 cls o (us, w1) with
      | (Raise e, s) => (Raise e, s)
      | (Ok (sel, outs), s) => match mapM json_dest outs with Ok js => (Ok (Json (map to_dict sel) js), s) | Raise e => (Raise e, s) end
      end
  end.
Proof.
  intros NE. destruct us as [|u r]; [contradiction|]. unfold prepare_transaction. cbn [nonempty]. unfold ibind at 1, iret at 1, ibind at 1, iget at 1, ibind at 1, iput at 1. cbn [snd].
  unfold ibind at 1, zoom at 1. cbn [snd]. destruct (fee_or_cached fee w) as ([f|e] & w1); [|reflexivity]. cbn [fst].
  unfold ibind at 1. destruct (sanitize_tx_data _ _ _ _ _ _ _) as ([(sel & outs)|] & s); [|reflexivity]. unfold ibind, ilift, iret. destruct (mapM json_dest outs); reflexivity.
Qed.

(** The change goes to the same address in both cases. *)
Definition SameChange (sg : signer) (us : list Unspent) (leftover : option pystr) (address : pystr) : Prop :=
  nonempty leftover <> None \/ if existsb u_is_segwit us then sg_segwit_address sg = Ok (Some address) else sg_address sg = Ok address.

(** Online, then offline: the same string, whatever the state of the signing machine,
    which contacts nobody. *)
Theorem C51_offline (RO : RandomOk WD) sg address outputs fee leftover us o s h s' c :
  us <> [] -> Forall Reachable us -> NoMessage o -> SameChange sg us leftover address ->
  create_transaction sg outputs fee leftover (Some us) o s = (Ok h, s') ->
  exists d us' w', prepare_transaction (sg_version sg) address outputs fee leftover (Some us) o (c, wl_world s) = (Ok d, (us', w')) /\
    us' = wl_caller s' /\ w' = wl_world s' /\
    forall s2, sign_transaction sg d None s2 = (Ok h, s2).
Proof.
  intros NE R NM SC E. destruct (create_steps _ _ _ _ _ _ _ _ _ E) as (us2 & s2 & back & f & w1 & sel & outs & w2 & A2 & Ef & Es & En & Hs & Hb).
  assert (A : us2 = us /\ s2 = set_caller us s /\ given (Some us) = true) by (destruct us; [contradiction|]; cbn in *; intuition congruence).
  destruct A as (-> & -> & G). rewrite G in Hs. cbn [wl_world set_caller] in Ef. apply fee_rate in Ef.
  assert (B : Some (match nonempty leftover with Some l => l | None => address end) = back).
  { unfold SameChange in SC. destruct leftover as [[|x r]|]; cbn [nonempty] in *; [|congruence|]; (destruct SC as [SC|SC]; [congruence|]);
      (destruct (existsb u_is_segwit us) in *; [rewrite SC in Hb; injection Hb as <-; reflexivity|destruct Hb as (a & Ha & ->); rewrite SC in Ha; injection Ha as <-; reflexivity]). }
  rewrite prepare_given, Ef, B, Es by auto.
  destruct (C44_outputs _ _ _ _ _ _ _ _ _ _ _ _ Es) as (sats & wx & change & msgs & bk & _ & _ & Eo & _ & Hc & _ & Em).
  assert (msgs = []) as ->. { eapply no_message; eauto. }
  destruct (json_dest_addr outs) as (js & Ej & Mj).
  { rewrite Eo, app_nil_r. apply Forall_app. split.
    - apply Forall_forall. intros (d & n) I. apply in_combine_l in I. apply in_map_iff in I as (a & <- & _). exists a. auto.
    - destruct Hc as [->|(n & _ & ->)]; repeat constructor. exists bk. auto. }
  rewrite Ej. do 3 eexists. split; [reflexivity|]. subst s'. cbn. split; auto. split; auto.
  intros s2. cbn [sign_transaction]. unfold itry, ilift. rewrite (reach_sel RO _ _ _ _ _ _ _ _ _ _ R Es), Mj, En. auto.
Qed.

(** Offline, then online. *)
Theorem C51_online (RO : RandomOk WD) sg address outputs fee leftover us o s c d x s2 h s3 :
  us <> [] -> Forall Reachable us -> SameChange sg us leftover address ->
  (exists a, (if existsb u_is_segwit us then sg_segwit_address sg else rmap Some (sg_address sg)) = Ok a) ->
  prepare_transaction (sg_version sg) address outputs fee leftover (Some us) o (c, wl_world s) = (Ok d, x) ->
  sign_transaction sg d None s2 = (Ok h, s3) ->
  exists s', create_transaction sg outputs fee leftover (Some us) o s = (Ok h, s') /\ wl_world s' = snd x /\ s3 = s2.
Proof.
  intros NE R SC (ra & Hra) E S. rewrite prepare_given in E by auto. destruct (fee_or_cached fee (wl_world s)) as ([f|] & w1) eqn:Ef; [|discriminate].
  destruct (sanitize_tx_data _ _ _ _ _ _ _) as ([(sel & outs)|] & (us' & w2)) eqn:Es; [|discriminate].
  destruct (mapM json_dest outs) as [js|] eqn:Ej; [|discriminate]. injection E as <- <-.
  assert (us' = sel) as ->.
  { destruct (C49_caller_list _ _ _ _ _ _ _ _ _ _ _ Es) as [[_ (e & Q)]|(? & ? & ? & ? & ? & ? & _ & _ & _ & _ & Q)]; [discriminate|]. rewrite (Q _ _ eq_refl). reflexivity. }
  cbn [sign_transaction] in S. unfold itry, ilift in S. rewrite (reach_sel RO _ _ _ _ _ _ _ _ _ _ R Es), (json_dest_inv _ _ Ej) in S.
  assert (B : (match nonempty leftover with Some l => Some l | None => ra end) = Some (match nonempty leftover with Some l => l | None => address end)).
  { unfold SameChange in SC. destruct leftover as [[|z r]|]; cbn [nonempty] in *; [|congruence|]; (destruct SC as [SC|SC]; [congruence|]);
      (destruct (existsb u_is_segwit us) in *; rewrite SC in Hra; injection Hra as <-; reflexivity). }
  unfold create_transaction. destruct us as [|u0 r0] eqn:Us; [contradiction|]. rewrite <- Us in *. replace (nonempty (Some us)) with (Some us) by (rewrite Us; auto).
  unfold ibind at 1, ibind at 1, modify at 1, iget at 1, ibind at 1, iput at 1, iret at 1. rewrite Hra. unfold ibind at 1, ilift at 1.
  unfold ibind at 1, world at 1, zoom at 1. cbn [wl_world set_caller]. rewrite Ef.
  unfold ibind at 1, run_sanitize, zoom. cbn [wl_caller wl_world set_world set_caller]. match goal with |- context [sanitize_tx_data _ _ ?b _ _ _] => replace b with (Some (match nonempty leftover with Some l => l | None => address end)) by (symmetry; exact B) end. rewrite Es. cbn [fst snd].
  destruct (create_new_transaction sg sel outs) as [h'|e] eqn:En.
  - injection S as <- <-. unfold ilift. eexists. split; [reflexivity|]. split; auto.
  - exfalso. unfold ibind, ilift, iret in S. destruct sel as [|u1 r1]; cbn [nonempty] in S; [|discriminate].
    destruct (get_unspents sg s2) as ([|] & ?); discriminate.
Qed.

(** With a message (as bytes, or as text) the data cannot be stored. *)
Theorem C51_message_refused cls address outputs fee leftover us o c w d x m b : us <> [] ->
  o_message o = Some m -> MsgBytes m (o_message_is_hex o) b -> b <> [] ->
  prepare_transaction cls address outputs fee leftover (Some us) o (c, w) <> (Ok d, x).
Proof.
  intros NE Hm MB Hb E. rewrite prepare_given in E by auto. destruct (fee_or_cached fee w) as ([f|] & w1) eqn:Ef; [|discriminate].
  destruct (sanitize_tx_data _ _ _ _ _ _ _) as ([(sel & outs)|] & (us' & w2)) eqn:Es; [|discriminate].
  destruct (mapM json_dest outs) as [js|] eqn:Ej; [|discriminate]. apply json_dest_inv in Ej.
  destruct (C44_outputs _ _ _ _ _ _ _ _ _ _ _ _ Es) as (sats & wx & change & msgs & bk & _ & _ & Eo & _ & _ & _ & Em).
  rewrite Hm in Em. destruct (C46_payloads m _ b MB) as (chunks & E' & Cc & _). rewrite E' in Em. injection Em as <-.
  destruct chunks as [|ch chunks]; [cbn in Cc; congruence|].
  assert (I : In (Data ch, 0) outs) by (rewrite Eo; apply in_or_app; right; apply in_or_app; right; left; auto).
  rewrite <- Ej in I. apply in_map_iff in I as ((a & n) & Q & _). discriminate.
Qed.
End WithWorld.

(** Coins of a segwit address that are not marked as such -- as when
    prepare_transaction fetches them itself, the services giving every coin the
    type p2pkh -- are signed as if they were legacy coins: the last item that the
    script pushes is the public key, not the redeem script that the coin asks for,
    and there is no witness. *)
Theorem C51_unmarked_segwit_refuted {CR : Crypto} (HO : HashOk CR) k us x t h j xi u :
  KeyOk k -> RepObj x t -> no_wits t -> (forall xi u, In xi (t_ins x) -> Match (OwnedBy (k_public_key k)) us xi u -> u_is_segwit u = false) ->
  sign_tx (Single k) t us = Ok h -> nth_error (t_ins x) j = Some xi -> Match (OwnedBy (k_public_key k)) us xi u ->
  u_script u = bytes_to_hex (p2sh_script ([0x00; 0x14] ++ hash160 (k_public_key k))) ->
  hash160 (k_public_key k) <> hash160 ([0x00; 0x14] ++ hash160 (k_public_key k)) ->
  exists x' b xi', h = bytes_to_hex b /\ EncLegacy x' b /\ nth_error (t_ins x') j = Some xi' /\ i_wit xi' = [] /\
    exists first last, ParsesTo (i_script xi') [Push first; Push last] /\ hash160 last <> hash160 ([0x00; 0x14] ++ hash160 (k_public_key k)).
Proof.
  intros K R NW NS E Hj M Hs Hne. assert (NE : t_ins x <> []) by (intros Q; rewrite Q in Hj; destruct j; discriminate).
  destruct (C31_spends HO k us x t h K R NE) as (x' & b & [Hb _] & _ & _ & _ & EN & F); auto.
  { right. left. auto. }
  destruct (F j xi Hj) as (xi' & Hj' & _ & Q). specialize (Q u M). destruct Q as (msg & sig & _ & _ & _ & Q).
  rewrite (NS xi u) in Q; [|eapply nth_error_In; eauto|auto]. destruct Q as [[Q1 _] Q2].
  exists x', b, xi'. split; auto. split; [apply EN; auto|]. split; auto. split; auto. exists sig, (k_public_key k). auto.
Qed.
Print Assumptions C51_offline.
Print Assumptions C51_online.
Print Assumptions C51_message_refused.
Print Assumptions C51_unmarked_segwit_refuted.

(** ** The hypotheses are met: change to a given address; then signing elsewhere. *)
Definition plain (rbf : bool) : Options := mkOptions true None false false rbf.
Example C51_hypotheses : Forall Reachable wcoins /\ NoMessage (plain true) /\
  @SameChange toy (Single wkey) wcoins None (segwit_addr_of wkey) /\
  exists h s', @create_transaction toy _ _ toy_world (Single wkey) (wouts other_key) None None (Some wcoins) (plain true) wallet0 = (Ok h, s').
Proof.
  split; [repeat constructor|]. split; [exact I|]. split; [right; vm_compute; reflexivity|]. apply is_ok. vm_compute. reflexivity.
Qed.
Example C51_message_hypotheses : MsgBytes (MText (str "hello")) false (str "hello") /\
  fst (@prepare_transaction toy _ _ toy_world Main (segwit_addr_of wkey) (wouts other_key) None None (Some wcoins) (wopts true false) ([], [])) = Raise TypeError.
Proof.
  split; [|vm_compute; reflexivity]. split; auto. apply utf8_sound; [|reflexivity]. repeat (apply Forall_cons; [unfold is_char; cbn; lia|]). apply Forall_nil.
Qed.
(** A coin of the segwit address with the type that the services give it. *)
Definition unmarked : list Unspent := [wcoin (segwit_addr_of wkey) "p2pkh" 3 1 40000].
Example C51_unmarked : exists h s', @create_transaction toy _ _ toy_world (Single wkey) (wouts other_key) None (Some (addr_of wkey)) (Some unmarked) (plain false) wallet0 = (Ok h, s') /\
  map u_script unmarked = [bytes_to_hex (@p2sh_script toy ([0x00; 0x14] ++ @hash160 toy (k_public_key wkey)))] /\
  @hash160 toy (k_public_key wkey) <> @hash160 toy ([0x00; 0x14] ++ @hash160 toy (k_public_key wkey)).
Proof.
  assert (G : exists h s', @create_transaction toy _ _ toy_world (Single wkey) (wouts other_key) None (Some (addr_of wkey)) (Some unmarked) (plain false) wallet0 = (Ok h, s'))
    by (apply is_ok; vm_compute; reflexivity).
  destruct G as (h & s' & E). exists h, s'. split; [exact E|]. split; [vm_compute; reflexivity|]. vm_compute. discriminate.
Qed.
