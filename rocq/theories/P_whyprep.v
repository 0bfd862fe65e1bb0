(** C111: what the errors of prepare_transaction mean. *)
From Coq Require Import String Permutation.
From Verif Require Import F_address F_base58 F_select F_signtx F_wallet F_utf8 F_spend F_cosigntx F_build F_redeem F_wire P_outputs P_select P_sign P_multi P_wallet P_create P_send P_size.
From Verif Require Import S_Consensus P_consensus P_live P_utils P_again P_why X_world.

Section WithCrypto.
Context {CR : Crypto} {W Amt : Type} {WD : World W Amt}.

(** The coins that are worked with: those given, or what the services say of the address *)
Definition Coins (cls : net) (address : pystr) (unspents : option (list Unspent)) (w : W) (us : list Unspent) (w1 : W) : Prop :=
  match unspents with
  | Some (u :: r) => us = u :: r /\ w1 = w
  | _ => w_unspent cls address w = (Ok us, w1)
  end.
(** Where the change goes *)
Definition Back (leftover : option pystr) (address : pystr) : pystr := match leftover with Some (c :: r) => c :: r | _ => address end.
(** Addresses of the network that outputs can be made for *)
Definition PayableTo (cls : net) (a : pystr) : Prop := get_version a = Ok cls /\ exists script, address_to_scriptpubkey a = Ok (Some script).

(** The reasons, each with what it may raise *)
Inductive WhyPrepare (cls : net) (address : pystr) (outputs : list (pystr * Amt * pystr)) (fee : option Z) (leftover : option pystr)
    (unspents : option (list Unspent)) (o : Options) (w : W) : exc -> Prop :=
| p_fetch e w1 : unspents = None \/ unspents = Some [] -> w_unspent cls address w = (Raise e, w1) ->
    WhyPrepare cls address outputs fee leftover unspents o w e
| p_fee us w1 e w2 : Coins cls address unspents w us w1 -> fee = None \/ fee = Some 0 -> w_fee w1 = (Raise e, w2) ->
    WhyPrepare cls address outputs fee leftover unspents o w e
| p_amount us w1 f w2 e : Coins cls address unspents w us w1 -> FeeRate fee w1 f w2 -> CannotConvert w2 outputs e ->
    WhyPrepare cls address outputs fee leftover unspents o w e
| p_none w1 : Coins cls address unspents w [] w1 -> WhyPrepare cls address outputs fee leftover unspents o w ValueError
| p_message e : BadMessage o e -> WhyPrepare cls address outputs fee leftover unspents o w e
| p_address a e : In a (Back leftover address :: dests outputs) -> ~ PayableTo cls a -> e = ValueError \/ e = TypeError ->
    WhyPrepare cls address outputs fee leftover unspents o w e
| p_funds us w1 f w2 : Coins cls address unspents w us w1 -> us <> [] -> FeeRate fee w1 f w2 -> NotEnough w2 outputs f o (Back leftover address) us ->
    WhyPrepare cls address outputs fee leftover unspents o w InsufficientFunds
| p_bytes d : message_outputs (o_message o) (o_message_is_hex o) = Ok d -> Exists (fun p => exists b, fst p = Data b) d ->
    WhyPrepare cls address outputs fee leftover unspents o w TypeError.

Lemma json_exn l e : mapM json_dest l = Raise e -> e = TypeError /\ exists p b, In p l /\ fst p = Data b.
Proof.
  induction l as [|[[a|b] n] l IH]; cbn [mapM json_dest bind]; [discriminate| |].
  - destruct (mapM json_dest l); cbn [bind]; [discriminate|]. intros [= <-]. destruct (IH eq_refl) as (-> & p & b & I & Q). split; auto. exists p, b. split; [right|]; auto.
  - intros [= <-]. split; auto. exists (Data b, n), b. split; [left|]; auto.
Qed.

(** Whatever prepare_transaction raises has one of these reasons: there is no
    other error, for any coins, amounts, addresses and services. *)
Theorem C111_prepare (RO : RandomOk WD) (RA : forall w, exists rnd w', w_random w = (Ok rnd, w'))
    cls address outputs fee leftover unspents o l0 w e st :
  prepare_transaction cls address outputs fee leftover unspents o (l0, w) = (Raise e, st) ->
  WhyPrepare cls address outputs fee leftover unspents o w e.
Proof.
  intros E. unfold prepare_transaction in E. unfold ibind at 1 in E.
  match type of E with context [match ?x with pair _ _ => _ end] => destruct x as [[us|e0] [l1 w1]] eqn:EA end.
  2:{ injection E as -> <-. apply (p_fetch _ _ _ _ _ _ _ _ e w1); destruct unspents as [[|u r]|]; auto; cbn [nonempty] in EA; unfold zoom, iret in EA; cbn [snd fst] in EA;
        try discriminate; destruct (w_unspent cls address w) as [q w']; congruence. }
  assert (A : Coins cls address unspents w us w1).
  { unfold Coins. destruct unspents as [[|u r]|]; cbn [nonempty] in EA; unfold zoom, iret in EA; cbn [snd fst] in EA;
      [destruct (w_unspent cls address w) as [q w']; congruence|injection EA as <- <- <-; auto|destruct (w_unspent cls address w) as [q w']; congruence]. }
  clear EA. unfold ibind at 1, iget at 1 in E. unfold ibind at 1, iput at 1 in E. unfold ibind at 1, zoom at 1 in E. cbn [snd fst] in E.
  destruct (fee_or_cached fee w1) as [[f|e0] w2] eqn:Ef.
  2:{ injection E as -> <-. apply (p_fee _ _ _ _ _ _ _ _ us w1 e w2 A); unfold fee_or_cached in Ef; destruct fee as [g|]; auto; destruct (Z.eqb_spec g 0) as [->|N]; auto; discriminate. }
  apply fee_rate in Ef.
  assert (B : match nonempty leftover with Some l => l | None => address end = Back leftover address) by (destruct leftover as [[|c r]|]; reflexivity).
  rewrite B in E. unfold ibind at 1 in E. cbv beta iota in E. cbn [fst snd] in E.
  match type of E with context [sanitize_tx_data ?a ?b ?c ?d ?e0 ?f0 ?s] => change (sanitize_tx_data a b c d e0 f0 s) with (sanitize_tx_data outputs f (Some (Back leftover address)) 0 cls o (us, w2)) in E end.
  destruct (sanitize_tx_data outputs f (Some (Back leftover address)) 0 cls o (us, w2)) as [[[sel outs]|x] [us' w']] eqn:Es.
  - unfold ibind, ilift, iret in E. cbv beta iota in E. destruct (mapM json_dest outs) as [js|x] eqn:J; [discriminate|]. assert (x = e) as -> by congruence.
    destruct (json_exn _ _ J) as (-> & p & b & I & Q).
    destruct (C44_outputs _ _ _ _ _ _ _ _ _ _ _ _ Es) as (sats & w3 & change & msgs & bk & C & [= <-] & Eo & Ls & Hc & _ & Em).
    apply (p_bytes _ _ _ _ _ _ _ _ msgs Em). apply Exists_exists. exists p. split; [|exists b; exact Q].
    rewrite Eo in I. apply in_app_iff in I as [I|I]; [|apply in_app_iff in I as [I|I]; auto].
    + destruct p as [d n]. cbn in Q. subst d. apply in_combine_l in I. apply in_map_iff in I as (a & Z & _). discriminate.
    + destruct Hc as [->|(m & _ & ->)]; [contradiction|]. destruct I as [<-|[]]. discriminate.
  - assert (x = e) as -> by congruence.
    destruct (sanitize_fails RO RA _ _ _ _ _ _ _ _ _ Es) as [H|[(-> & ->)|[H|[(a & I & NS & X)|[(NE & -> & H)|(-> & a & I & H)]]]]].
    + eapply p_amount; eauto.
    + eapply p_none; eauto.
    + apply p_message. apply message_raises. exact H.
    + apply (p_address _ _ _ _ _ _ _ _ a); auto. intros (_ & script & Q). exact (NS _ Q).
    + eapply p_funds; eauto.
    + apply (p_address _ _ _ _ _ _ _ _ a); auto. intros (Q & _). exact (H Q).
Qed.

(** A message given as text, or as bytes with message_is_hex, is never
    prepared: JSON has no bytes. *)
Theorem C111_prepare_no_message cls address outputs fee leftover unspents o l0 w :
  (exists c s, o_message o = Some (MText (c :: s)) /\ o_message_is_hex o = false) \/ (exists c b, o_message o = Some (MBytes (c :: b))) ->
  exists e st, prepare_transaction cls address outputs fee leftover unspents o (l0, w) = (Raise e, st).
Proof.
  intros M. destruct (prepare_transaction cls address outputs fee leftover unspents o (l0, w)) as [[t|e] st] eqn:E; [exfalso|eauto].
  unfold prepare_transaction in E. unfold ibind at 1 in E.
  match type of E with context [match ?x with pair _ _ => _ end] => destruct x as [[us|e0] [l1 w1]] end; [|discriminate].
  unfold ibind at 1, iget at 1 in E. unfold ibind at 1, iput at 1 in E. unfold ibind at 1, zoom at 1 in E. cbn [snd fst] in E.
  destruct (fee_or_cached fee w1) as [[f|e0] w2]; [|discriminate]. unfold ibind at 1 in E. cbv beta iota in E. cbn [fst snd] in E.
  match type of E with context [sanitize_tx_data ?a ?b ?c ?d ?e0 ?f0 ?s] => destruct (sanitize_tx_data a b c d e0 f0 s) as [[[sel outs]|x] [us' w']] eqn:Es end; [|discriminate].
  unfold ibind, ilift, iret in E. cbv beta iota in E. destruct (mapM json_dest outs) as [js|x] eqn:J; [|discriminate].
  destruct (C44_outputs _ _ _ _ _ _ _ _ _ _ _ _ Es) as (sats & w3 & change & msgs & bk & C & _ & Eo & Ls & Hc & _ & Em).
  assert (D : exists b, In (Data b, 0) msgs).
  { unfold message_outputs in Em. destruct M as [(c & s & Q & H)|(c & b & Q)]; rewrite Q in Em; cbn [msg_empty] in Em.
    - rewrite H in Em. destruct (utf8 (c :: s)) as [b|] eqn:U; cbn [bind] in Em; [|discriminate].
      assert (NB : b <> []).
      { unfold utf8 in U. cbn [mapM] in U. destruct (utf8_char c) as [x|] eqn:UC; cbn [bind rmap] in U; [|discriminate]. destruct (mapM utf8_char s); cbn [bind rmap] in U; [|discriminate].
        injection U as <-. unfold utf8_char in UC. destruct (c <? 128); [|destruct (c <? 2048); [|destruct (_ && _); [discriminate|destruct (c <? 65536)]]]; injection UC as <-; discriminate. }
      destruct b as [|y b]; [contradiction|]. injection Em as <-. eexists. left. reflexivity.
    - destruct (o_message_is_hex o); cbn [bind] in Em; [|discriminate]. injection Em as <-. eexists. left. reflexivity. }
  destruct D as (b & I). assert (IO' : In (Data b, 0) outs) by (rewrite Eo; apply in_app_iff; right; apply in_app_iff; right; exact I).
  clear -J IO'. revert js J. induction outs as [|[d n] outs IH]; intros js J; [contradiction|]. cbn [mapM] in J.
  destruct IO' as [[= -> ->]|I]; [discriminate|]. destruct (json_dest (d, n)); cbn [bind] in J; [|discriminate]. destruct (mapM json_dest outs) as [r|]; cbn [bind] in J; [|discriminate]. exact (IH I _ eq_refl).
Qed.
End WithCrypto.

Definition prepare_toy (outs : list (pystr * Z * pystr)) (o : Options) := @prepare_transaction toy _ _ toy_world Main (addr_of wkey) outs (Some 10) None (Some legacy_coins) o ([], []).
Definition noting (m : msg) : Options := mkOptions true (Some m) false false false.
(** 50000 satoshis in the coins, nine million asked for. *)
Example C111_prepare_case : exists st, prepare_toy poor_outs sized_opts = (Raise InsufficientFunds, st) /\
  @WhyPrepare toy _ _ toy_world Main (addr_of wkey) poor_outs (Some 10) None (Some legacy_coins) sized_opts [] InsufficientFunds.
Proof.
  destruct (ends_with (prepare_toy poor_outs sized_opts) InsufficientFunds) as (st & E); [vm_compute; reflexivity|]. exists st. split; [exact E|]. unfold prepare_toy in E.
  exact (@C111_prepare toy _ _ toy_world toy_random_ok toy_random_answers _ _ _ _ _ _ _ _ _ _ _ E).
Qed.
(** A message; and a payment of nothing, which is prepared all the same and refused by the signer only (C47). *)
Example C111_prepare_message_case :
  match prepare_toy [(addr_of other_key, 20000, str "satoshi")] (noting (MText (str "hi"))) with (Raise e, _) => e = TypeError | _ => False end /\
  match prepare_toy [(addr_of other_key, 20000, str "satoshi")] (noting (MText [])) with (Ok (Json us outs), _) => length us = 2%nat | _ => False end /\
  match prepare_toy [(addr_of other_key, 0, str "satoshi")] sized_opts with (Ok (Json us outs), _) => In (addr_of other_key, 0) outs | _ => False end.
Proof. split; [vm_compute; reflexivity|]. split; [vm_compute; reflexivity|]. vm_compute. auto. Qed.
Print Assumptions C111_prepare.
Print Assumptions C111_prepare_no_message.
