(** C111: what it takes for prepare_transaction to succeed. *)
From Coq Require Import String Permutation.
From Verif Require Import F_address F_base58 F_select F_signtx F_wallet F_utf8 F_spend F_cosigntx F_build F_redeem F_wire P_outputs P_select P_sign P_multi P_wallet P_create P_send P_size.
From Verif Require Import S_Consensus P_consensus P_live P_utils P_again P_offline P_why P_whyprep X_world.

Section WithCrypto.
Context {CR : Crypto} {W Amt : Type} {WD : World W Amt}.

(** Nothing is prepared unless there are coins, a fee, and an amount in satoshis
    for every payment, in the order of the outputs; unless every destination is
    an address of the network that can be paid; and unless the change address
    can be paid on some network.  If there is change, it is on this network
    too.  Outputs are written in the order given, and the change last. *)
Theorem C111_prepared cls address outputs fee leftover unspents o l0 w d st :
  prepare_transaction cls address outputs fee leftover unspents o (l0, w) = (Ok d, st) ->
  exists us w1 f w2 sats w3 change texts ds, Coins cls address unspents w us w1 /\ us <> [] /\ FeeRate fee w1 f w2 /\ Converted w2 outputs sats w3 /\
    Forall (PayableTo cls) (dests outputs) /\ (exists script, address_to_scriptpubkey (Back leftover address) = Ok (Some script)) /\
    (change = [] \/ exists m, 0 < m /\ change = [(Back leftover address, m)] /\ get_version (Back leftover address) = Ok cls) /\
    message_outputs (o_message o) (o_message_is_hex o) = Ok (map (fun t => (Addr t, 0)) texts) /\
    d = Json ds (combine (dests outputs) sats ++ change ++ map (fun t => (t, 0)) texts).
Proof.
  intros E. unfold prepare_transaction in E. unfold ibind at 1 in E.
  match type of E with context [match ?x with pair _ _ => _ end] => destruct x as [[us|e0] [l1 w1]] eqn:EA end; [|discriminate].
  assert (A : Coins cls address unspents w us w1).
  { unfold Coins. destruct unspents as [[|u r]|]; cbn [nonempty] in EA; unfold zoom, iret in EA; cbn [snd fst] in EA;
      [destruct (w_unspent cls address w) as [q w']; congruence|injection EA as <- <- <-; auto|destruct (w_unspent cls address w) as [q w']; congruence]. }
  clear EA. unfold ibind at 1, iget at 1 in E. unfold ibind at 1, iput at 1 in E. unfold ibind at 1, zoom at 1 in E. cbn [snd fst] in E.
  destruct (fee_or_cached fee w1) as [[f|e0] w2] eqn:Ef; [|discriminate]. apply fee_rate in Ef.
  assert (B : match nonempty leftover with Some l => l | None => address end = Back leftover address) by (destruct leftover as [[|c r]|]; reflexivity).
  rewrite B in E. unfold ibind at 1 in E. cbv beta iota in E. cbn [fst snd] in E.
  match type of E with context [sanitize_tx_data ?a ?b ?c ?d ?e0 ?f0 ?s] => change (sanitize_tx_data a b c d e0 f0 s) with (sanitize_tx_data outputs f (Some (Back leftover address)) 0 cls o (us, w2)) in E end.
  destruct (sanitize_tx_data outputs f (Some (Back leftover address)) 0 cls o (us, w2)) as [[[sel outs]|x] [us' w']] eqn:Es; [|discriminate].
  unfold ibind, ilift, iret in E. cbv beta iota in E. destruct (mapM json_dest outs) as [js|x] eqn:J; [|discriminate].
  assert (D : d = Json (map to_dict sel) js) by congruence. clear E. apply json_dest_inv in J.
  destruct (sanitize_ok _ _ _ _ _ _ _ _ _ _ _ _ Es) as (sats & w3 & msgs & sizes & back & script & rnd & sel0 & rem & C & L & NE & Em & Fs & [= <-] & Eb & _ & _ & _ & _ & V & Eo).
  set (change := if rem >? 0 then [(Back leftover address, rem)] else []) in *.
  destruct (dests_combine outputs sats (Converted_length _ _ _ _ C)) as [Lf Ls].
  assert (M : exists texts, msgs = map (fun t => (Addr t, 0)) texts).
  { assert (Z0 : forall p, In p msgs -> snd p = 0 /\ exists t, fst p = Addr t).
    { intros p I. split.
      - clear -Em I. unfold message_outputs in Em. destruct (o_message o) as [m|]; [|injection Em as <-; contradiction]. destruct (msg_empty m); [injection Em as <-; contradiction|].
        match type of Em with (bind ?c _) = _ => destruct c as [ch|]; cbn [bind] in Em; [|discriminate] end. injection Em as <-. apply in_map_iff in I as (q & <- & _). reflexivity.
      - assert (IO' : In p outs) by (rewrite Eo; apply in_app_iff; right; exact I). rewrite <- J in IO'. apply in_map_iff in IO' as ((t & n) & <- & _). exists t. reflexivity. }
    clear -Z0. induction msgs as [|[d n] msgs IH]; [exists []; reflexivity|]. destruct (Z0 _ (or_introl eq_refl)) as (Q & t & Q'). cbn in Q, Q'. subst.
    destruct IH as (ts & ->); [intros p I; apply Z0; right; exact I|]. exists (t :: ts). reflexivity. }
  destruct M as (texts & ->).
  exists us, w1, f, w2, sats, w3, change, texts, (map to_dict sel). split; [exact A|]. split; [exact NE|]. split; [exact Ef|]. split; [exact C|]. split.
  { apply Forall_forall. intros a I. split.
    - assert (IP : exists n, In (a, n) (combine (dests outputs) sats)) by (rewrite <- Lf in I; apply in_map_iff in I as ((b & n) & Q & I); cbn in Q; subst b; eauto).
      destruct IP as (n & IP). rewrite Forall_forall in V. apply (V (a, n)). apply in_app_iff. left. exact IP.
    - clear -Fs I. induction Fs as [|b q ds qs (sc & Q & _) F IH]; [contradiction|]. destruct I as [<-|I]; [eauto|auto]. }
  split; [exists script; exact Eb|]. split.
  { unfold change in *. destruct (Z.gtb_spec rem 0) as [P|P]; [right|left; reflexivity]. exists rem. split; [lia|]. split; [reflexivity|].
    apply Forall_app in V as [_ V]. apply Forall_cons_iff in V as [V _]. exact V. }
  split; [exact Em|]. rewrite D. f_equal.
  assert (INJ : forall l l' : list (pystr * Z), map (fun '(a, n) => (Addr a, n)) l = map (fun '(a, n) => (Addr a, n)) l' -> l = l').
  { induction l as [|[a n] l IH]; intros [|[b m] l'] Q; try discriminate; [reflexivity|]. cbn in Q. injection Q as -> -> Q. f_equal. auto. }
  apply INJ. rewrite J, Eo, !map_app, map_map, <- app_assoc. reflexivity.
Qed.
End WithCrypto.

(** A payment with change: both outputs are written, the change last. *)
Example C111_prepared_case :
  match prepare_toy [(addr_of other_key, 20000, str "satoshi")] sized_opts with
  | (Ok (Json us outs), _) => length us = 2%nat /\ map fst outs = [addr_of other_key; addr_of wkey] /\ hd 0 (map snd outs) = 20000
  | _ => False
  end.
Proof. vm_compute. auto. Qed.
Print Assumptions C111_prepared.
