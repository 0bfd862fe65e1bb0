(** C111: what the errors of sign_transaction mean. *)
From Coq Require Import String Permutation.
From Verif Require Import F_address F_base58 F_select F_signtx F_wallet P_outputs P_select P_sign P_multi P_wallet P_create P_send P_size P_unspent P_offline.
From Verif Require Import P_consensus P_live P_utils P_again P_why P_whyprep M_loads S_Prepared S_Json S_Cli P_json P_loads P_prepared X_world.

Section WithCrypto.
Context {CR : Crypto} {W Amt : Type} {WD : World W Amt}.
Definition payments (outs : list (pystr * Z)) : list (dest * Z) := map (fun '(a, n) => (Addr a, n)) outs.

(** Prepared data with coins in it: no service is asked, nothing in the wallet
    changes, and every error of signing, whatever it was, becomes ValueError. *)
Theorem C111_sign_prepared sg us outs (s : @Wallet W) : us <> [] ->
  sign_transaction sg (Json us outs) None s =
  (match create_new_transaction sg (map from_dict us) (payments outs) with Ok h => Ok h | Raise _ => Raise ValueError end, s).
Proof.
  intros NE. unfold sign_transaction, payments. unfold itry, ilift at 1.
  destruct (create_new_transaction sg (map from_dict us) _) as [h|e]; [reflexivity|]. destruct us as [|u us]; [contradiction|]. reflexivity.
Qed.
(** For the text as it is written.  Coins given beside it: it is refused, however good it is. *)
Theorem C111_sign_written {FL : Floats} sg floats us outs unspents (s : @Wallet W) :
  Forall WritableDict us -> Forall (fun o => Forall scalar (fst o)) outs -> length floats = length us -> us <> [] -> unspents <> Some [] ->
  sign_text sg (prepared_text floats us outs) unspents s =
  (match unspents with
   | Some _ => Raise ValueError
   | None => match create_new_transaction sg (map from_dict us) (payments outs) with Ok h => Ok h | Raise _ => Raise ValueError end
   end, s).
Proof.
  intros HU HO L NE NX. rewrite C103_sign by auto. destruct unspents as [[|u l]|]; [contradiction|reflexivity|]. apply C111_sign_prepared. exact NE.
Qed.
(** A transaction in hexadecimal with its coins: no service is asked; the error
    is that of reading the text or of signing. *)
Theorem C111_sign_text sg text u l (s : @Wallet W) :
  exists r, sign_transaction sg (Text text) (Some (u :: l)) s = (r, s) /\
  match deserialize_hex text with Raise e => r = Raise e | Ok tx => r = sign_tx sg tx (u :: l) end.
Proof.
  exists (match deserialize_hex text with Raise e => Raise e | Ok tx => sign_tx sg tx (u :: l) end).
  split; [|destruct (deserialize_hex text); reflexivity]. unfold sign_transaction. cbn [nonempty]. unfold ibind, iret, ilift. destruct (deserialize_hex text); reflexivity.
Qed.
(** Without coins they are asked for first: an error of the services comes before all others. *)
Theorem C111_sign_unreachable sg text unspents (s : @Wallet W) e s' : unspents = None \/ unspents = Some [] -> get_unspents sg s = (Raise e, s') ->
  sign_transaction sg (Text text) unspents s = (Raise e, s').
Proof. intros [-> | ->] E; unfold sign_transaction; cbn [nonempty]; unfold ibind; rewrite E; reflexivity. Qed.

(** The meaning of the ValueError of the signer of prepared data: whoever
    creates the transaction directly gets an error too, and that one says why. *)
Theorem C111_sign_means (RO : RandomOk WD) sg address outputs fee leftover us o s c d x s2 e s3 :
  us <> [] -> Forall Reachable us -> NoMessage o -> SameChange sg us leftover address ->
  prepare_transaction (sg_version sg) address outputs fee leftover (Some us) o (c, wl_world s) = (Ok d, x) ->
  sign_transaction sg d None s2 = (Raise e, s3) ->
  e = ValueError /\ s3 = s2 /\ exists e' s', create_transaction sg outputs fee leftover (Some us) o s = (Raise e', s').
Proof.
  intros NE R NM SC P S.
  assert (D : exists ds js, d = Json ds js /\ ds <> []).
  { rewrite prepare_given in P by auto. destruct (fee_or_cached fee (wl_world s)) as [[f|] w1]; [|discriminate].
    destruct (sanitize_tx_data _ _ _ _ _ _ _) as [[[sel outs]|] [us' w2]] eqn:Es; [|discriminate]. destruct (mapM json_dest outs) as [js|]; [|discriminate].
    injection P as <- _. exists (map to_dict sel), js. split; [reflexivity|].
    destruct (C44_inputs RO _ _ _ _ _ _ _ _ _ _ _ _ Es) as (taken & unused & _ & NT & _ & Q). intros Z. apply map_eq_nil in Z. rewrite Z in Q.
    destruct (o_replace_by_fee o); [symmetry in Q; apply map_eq_nil in Q|]; congruence. }
  destruct D as (ds & js & -> & ND). rewrite C111_sign_prepared in S by exact ND.
  assert (EQ : e = ValueError /\ s3 = s2) by (destruct (create_new_transaction _ _ _); [discriminate|split; congruence]). split; [apply EQ|]. split; [apply EQ|].
  destruct (create_transaction sg outputs fee leftover (Some us) o s) as [[h|e'] s'] eqn:E; [exfalso|eauto].
  destruct (C51_offline RO sg address outputs fee leftover us o s h s' c NE R NM SC E) as (d' & us' & w' & P' & _ & _ & G).
  assert (d' = Json ds js) as -> by congruence. rewrite <- (C111_sign_prepared sg ds js s2 ND) in S. rewrite (G s2) in S. discriminate.
Qed.
End WithCrypto.

(** A payment of nothing is prepared, the signer says ValueError, and creating it directly TypeError. *)
Definition nothing : list (pystr * Z * pystr) := [(addr_of other_key, 0, str "satoshi")].
Definition prepare_nothing := @prepare_transaction toy _ _ toy_world Main (segwit_addr_of wkey) nothing (Some 10) None (Some wcoins) (plain true) ([], wl_world wallet0).
Definition create_nothing := @create_transaction toy _ _ toy_world (Single wkey) nothing (Some 10) None (Some wcoins) (plain true) wallet0.
Example C111_sign_means_case : Forall Reachable wcoins /\ NoMessage (plain true) /\ @SameChange toy (Single wkey) wcoins None (segwit_addr_of wkey) /\
  match prepare_nothing with
  | (Ok d, _) => match @sign_transaction toy _ _ toy_world (Single wkey) d None wallet0 with (Raise e, _) => e = ValueError | _ => False end
  | _ => False
  end /\
  match create_nothing with (Raise e, _) => e = TypeError | _ => False end.
Proof. split; [repeat constructor|]. split; [exact I|]. split; [right; vm_compute; reflexivity|]. split; vm_compute; reflexivity. Qed.

(** The text of [half] with coins beside it, and a text that is no transaction. *)
Example C111_sign_written_case : @sign_text any_floats toy _ _ toy_world (Single wkey) half_text (Some wcoins) wallet0 = (Raise ValueError, wallet0).
Proof.
  destruct C103_sign_hypotheses as (HU & HO). rewrite <- C103_text.
  rewrite (@C111_sign_written toy _ _ toy_world any_floats (Single wkey) [false] [half] _ (Some wcoins) wallet0 HU HO eq_refl); [reflexivity|discriminate|discriminate].
Qed.
Example C111_sign_text_case : match @sign_transaction toy _ _ toy_world (Single wkey) (Text (str "no")) (Some wcoins) wallet0 with (Raise e, s) => e = ValueError /\ s = wallet0 | _ => False end.
Proof. vm_compute. auto. Qed.

Print Assumptions C111_sign_prepared.
Print Assumptions C111_sign_written.
Print Assumptions C111_sign_text.
Print Assumptions C111_sign_unreachable.
Print Assumptions C111_sign_means.
