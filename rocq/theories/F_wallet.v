(** Lemmas about the wallet model. *)
From Coq Require Import String.
From Verif Require Export M_wallet F_base F_utils F_tx F_select.

(** ** State and exceptions *)
Lemma ibind_ok {S A B} (m : IO S A) (f : A -> IO S B) s b s' :
  ibind m f s = (Ok b, s') -> exists a s1, m s = (Ok a, s1) /\ f a s1 = (Ok b, s').
Proof. unfold ibind. destruct (m s) as [[a|e] s1]; [eauto|discriminate]. Qed.
Lemma ilift_ok {S A} (r : result A) (s : S) a s' : ilift r s = (Ok a, s') -> r = Ok a /\ s' = s.
Proof. unfold ilift. intros E. injection E as -> ->. auto. Qed.
Lemma iret_ok {S A} (x : A) (s : S) a s' : iret x s = (Ok a, s') -> x = a /\ s' = s.
Proof. unfold iret. intros E. injection E as -> ->. auto. Qed.
Lemma ibind_run {S A B} (m : IO S A) (f : A -> IO S B) s a s1 : m s = (Ok a, s1) -> ibind m f s = f a s1.
Proof. unfold ibind. intros ->. reflexivity. Qed.
Lemma ibind_raise {S A B} (m : IO S A) (f : A -> IO S B) s e s1 : m s = (Raise e, s1) -> ibind m f s = (Raise e, s1).
Proof. unfold ibind. intros ->. reflexivity. Qed.

Section WithCrypto.
Context {CR : Crypto} {W Amt : Type} {WD : World W Amt}.

(** The conversions of the amounts, one after the other. *)
Inductive Converted : W -> list (pystr * Amt * pystr) -> list Z -> W -> Prop :=
| conv_nil w : Converted w [] [] w
| conv_cons w a x c outs n ns w1 w2 :
    w_convert x c w = (Ok n, w1) -> Converted w1 outs ns w2 -> Converted w ((a, x, c) :: outs) (n :: ns) w2.

Definition dests (outs : list (pystr * Amt * pystr)) : list pystr := map (fun o => fst (fst o)) outs.

Lemma convert_loop outs : forall (us : list Unspent) w l us' w',
  imapM (fun '(a, amount, currency) =>
           ibind (zoom snd (fun w (s : list Unspent * W) => (fst s, w)) (w_convert amount currency)) (fun sat => iret (a, sat))) outs (us, w)
    = (Ok l, (us', w')) ->
  exists ns, Converted w outs ns w' /\ us' = us /\ length ns = length outs /\ l = combine (dests outs) ns.
Proof.
  induction outs as [|((a & x) & c) outs IH]; intros us w l us' w' E.
  - apply iret_ok in E as (<- & E). injection E as -> ->. exists []. repeat split. constructor.
  - cbn [imapM] in E. apply ibind_ok in E as (b & s1 & E1 & E2). apply ibind_ok in E1 as (n & s0 & E0 & E1).
    unfold zoom in E0. cbn [snd fst] in E0. destruct (w_convert x c w) as [[n'|] w1] eqn:Ec; [|discriminate]. injection E0 as <- <-.
    apply iret_ok in E1 as (<- & ->). apply ibind_ok in E2 as (bs & s2 & E2 & E3). apply iret_ok in E3 as (<- & E3). subst s2.
    destruct (IH _ _ _ _ _ E2) as (ns & H1 & -> & H3 & ->). exists (n' :: ns). split; [econstructor; eauto|].
    cbn. split; auto.
Qed.

Lemma convert_loop_state (outs : list (pystr * Amt * pystr)) : forall (us : list Unspent) w r us' w',
  imapM (fun '(a, amount, currency) =>
           ibind (zoom snd (fun w (s : list Unspent * W) => (fst s, w)) (w_convert amount currency)) (fun sat => iret (a, sat))) outs (us, w)
    = (r, (us', w')) -> us' = us.
Proof.
  induction outs as [|((a & x) & c) outs IH]; intros us w r us' w' E.
  - cbn in E. unfold iret in E. congruence.
  - cbn [imapM] in E. unfold ibind at 1 2, zoom in E. cbn [fst snd] in E.
    destruct (w_convert x c w) as [[n|e] w1] eqn:Ec; [|congruence]. unfold iret at 1 in E.
    unfold ibind at 1 in E. destruct (imapM _ outs (us, w1)) as [[l|e] [us2 w2]] eqn:E2; [|injection E as _ <- _; eapply IH; eauto].
    unfold iret in E. injection E as _ <- _. eapply IH; eauto.
Qed.

Lemma sizes_ok (l : list (pystr * Z)) sizes : mapM (fun '(a, _) => output_size_of (Some a)) l = Ok sizes ->
  Forall2 (fun a s => exists script, address_to_scriptpubkey a = Ok (Some script) /\ s = zlen script + 9) (map fst l) sizes.
Proof.
  revert sizes. induction l as [|(a & n) l IH]; intros sizes E; cbn [mapM] in E; [injection E as <-; constructor|].
  apply bind_ok in E as (s & E1 & E). apply bind_ok in E as (r & E2 & E). injection E as <-. constructor; auto.
  unfold output_size_of in E1. apply bind_ok in E1 as (sc & E1 & E3). injection E3 as <-. unfold some_script in E1.
  apply bind_ok in E1 as ([b|] & E1 & E3); [|discriminate]. injection E3 as <-. eauto.
Qed.

Lemma size_of_some l s : output_size_of l = Ok s ->
  exists a script, l = Some a /\ address_to_scriptpubkey a = Ok (Some script) /\ s = zlen script + 9.
Proof.
  destruct l as [a|]; [|discriminate]. cbn. intros E. apply bind_ok in E as (sc & E1 & E3). injection E3 as <-. unfold some_script in E1.
  apply bind_ok in E1 as ([b|] & E1 & E3); [|discriminate]. injection E3 as <-. exists a, b. auto.
Qed.

Lemma check_version_ok v l : check_version v l = Ok tt <-> Forall (fun o => get_version (fst o) = Ok v) l.
Proof.
  induction l as [|(a & n) l IH]; cbn; [split; auto|]. rewrite Forall_cons_iff, <- IH. cbn [fst]. unfold bind.
  destruct (get_version a) as [v'|e]; [|split; [discriminate|intros [? _]; discriminate]].
  destruct v, v'; cbn; split; try tauto; try discriminate; intros [? _]; discriminate.
Qed.

(** Everything that a successful call did. *)
Lemma sanitize_ok us w outs fee leftover min_change v o sel outs' us' w' :
  sanitize_tx_data outs fee leftover min_change v o (us, w) = (Ok (sel, outs'), (us', w')) ->
  exists sats w1 msgs sizes back script rnd sel0 rem,
    Converted w outs sats w1 /\ length sats = length outs /\ us <> [] /\
    message_outputs (o_message o) (o_message_is_hex o) = Ok msgs /\
    Forall2 (fun a s => exists script, address_to_scriptpubkey a = Ok (Some script) /\ s = zlen script + 9) (dests outs) sizes /\
    leftover = Some back /\ address_to_scriptpubkey back = Ok (Some script) /\
    w_random w1 = (Ok rnd, w') /\
    select_coins (r_bits rnd) (r_shuffle rnd) (zsum sats) fee
      (sizes ++ [zlen msgs * 89; zlen script + 9]) min_change (o_absolute_fee o) (o_combine o) us = Ok (sel0, rem) /\
    sel = (if o_replace_by_fee o then map opt_in_for_RBF sel0 else sel0) /\ us' = sel /\
    let pay := combine (dests outs) sats ++ (if rem >? 0 then [(back, rem)] else []) in
    Forall (fun p => get_version (fst p) = Ok v) pay /\
    outs' = map (fun '(a, n) => (Addr a, n)) pay ++ msgs.
Proof.
  unfold sanitize_tx_data. intros E. apply ibind_ok in E as (l & [us1 w1] & E1 & E).
  destruct (convert_loop _ _ _ _ _ _ E1) as (sats & C & -> & L & ->). clear E1.
  apply ibind_ok in E as (s & s1 & E1 & E). unfold iget in E1. injection E1 as <- <-. cbn [fst] in E.
  destruct us as [|u0 us0] eqn:Eu; [discriminate|]. rewrite <- Eu in *. assert (NE : us <> []) by (rewrite Eu; discriminate). clear Eu u0 us0.
  apply ibind_ok in E as (msgs & s1 & E1 & E). apply ilift_ok in E1 as (Em & ->).
  apply ibind_ok in E as (sizes & s1 & E1 & E). apply ilift_ok in E1 as (Es & ->).
  apply ibind_ok in E as (cs & s1 & E1 & E). apply ilift_ok in E1 as (Ec & ->).
  apply ibind_ok in E as (rnd & s1 & E1 & E). unfold zoom in E1. cbn [fst snd] in E1.
  destruct (w_random w1) as [r w2] eqn:Er. injection E1 as -> <-.
  apply ibind_ok in E as ([sel0 rem] & s1 & E1 & E). apply ilift_ok in E1 as (Esel & ->).
  apply ibind_ok in E as (s & s1 & E1 & E). unfold iget in E1. injection E1 as <- <-.
  apply ibind_ok in E as ([] & s1 & E1 & E). unfold iput in E1. injection E1 as <-. cbn [snd] in E.
  apply ibind_ok in E as (pay & s1 & E1 & E).
  destruct (size_of_some _ _ Ec) as (back & script & -> & Eb & ->).
  assert (s1 = (if o_replace_by_fee o then map opt_in_for_RBF sel0 else sel0, w2) /\
    pay = combine (dests outs) sats ++ (if rem >? 0 then [(back, rem)] else [])) as [-> ->].
  { destruct (rem >? 0); apply iret_ok in E1 as (<- & ->); split; auto. rewrite app_nil_r. auto. }
  apply ibind_ok in E as ([] & s1 & E2 & E). apply ilift_ok in E2 as (Ev & ->).
  apply iret_ok in E as (E & E2). injection E as <- <-. injection E2 as -> ->.
  exists sats, w1, msgs, sizes, back, script, rnd, sel0, rem.
  assert (Lc : map fst (combine (dests outs) sats) = dests outs /\ map snd (combine (dests outs) sats) = sats).
  { assert (length (dests outs) = length sats) as Hl by (unfold dests; rewrite map_length; auto). clear -Hl. revert sats Hl.
    induction (dests outs); intros [|n sats] H; try discriminate; cbn; auto. injection H as H. destruct (IHl sats H) as [-> ->]. auto. }
  destruct Lc as [Lf Ls]. apply sizes_ok in Es. rewrite Lf in Es. rewrite Ls in Esel. apply check_version_ok in Ev.
  change (Z.of_nat MESSAGE_LIMIT + 9) with 89 in Esel. cbn [app] in Esel. repeat (split; auto).
Qed.

Lemma convert_run l n (us0 : list Unspent) w0 w0' : Converted w0 l n w0' ->
    imapM (fun '(a, amount, currency) =>
           ibind (zoom snd (fun w (s : list Unspent * W) => (fst s, w)) (w_convert amount currency)) (fun sat => iret (a, sat))) l (us0, w0)
    = (Ok (combine (dests l) n), (us0, w0')).
Proof.
  intros C. induction C as [w|w a x c outs n ns w1 w2 H C IH]; [reflexivity|]. cbn [imapM].
  erewrite ibind_run. 2:{ erewrite ibind_run. 2:{ unfold zoom. cbn [fst snd]. rewrite H. reflexivity. } reflexivity. }
  cbn [fst]. erewrite ibind_run by exact IH. reflexivity.
Qed.
Lemma dests_combine (outs : list (pystr * Amt * pystr)) (sats : list Z) : length sats = length outs ->
  map fst (combine (dests outs) sats) = dests outs /\ map snd (combine (dests outs) sats) = sats.
Proof.
  intros Hl. assert (Hl' : length (dests outs) = length sats) by (unfold dests; rewrite map_length; auto). clear Hl. revert sats Hl'.
  induction (dests outs); intros [|n sats] H; try discriminate; cbn; auto. injection H as H. destruct (IHl sats H) as [-> ->]. auto.
Qed.
Lemma Converted_length w outs sats w' : Converted w outs sats w' -> length sats = length outs.
Proof. induction 1; cbn; auto. Qed.

(** A call that gets as far as the selection. *)
Lemma sanitize_run us w outs fee back min_change v o sats w1 rnd w2 msgs sizes script sel0 rem :
  us <> [] -> Converted w outs sats w1 -> w_random w1 = (Ok rnd, w2) ->
  message_outputs (o_message o) (o_message_is_hex o) = Ok msgs ->
  Forall2 (fun a s => exists script, address_to_scriptpubkey a = Ok (Some script) /\ s = zlen script + 9) (dests outs) sizes ->
  address_to_scriptpubkey back = Ok (Some script) ->
  select_coins (r_bits rnd) (r_shuffle rnd) (total sats) fee (sizes ++ [89 * zlen msgs; zlen script + 9])
     min_change (o_absolute_fee o) (o_combine o) us = Ok (sel0, rem) ->
  let pay := combine (dests outs) sats ++ (if rem >? 0 then [(back, rem)] else []) in
  let sel := if o_replace_by_fee o then map opt_in_for_RBF sel0 else sel0 in
  sanitize_tx_data outs fee (Some back) min_change v o (us, w) =
    (bind (check_version v pay) (fun _ => Ok (sel, map (fun '(a, n) => (Addr a, n)) pay ++ msgs)), (sel, w2)).
Proof.
  intros NE C Er Em Fs Eb Es pay sel. destruct (dests_combine outs sats (Converted_length _ _ _ _ C)) as [Lf Ls].
  unfold sanitize_tx_data. erewrite ibind_run by (apply convert_run; exact C). erewrite ibind_run by reflexivity. cbn [fst].
  destruct us as [|u0 us0] eqn:Eu; [contradiction|]. rewrite <- Eu in *.
  rewrite Em. erewrite ibind_run by reflexivity.
  assert (Ms : mapM (fun '(a, _) => output_size_of (Some a)) (combine (dests outs) sats) = Ok sizes).
  { rewrite <- Lf in Fs. revert Fs. generalize (combine (dests outs) sats). clear. intros l. revert sizes.
    induction l as [|(a & n) l IH]; intros sz F; inversion F as [|x y xs ys (sc & Ea & ->) F' E1 E2]; subst; auto.
    assert (output_size_of (Some a) = Ok (zlen sc + 9)) as Q by (cbn; rewrite Ea; reflexivity). cbn [mapM]. rewrite Q. cbn [bind].
    rewrite (IH _ F'). reflexivity. }
  rewrite Ms. erewrite ibind_run by reflexivity.
  cbn [output_size_of]. rewrite Eb. cbn [some_script bind]. erewrite ibind_run by reflexivity.
  erewrite ibind_run. 2:{ unfold zoom. cbn [fst snd]. rewrite Er. reflexivity. } cbn [fst].
  rewrite Ls, zsum_total. change (Z.of_nat MESSAGE_LIMIT + 9) with 89. rewrite (Z.mul_comm (zlen msgs)). cbn [app].
  rewrite Es. erewrite ibind_run by reflexivity. cbv beta iota zeta. erewrite ibind_run by reflexivity. erewrite ibind_run by reflexivity. cbn [snd].
  fold sel. assert (P : (if rem >? 0 then iret (combine (dests outs) sats ++ [(back, rem)]) else iret (combine (dests outs) sats)) = @iret (list Unspent * W) _ pay).
  { unfold pay. destruct (rem >? 0); [auto|rewrite app_nil_r; auto]. }
  rewrite P. erewrite ibind_run by reflexivity. unfold ibind, ilift, iret. destruct (check_version v pay); reflexivity.
Qed.

(** State after any call: the caller's list is untouched or holds the selection. *)
Lemma sanitize_state us w outs fee leftover min_change v o r us' w' :
  sanitize_tx_data outs fee leftover min_change v o (us, w) = (r, (us', w')) ->
  (us' = us /\ exists e, r = Raise e) \/
  (exists sats w1 sizes rnd sel0 rem,
     Converted w outs sats w1 /\ w_random w1 = (Ok rnd, w') /\
     select_coins (r_bits rnd) (r_shuffle rnd) (zsum sats) fee sizes min_change (o_absolute_fee o) (o_combine o) us = Ok (sel0, rem) /\
     us' = (if o_replace_by_fee o then map opt_in_for_RBF sel0 else sel0)).
Proof.
  intros E. unfold sanitize_tx_data in E. unfold ibind at 1 in E.
  destruct (imapM _ outs (us, w)) as [[l|e] [us1 w1]] eqn:E1.
  2:{ left. injection E as <- <- <-. split; [eapply convert_loop_state; eauto|eauto]. }
  destruct (convert_loop _ _ _ _ _ _ E1) as (sats & C & -> & L & ->). clear E1.
  unfold ibind at 1, iget in E. cbn [fst] in E.
  destruct us as [|u0 us0] eqn:Eu. { left. injection E as <- <- <-. eauto. } rewrite <- Eu in *. clear Eu u0 us0.
  unfold ibind at 1, ilift in E. destruct (message_outputs _ _) as [msgs|e]; [|left; injection E as <- <- <-; eauto].
  unfold ibind at 1 in E. destruct (mapM _ _) as [sizes|e]; [|left; injection E as <- <- <-; eauto].
  unfold ibind at 1 in E. destruct (output_size_of leftover) as [cs|e] eqn:Ec; [|left; injection E as <- <- <-; eauto].
  unfold ibind at 1, zoom in E. cbn [fst snd] in E. destruct (w_random w1) as [[rnd|e] w2] eqn:Er; [|left; injection E as <- <- <-; eauto].
  unfold ibind at 1 in E. destruct (select_coins _ _ _ _ _ _ _ _ _) as [[sel0 rem]|e] eqn:Es; [|left; injection E as <- <- <-; eauto].
  right. assert (Ls : map snd (combine (dests outs) sats) = sats).
  { assert (length (dests outs) = length sats) as Hl by (unfold dests; rewrite map_length; auto). clear -Hl. revert sats Hl.
    induction (dests outs); intros [|n sats] H; try discriminate; cbn; auto. injection H as H. rewrite (IHl sats H). auto. }
  rewrite Ls in Es. exists sats, w1, (sizes ++ [zlen msgs * (Z.of_nat MESSAGE_LIMIT + 9)] ++ [cs]), rnd, sel0, rem. split; auto.
  cbn [fst] in Es.
  unfold ibind at 1, iput in E. cbn [snd] in E. unfold ibind at 1 in E.
  destruct (size_of_some _ _ Ec) as (back & script & -> & Eb & ->).
  destruct (rem >? 0); unfold iret at 1 in E; unfold ibind at 1 in E;
    (destruct (check_version v _); [unfold iret in E|]; injection E as <- <- <-; repeat (split; auto)).
Qed.
End WithCrypto.
