(** C103: prepared transactions as texts, signed elsewhere. *)
From Coq Require Import String Permutation.
From Verif Require Import F_base F_utils F_hex F_decimal F_wallet X_world M_loads S_Hex S_Decimal S_Cli S_Json S_Prepared P_cli P_json P_loads P_outputs P_select P_unspent P_sign P_wallet P_create P_state P_offline.
From Coq Require Import List ZArith Lia.
Import ListNotations.
Open Scope Z_scope.

Section WithWorld.
Context {FL : Floats} {CR : Crypto} {W Amt : Type} {WD : World W Amt}.

Lemma brace_refused r : deserialize_hex (123 :: r) = Raise ValueError.
Proof. unfold deserialize_hex. cbn [forallb]. change (hex_val 123) with (@None Z). cbn [andb]. rewrite (hex_to_bytes_bad _ 123); [reflexivity|left; reflexivity|reflexivity|reflexivity]. Qed.
(** The text made from coins and outputs is signed as these coins and outputs, in
    every state of the wallet and with the same errors. *)
Theorem C103_sign sg floats us outs x s : Forall WritableDict us -> Forall (fun o => Forall scalar (fst o)) outs -> length floats = length us ->
  sign_text sg (prepared_text floats us outs) x s = sign_transaction sg (Json us outs) x s.
Proof.
  intros HU HO L. unfold sign_text. rewrite prepared_loads by auto. unfold prepared_json at 1.
  assert (B : exists r, prepared_text floats us outs = 123 :: r) by (unfold prepared_text; cbn [compact]; eauto). destruct B as (r & ->). rewrite brace_refused.
  destruct x as [x|]; [reflexivity|]. cbn [sign_transaction].
  assert (J1 : jget "unspents" (prepared_json floats us outs) = Ok (JList (map udict_json (combine floats us)))) by reflexivity.
  assert (J2 : jget "outputs" (prepared_json floats us outs) = Ok (JList (map (fun o => JList [JStr (fst o); JInt (snd o)]) outs))) by reflexivity.
  fold (prepared_json floats us outs). rewrite J1. cbn [bind jlist]. rewrite read_udicts by auto. rewrite J2. cbn [bind jlist]. rewrite read_outputs. reflexivity.
Qed.
(** Any text that does not begin with a brace is taken for a transaction. *)
Lemma number_kind s v r : read_number s = Some (v, r) -> match v with JInt _ | JFloat _ _ => True | _ => False end.
Proof.
  rewrite read_number_eq. destruct (minus s) as (neg & s1). destruct (unsigned s1) as (i & s2). destruct i as [|c i]; [discriminate|]. destruct (fraction s2) as (f & s3). destruct (exponent s3) as (x & s4).
  assert (G : forall a b c d, match float_of a b c d with JInt _ | JFloat _ _ => True | _ => False end).
  { clear. intros a b c d. unfold float_of. destruct (rounded _) as (r & e). destruct a, d; auto. destruct (zlen b <=? 15); auto. repeat match goal with |- context [if ?b then _ else _] => destruct b end; auto. }
  destruct f, x; intros E; injection E as <- _; first [exact I|apply G].
Qed.
Lemma value_kind k c r v r' : c <> 123 -> value k (c :: r) = Some (v, r') -> match v with JObj _ => False | _ => True end.
Proof.
  intros N. destruct k as [|k]; [discriminate|]. rewrite value_S. destruct (c =? 34).
  - destruct (read_string r) as [(x & y)|]; [|discriminate]. intros E. injection E as <- _. auto.
  - destruct (Z.eqb_spec c 123); [contradiction|]. destruct (c =? 91).
    + destruct (skip r) as [|d r2]; [discriminate|]. destruct (d =? 93); [intros E; injection E as <- _; auto|]. destruct (elements k (d :: r2)) as [(l & y)|]; [|discriminate]. intros E. injection E as <- _. auto.
    + destruct (find _ constants) as [(t & j)|] eqn:F.
      * apply find_some in F as [F _]. intros E. injection E as <- _. unfold constants in F. cbn [In] in F. repeat (destruct F as [F|F]; [injection F as _ <-; exact I|]). destruct F.
      * intros E. apply number_kind in E. destruct v; auto; contradiction.
Qed.
Theorem C103_transaction sg w c u x s : Blank w -> ~ blank c -> c <> 123 ->
  sign_text sg (w ++ c :: u) x s = sign_transaction sg (Text (w ++ c :: u)) x s.
Proof.
  intros B NB N. unfold sign_text. assert (G : forall j, loads (w ++ c :: u) = Ok j -> exists e, jget "unspents" j = Raise e).
  { intros j. unfold loads, parse. rewrite skip_blank by (auto; exact NB). destruct (value _ (c :: u)) as [(v & r)|] eqn:V; [|discriminate]. apply value_kind in V; auto.
    destruct (skip r); [|discriminate]. intros E. injection E as <-. destruct v; try contradiction; cbn; eauto. }
  destruct (loads (w ++ c :: u)) as [j|] eqn:E; [|destruct x; reflexivity]. destruct (G j eq_refl) as (e & ->). destruct x; reflexivity.
Qed.

(** ** Preparing, writing, reading and signing *)
Definition WritableOutputs {A B} (outputs : list (pystr * A * B)) (leftover : option pystr) (address : pystr) : Prop :=
  Forall (fun o => Forall scalar (fst (fst o))) outputs /\ match leftover with Some l => Forall scalar l | None => True end /\ Forall scalar address.
Lemma type_scalar t : Forall scalar (type_name t).
Proof. destruct t; apply ascii_scalar; reflexivity. Qed.
Lemma writable_dict u : WritableCoin u -> WritableDict (to_dict u).
Proof. intros (A & B & C). repeat split; auto; apply type_scalar || apply C. Qed.
Lemma prepared_writable (RO : RandomOk WD) cls address outputs fee leftover us o c w ds outs x : us <> [] -> Forall WritableCoin us -> NoMessage o -> WritableOutputs outputs leftover address ->
  prepare_transaction cls address outputs fee leftover (Some us) o (c, w) = (Ok (Json ds outs), x) ->
  Forall WritableDict ds /\ Forall (fun o => Forall scalar (fst o)) outs.
Proof.
  intros NE WC NM (WO & WL & WA) E. rewrite prepare_given in E by auto. destruct (fee_or_cached fee w) as ([f|] & w1) eqn:Ef; [|discriminate].
  destruct (sanitize_tx_data _ _ _ _ _ _ _) as ([(sel & outs')|] & (us' & w2)) eqn:Es; [|discriminate].
  destruct (mapM json_dest outs') as [js|] eqn:Ej; [|discriminate]. injection E as <- <- <-. apply json_dest_inv in Ej.
  assert (us' = sel) as ->.
  { destruct (C49_caller_list _ _ _ _ _ _ _ _ _ _ _ Es) as [[_ (e & Q)]|(? & ? & ? & ? & ? & ? & _ & _ & _ & _ & Q)]; [discriminate|]. rewrite (Q _ _ eq_refl). reflexivity. }
  split.
  - apply forall_map. destruct (C44_inputs RO _ _ _ _ _ _ _ _ _ _ _ _ Es) as (taken & unused & Pm & _ & _ & Hs).
    assert (FT : Forall WritableCoin taken) by (eapply Permutation_Forall in WC; [|apply Permutation_sym; exact Pm]; apply Forall_app in WC as [WC _]; auto).
    apply Forall_forall. intros u I. apply writable_dict. rewrite Forall_forall in FT. subst sel. destruct (o_replace_by_fee o); [|auto].
    apply in_map_iff in I as (v & <- & I). specialize (FT _ I). unfold WritableCoin, opt_in_for_RBF in *. destruct (u_sequence v >? 4294967293); exact FT.
  - destruct (C44_outputs _ _ _ _ _ _ _ _ _ _ _ _ Es) as (sats & wx & change & msgs & bk & _ & Hl & Eo & _ & Hc & _ & Em).
    apply Forall_forall. intros (a & n) I. cbn [fst]. assert (I2 : In (Addr a, n) outs') by (rewrite <- Ej; apply in_map_iff; exists (a, n); auto).
    rewrite (no_message _ _ NM Em), app_nil_r in Eo. rewrite Eo, in_app_iff in I2. destruct I2 as [I2|I2].
    + apply in_combine_l in I2. apply in_map_iff in I2 as (b & Q & I2). injection Q as <-. unfold dests in I2. apply in_map_iff in I2 as (y & <- & I2). rewrite Forall_forall in WO. specialize (WO _ I2). destruct y as ((? & ?) & ?). exact WO.
    + destruct Hc as [->|(n' & _ & ->)]; [destruct I2|]. destruct I2 as [Q|[]]. injection Q as <- _. injection Hl as <-. destruct leftover as [[|z l]|]; cbn [nonempty]; auto.
Qed.

(** The text that prepare_transaction returns, signed anywhere, is the transaction that
    create_transaction makes. *)
Theorem C103_offline (RO : RandomOk WD) sg address outputs fee leftover us o s h s' c :
  us <> [] -> Forall Reachable us -> Forall WritableCoin us -> WritableOutputs outputs leftover address -> NoMessage o -> SameChange sg us leftover address ->
  create_transaction sg outputs fee leftover (Some us) o s = (Ok h, s') ->
  exists ds outs x, prepare_transaction (sg_version sg) address outputs fee leftover (Some us) o (c, wl_world s) = (Ok (Json ds outs), x) /\
    forall floats, length floats = length ds -> forall s2, sign_text sg (prepared_text floats ds outs) None s2 = (Ok h, s2).
Proof.
  intros NE R WC WO NM SC E. destruct (C51_offline RO _ _ _ _ _ _ _ _ _ _ c NE R NM SC E) as (d & us' & w' & EP & _ & _ & S).
  destruct d as [ds outs|t].
  - exists ds, outs, (us', w'). split; auto. intros floats L s2. destruct (prepared_writable RO _ _ _ _ _ _ _ _ _ _ _ _ NE WC NM WO EP) as [A B]. rewrite C103_sign by auto. apply S.
  - exfalso. rewrite prepare_given in EP by auto. destruct (fee_or_cached _ _) as ([|] & ?); [|discriminate]. destruct (sanitize_tx_data _ _ _ _ _ _ _) as ([(? & ?)|] & ?); [|discriminate]. destruct (mapM _ _); discriminate.
Qed.

(** ** The text is plain ASCII *)
Definition printable (c : Z) : Prop := 32 <= c <= 126.
Lemma hex_digit_printable n : 0 <= n < 16 -> printable (hex_digit n).
Proof. unfold printable, hex_digit. destruct (Z.ltb_spec n 10); lia. Qed.
Lemma hex_printable b : bytes_ok b = true -> Forall printable (bytes_to_hex b).
Proof.
  unfold bytes_ok. rewrite forallb_forall. intros H. apply Forall_forall. intros c I. unfold bytes_to_hex in I. apply in_flat_map in I as (x & I & J). apply H in I. unfold is_byte in I.
  assert (0 <= x < 256) by lia. pose proof (Z.mod_pos_bound x 16 ltac:(lia)). assert (0 <= x / 16 < 16) by (split; [apply Z.div_pos|apply Z.div_lt_upper_bound]; lia).
  destruct J as [<-|[<-|[]]]; apply hex_digit_printable; auto.
Qed.
Lemma u_printable n : 0 <= n < 65536 -> Forall printable (u_escape n).
Proof.
  intros R. unfold u_escape. pose proof (Z.mod_pos_bound n 256 ltac:(lia)). assert (0 <= n / 256 < 256) by (split; [apply Z.div_pos|apply Z.div_lt_upper_bound]; lia).
  repeat (apply Forall_cons; [unfold printable; lia|]). apply hex_printable. cbn. unfold is_byte. lia.
Qed.
Lemma json_str_printable s : Forall scalar s -> Forall printable (json_str s).
Proof.
  intros F. unfold json_str. apply Forall_cons; [unfold printable; lia|]. apply Forall_app. split; [|repeat constructor; unfold printable; lia].
  induction F as [|c s [R S] F IH]; cbn [flat_map]; [constructor|]. apply Forall_app. split; auto. clear IH F. unfold json_char.
  assert (L : forall a b, printable a -> printable b -> Forall printable [a; b]) by (intros; repeat constructor; auto; apply H || apply H0).
  destruct ((c =? 34) || (c =? 92)) eqn:E0; [apply L; unfold printable; lia|].
  repeat match goal with |- context [if ?c =? ?k then _ else _] => destruct (c =? k); [apply L; unfold printable; lia|] end.
  destruct ((32 <=? c) && (c <=? 126)) eqn:E1; [repeat constructor; unfold printable; lia|]. destruct (Z.ltb_spec c 65536); [apply u_printable; lia|].
  pose proof (Z.mod_pos_bound (c - 65536) 1024 ltac:(lia)). assert (0 <= (c - 65536) / 1024 < 1024) by (split; [apply Z.div_pos|apply Z.div_lt_upper_bound]; lia).
  apply Forall_app. split; apply u_printable; lia.
Qed.
Lemma join_printable l : Forall (Forall printable) l -> Forall printable (join l).
Proof.
  induction l as [|a l IH]; intros F; [constructor|]. inversion F as [|? ? A B]; subst. cbn [join]. destruct l as [|b l]; auto. apply Forall_app. split; auto. apply Forall_cons; [unfold printable; lia|auto].
Qed.
Lemma digits_printable n t : WritesInt n t -> Forall printable t.
Proof.
  intros (d & D & Sg & _). apply Digits_chars in D. assert (F : Forall printable d) by (rewrite forallb_forall in D; apply Forall_forall; intros c I; apply D in I; unfold is_digit in I; unfold printable; lia).
  destruct Sg as [[_ ->]|[_ ->]]; auto. apply Forall_cons; auto. unfold printable. lia.
Qed.
Lemma compact_printable j : Plain j -> Forall printable (compact j).
Proof.
  assert (K : forall s, forallb (fun c => (32 <=? c) && (c <=? 126)) s = true -> Forall printable s).
  { intros s H. rewrite forallb_forall in H. apply Forall_forall. intros c I. apply H in I. unfold printable. lia. }
  induction j as [|b|n|r d|s|l IH|fs IH] using json_ind'; intros P; inversion P; subst.
  - apply K. reflexivity.
  - apply K. destruct b; reflexivity.
  - apply (digits_printable n). apply writes_int.
  - cbn [compact dumps]. apply Forall_app. split; [eapply digits_printable; eauto|]. apply K. cbn [quarters In] in *. repeat match goal with H : _ \/ _ |- _ => destruct H as [H|H] | H : False |- _ => destruct H end; match goal with H : (_, _, _, _) = _ |- _ => injection H as <- <- <- <- end; reflexivity.
  - apply json_str_printable. auto.
  - cbn [compact]. apply Forall_cons; [unfold printable; lia|]. apply Forall_app. split; [|apply K; reflexivity]. apply join_printable, forall_map. rewrite Forall_forall in *. auto.
  - cbn [compact]. apply Forall_cons; [unfold printable; lia|]. apply Forall_app. split; [|apply K; reflexivity]. apply join_printable, forall_map. rewrite Forall_forall in *. intros p I. destruct (H0 p I) as [A B].
    apply Forall_app. split; [apply json_str_printable; auto|]. apply Forall_cons; [unfold printable; lia|]. apply IH; auto.
Qed.
Theorem C103_printable floats us outs : Forall WritableDict us -> Forall (fun o => Forall scalar (fst o)) outs -> Forall printable (prepared_text floats us outs).
Proof. intros A B. apply compact_printable. apply (prepared_plain floats); auto. Qed.
(** Different coins or outputs, different texts. *)
Theorem C103_injective floats us outs floats' us' outs' : Forall WritableDict us -> Forall (fun o => Forall scalar (fst o)) outs -> length floats = length us ->
  Forall WritableDict us' -> Forall (fun o => Forall scalar (fst o)) outs' -> length floats' = length us' ->
  prepared_text floats us outs = prepared_text floats' us' outs' -> us = us' /\ outs = outs'.
Proof.
  intros A B L A' B' L' E. assert (J : Ok (prepared_json floats us outs) = Ok (prepared_json floats' us' outs')) by (rewrite <- !prepared_loads by auto; rewrite E; reflexivity).
  injection J as J1 J2. pose proof (read_udicts floats us A L) as R1. pose proof (read_udicts floats' us' A' L') as R2. rewrite J1 in R1. split; [congruence|].
  pose proof (read_outputs outs) as O1. pose proof (read_outputs outs') as O2. rewrite J2 in O1. rewrite O1 in O2. injection O2 as O2.
  clear -O2. revert outs' O2. induction outs as [|(a & n) outs IH]; intros [|(a' & n') outs'] E; try discriminate; auto. cbn [map] in E. injection E as -> -> E. f_equal. auto.
Qed.
End WithWorld.
Print Assumptions C103_loads.
Print Assumptions C103_sign.
Print Assumptions C103_transaction.
Print Assumptions C103_offline.
Print Assumptions C103_printable.
Print Assumptions C103_injective.

(** ** The hypotheses are met *)
(** A text with blanks, escapes, floats and a nested list, and what it stands for; the
    instance of [Floats] is not asked. *)
Definition any_floats : Floats := {| rounded := fun s => (s, Fin false 0 0) |}.
Definition loose : pystr := str "{ ""vsize"" :131.5, ""outs"":[[""a\u00e9\ud83d\ude00"", -7 ], [ ] ,null],""n"": 0 } ".
Definition loose_value : json := JObj [(str "vsize", JFloat (str "131.5") (Fin false 1315 (-1)));
  (str "outs", JList [JList [JStr [97; 0xe9; 0x1f600]; JInt (-7)]; JList []; JNull]); (str "n", JInt 0)].
Example C103_loose : @loads any_floats loose = Ok loose_value.
Proof. vm_compute. reflexivity. Qed.
(** Of two fields with one name the last counts. *)
Example C103_repeated : @loads any_floats (str "{""a"":1,""b"":2,""a"":3}") = Ok (JObj [(str "a", JInt 3); (str "b", JInt 2)]).
Proof. vm_compute. reflexivity. Qed.
Definition small : json := JObj [(str "a", JList [JInt (-7); JBool true])].
Example C103_loads_hypotheses : JText small (str "{""a"": [-7 ,true]} ") /\ Unrepeated small.
Proof.
  split.
  - change (str "{""a"": [-7 ,true]} ") with ([] ++ (123 :: ([] ++ str """a""" ++ [] ++ 58 :: ([32] ++ (91 :: (([] ++ str "-7" ++ [32]) ++ 44 :: ([] ++ str "true" ++ [])) ++ [93]) ++ [])) ++ [125]) ++ [32]).
    assert (B0 : Blank []) by constructor. assert (B1 : Blank [32]) by (repeat constructor; cbn; auto).
    apply T_blank; auto. apply V_obj, M_one, M_field; auto.
    + exists (str "a"). split; [|reflexivity]. change (str "a") with (97 :: []) at 1. change (str "a") with ([97] ++ []). apply Js_cons; [|constructor]. apply J_plain; lia.
    + apply T_blank; auto. apply V_list, E_more.
      * apply T_blank; auto. apply V_int. apply (writes_int (-7)).
      * apply E_one, T_blank; auto. apply V_true.
  - apply U_obj; [repeat constructor; intros []|]. apply Forall_cons; [|constructor]. apply U_list. repeat constructor.
Qed.

(** A coin of a multisig wallet with a size of 131.5, and the text of the offline wallet. *)
Definition half : udict := mkD 5000 3 (str "a914") (str "77") 1 (str "p2sh") 526 (Some false) 4294967295.
Definition half_text : pystr := str "{""unspents"":[{""amount"":5000,""confirmations"":3,""script"":""a914"",""txid"":""77"",""txindex"":1,""type"":""p2sh"",""vsize"":131.5,""segwit"":false,""sequence"":4294967295}],""outputs"":[[""1BvBMSEYstWetqTFn5Au4m4GFg7xJaNVN2"",4000]]}".
Example C103_text : prepared_text [false] [half] [(str "1BvBMSEYstWetqTFn5Au4m4GFg7xJaNVN2", 4000)] = half_text.
Proof. vm_compute. reflexivity. Qed.
Example C103_sign_hypotheses : Forall WritableDict [half] /\ Forall (fun o : pystr * Z => Forall scalar (fst o)) [(str "1BvBMSEYstWetqTFn5Au4m4GFg7xJaNVN2", 4000)].
Proof. split; (apply Forall_cons; [|constructor]); [repeat split; try (apply ascii_scalar; reflexivity); cbn; lia|apply ascii_scalar; reflexivity]. Qed.
Example C103_transaction_hypotheses : Blank [] /\ ~ blank 48 /\ 48 <> 123.
Proof. repeat split; [constructor| |discriminate]. unfold blank. cbn. intuition discriminate. Qed.
Example C103_offline_hypotheses : Forall Reachable wcoins /\ NoMessage (plain true) /\ Forall WritableCoin wcoins /\
  WritableOutputs (wouts other_key) None (segwit_addr_of wkey) /\ @SameChange toy (Single wkey) wcoins None (segwit_addr_of wkey) /\
  exists h s', @create_transaction toy _ _ toy_world (Single wkey) (wouts other_key) None None (Some wcoins) (plain true) wallet0 = (Ok h, s').
Proof.
  destruct C51_hypotheses as (A & B & C & D). split; [exact A|]. split; [exact B|]. split.
  - unfold wcoins. repeat (apply Forall_cons; [repeat split; try (apply ascii_scalar; vm_compute; reflexivity); vm_compute; intuition discriminate|]). constructor.
  - split; [|split; [exact C|exact D]]. split; [|split; [exact I|apply ascii_scalar; vm_compute; reflexivity]].
    unfold wouts. repeat (apply Forall_cons; [apply ascii_scalar; vm_compute; reflexivity|]). constructor.
Qed.
