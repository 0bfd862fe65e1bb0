(** One co-signer signing one multisig input. *)
From Coq Require Export Permutation.
From Verif Require Export F_cosign.

Section WithCrypto.
Context {CR : Crypto} (HO : HashOk CR).

(** What is written: OP_0, the signatures in key order, placeholders, redeem script. *)
Definition body (e : Env) (s : sigmap) (z : nat) (l : bytes) : bytes :=
  [0] ++ concat (map lenbytes (sigs_of s (e_pubs e))) ++ repeat 0 z ++ l ++ e_redeem e.
Definition RedeemPush (e : Env) (seg : bool) (l : bytes) : Prop :=
  if seg then CompactSize (zlen (e_redeem e)) l else script_push (zlen (e_redeem e)) = Ok l.
Definition Field (e : Env) (seg : bool) (s : sigmap) (z : nat) (f : bytes) : Prop :=
  exists l c, RedeemPush e seg l /\ f = (if seg then [c] else []) ++ body e s z l.

Lemma field_scan e h seg s z f : EnvOk e -> SigsGood e h s -> Field e seg s z f ->
  exists st, get_signatures_from_script f = Ok (sigs_of s (e_pubs e) ++ st) /\ StraysOf e st /\ (seg = true -> st = []).
Proof.
  intros O G (l & c & R & ->). rewrite get_signatures_scan. unfold body. destruct seg; cbn [RedeemPush app tl] in *.
  - exists []. split; [|split; [intros h'; constructor|auto]].
    change (0 :: ?r) with (repeat 0 1 ++ r). apply (scan_zeros e); auto. eapply scan_sigs; eauto; [|apply incl_refl].
    apply (scan_zeros e); auto. apply scan_item_redeem; auto.
  - destruct (scan_push_redeem e O) as (pr & st & E & S & ST & _). rewrite R in E. injection E as <-. exists st. split; [|split; [auto|discriminate]].
    eapply scan_sigs; eauto; [|apply incl_refl]. apply (scan_zeros e); auto.
Qed.

(** The first half of the model's sign_multi: what is present. *)
Definition ms_start (ms : MultiSig) (hash field : bytes) : result (bytes * list (bytes * bytes) * Z) :=
  match field with
  | [] => Ok ([], [], 3)
  | _ =>
    sig_list <- get_signatures_from_script field ;;
    let script_blob := repeat 0 (Z.to_nat (ms_m ms - zlen sig_list - 1)) in
    sigs <- match_sigs sig_list hash (ms_public_keys ms) [] ;;
    if zlen sigs >=? ms_m ms then Raise ValueError
    else Ok (script_blob, sigs, ms_m ms + 2)
  end.
Definition ms_result (e : Env) (s : sigmap) (seg stx : bool) (z : nat) (c : Z) (l : bytes) : bytes * bytes :=
  (if seg then [0x22; 0; 32] ++ sha256 (e_redeem e) else body e s z l,
   if seg then c :: body e s z l else if stx then [0] else []).

Lemma sign_multi_start ms hash field seg stx : sign_multi ms hash field seg stx =
  bind (ms_start ms hash field) (fun p => let '(script_blob, sigs, witness_count) := p in
    bind (write_sigs seg (ms_public_keys ms) (dict_set (k_public_key (ms_key ms)) (ec_sign (k_secret (ms_key ms)) hash ++ [0x01]) sigs)) (fun w =>
    bind (if seg then int_to_varint witness_count else Ok []) (fun c =>
    bind (if seg then int_to_varint (zlen (ms_redeemscript ms)) else script_push (zlen (ms_redeemscript ms))) (fun l =>
    let wit := c ++ [0x00] ++ w ++ script_blob ++ l ++ ms_redeemscript ms in
    Ok (if seg then [0x22] ++ ms_segwit_scriptcode ms else wit, if seg then wit else if stx then [0x00] else []))))).
Proof. unfold sign_multi, ms_start. destruct field; reflexivity. Qed.
Lemma start_raise e k h f seg stx x : ms_start (wallet e k) h f = Raise x -> sign_multi (wallet e k) h f seg stx = Raise x.
Proof. intros E. rewrite sign_multi_start, E. reflexivity. Qed.

Lemma start_ok e k h f seg stx z d c s l : EnvOk e -> CoSigner e k -> SigsGood e h s -> RedeemPush e seg l -> 0 <= c < 253 ->
  ms_start (wallet e k) h f = Ok (repeat 0 z, d, c) -> (forall p, In p (e_pubs e) -> dict_get p d = s p) ->
  sign_multi (wallet e k) h f seg stx = Ok (ms_result e (sset s (k_public_key k) (ec_sign (k_secret k) h ++ [0x01])) seg stx z c l).
Proof.
  intros O C G R Hc E D. rewrite sign_multi_start, E. cbn [bind]. clear E.
  cbn [wallet ms_key ms_public_keys ms_redeemscript ms_m]. set (sig := ec_sign (k_secret k) h ++ [0x01]).
  set (s' := sset s (k_public_key k) sig). assert (G' : SigsGood e h s') by (apply SigsGood_set; auto).
  rewrite (write_sigs_ok seg (e_pubs e) _ s').
  2: { intros p Hp. rewrite dict_get_set. unfold s', sset. destruct (list_eqb (k_public_key k) p); auto. }
  2: { intros p g Hp Eg. eapply SigsGood_len; eauto. }
  cbn [bind]. unfold ms_result, ms_segwit_scriptcode. cbn [ms_redeemscript]. unfold RedeemPush in R. destruct seg.
  - assert (V : int_to_varint c = Ok [c]) by (apply varint_spec; constructor; lia). rewrite V. cbn [bind].
    apply varint_spec in R. rewrite R. cbn [bind]. unfold body. reflexivity.
  - cbn [bind]. rewrite R. cbn [bind]. unfold body. reflexivity.
Qed.

Lemma start_first e k h : ms_start (wallet e k) h [] = Ok (repeat 0 0, [], 3).
Proof. reflexivity. Qed.

Lemma start_field e k h f s st : EnvOk e -> SigsGood e h s -> f <> [] ->
  get_signatures_from_script f = Ok (sigs_of s (e_pubs e) ++ st) -> StraysOf e st ->
  let n := zlen (sigs_of s (e_pubs e)) in
  (e_m e <= n -> ms_start (wallet e k) h f = Raise ValueError) /\
  (n < e_m e -> exists d, ms_start (wallet e k) h f = Ok (repeat 0 (Z.to_nat (e_m e - (n + zlen st) - 1)), d, e_m e + 2) /\
     forall p, In p (e_pubs e) -> dict_get p d = s p).
Proof.
  intros O G NE E ST n. unfold ms_start. destruct f as [|f0 fr]; [contradiction|]. rewrite E. cbn [bind]. cbn [wallet ms_m ms_public_keys].
  rewrite match_sigs_app.
  destruct (match_sigs_map s h (e_pubs e)) with (l := e_pubs e) (d := @nil (bytes * bytes)) as (d & Ed & Ld & Gd).
  { intros p g Hp Eg. eapply SigsGood_only; eauto. }
  { apply incl_refl. }
  { apply (eo_nodup _ O). }
  { intros; reflexivity. }
  rewrite Ed. cbn [bind]. rewrite (match_sigs_none st) by (apply ST). cbn [bind].
  assert (LZ : zlen d = n) by (unfold n, zlen; rewrite Ld; cbn [length]; reflexivity). rewrite LZ.
  split; intros H.
  - replace (n >=? e_m e) with true by lia. reflexivity.
  - replace (n >=? e_m e) with false by lia. exists d. split.
    + f_equal. f_equal. f_equal. f_equal. f_equal. unfold n, zlen. rewrite app_length. lia.
    + intros p Hp. rewrite Gd. cbn [dict_get]. assert (existsb (fun q => list_eqb q p) (e_pubs e) = true) as ->; [|reflexivity].
      apply existsb_exists. exists p. split; auto. apply list_eqb_refl.
Qed.

(** ** Tables of the co-signers that have signed *)
Definition tab (ks : list PrivateKey) (h : bytes) : sigmap := fun p =>
  match find (fun k => list_eqb (k_public_key k) p) ks with Some k => Some (ec_sign (k_secret k) h ++ [0x01]) | None => None end.
Lemma tab_cons k ks h p : tab (k :: ks) h p = sset (tab ks h) (k_public_key k) (ec_sign (k_secret k) h ++ [0x01]) p.
Proof. unfold tab, sset. cbn [find]. destruct (list_eqb (k_public_key k) p); reflexivity. Qed.
Lemma tab_none ks h p : ~ In p (map k_public_key ks) -> tab ks h p = None.
Proof.
  intros N. unfold tab. destruct (find _ ks) as [k|] eqn:E; auto. apply find_some in E as [I Q]. apply list_eqb_eq in Q. subst p.
  exfalso. apply N. apply in_map. auto.
Qed.
Lemma tab_some ks h k : NoDup (map k_public_key ks) -> In k ks -> tab ks h (k_public_key k) = Some (ec_sign (k_secret k) h ++ [0x01]).
Proof.
  intros ND I. induction ks as [|k' ks IH]; [destruct I|]. cbn [map] in ND. apply NoDup_cons_iff in ND as [NI ND]. unfold tab. cbn [find].
  destruct (list_eqb (k_public_key k') (k_public_key k)) eqn:Q.
  - destruct I as [->|I]; auto. apply list_eqb_eq in Q. exfalso. apply NI. rewrite Q. apply in_map. auto.
  - destruct I as [->|I]; [rewrite list_eqb_refl in Q; discriminate|]. apply IH; auto.
Qed.
Lemma tab_perm ks ks' h p : NoDup (map k_public_key ks) -> Permutation ks ks' -> tab ks h p = tab ks' h p.
Proof.
  intros ND P. assert (ND' : NoDup (map k_public_key ks')) by (eapply Permutation_NoDup; [apply Permutation_map; eauto|auto]).
  destruct (in_dec (list_eq_dec Z.eq_dec) p (map k_public_key ks)) as [I|N].
  - apply in_map_iff in I as (k & <- & I). rewrite !tab_some; auto. eapply Permutation_in; eauto.
  - rewrite !tab_none; auto. intros I. apply N. eapply Permutation_in; [apply Permutation_map; apply Permutation_sym; eauto|auto].
Qed.
Lemma tab_good e ks h : Forall (CoSigner e) ks -> SigsGood e h (tab ks h).
Proof.
  induction 1 as [|k ks C F IH]; [apply SigsGood_none|]. pose proof (SigsGood_set e h _ k C IH) as G. intros p g I E. rewrite tab_cons in E. eapply G; eauto.
Qed.
Lemma tab_count e ks h : EnvOk e -> Forall (CoSigner e) ks -> NoDup (map k_public_key ks) -> length (sigs_of (tab ks h) (e_pubs e)) = length ks.
Proof.
  intros O F. induction F as [|k ks C F IH]; intros ND; [rewrite sigs_of_none; auto|]. cbn [map] in ND. apply NoDup_cons_iff in ND as [NI ND].
  rewrite (sigs_of_ext _ (sset (tab ks h) (k_public_key k) (ec_sign (k_secret k) h ++ [0x01]))) by (intros; apply tab_cons).
  rewrite sigs_of_set_new; [cbn [length]; auto| | |].
  - apply (eo_nodup _ O).
  - apply (cs_in _ _ C).
  - apply tab_none. auto.
Qed.
Lemma tab_body e k ks h z l : body e (sset (tab ks h) (k_public_key k) (ec_sign (k_secret k) h ++ [0x01])) z l = body e (tab (k :: ks) h) z l.
Proof. unfold body. rewrite (sigs_of_ext _ (tab (k :: ks) h)); auto. intros p _. symmetry. apply tab_cons. Qed.

(** ** The state of an input *)
Definition stack (e : Env) (s : sigmap) (z : nat) : list bytes := [] :: sigs_of s (e_pubs e) ++ repeat [] z ++ [e_redeem e].
Definition InState (e : Env) (seg : bool) (h : bytes) (ks : list PrivateKey) (xi : tin) : Prop :=
  match ks with
  | [] => if seg then i_wit xi = [] else i_script xi = [] /\ i_wit xi = []
  | _ => exists z, (zlen ks = e_m e -> z = 0%nat) /\ (z <= 15)%nat /\
           if seg then i_script xi = [0x22; 0; 32] ++ sha256 (e_redeem e) /\ i_wit xi = stack e (tab ks h) z
           else i_wit xi = [] /\ exists l, RedeemPush e false l /\ i_script xi = body e (tab ks h) z l
  end.

Lemma EncSeq_app {A} (E : A -> bytes -> Prop) l m b c : EncSeq E l b -> EncSeq E m c -> EncSeq E (l ++ m) (b ++ c).
Proof. induction 1; intros H2; cbn [app]; auto. rewrite <- app_assoc. constructor; auto. Qed.
Lemma seq_stack e h s z l : SigsGood e h s -> RedeemPush e true l -> EncSeq VarBytes (stack e s z) (body e s z l).
Proof.
  intros G R. unfold stack, body. assert (V0 : VarBytes [] [0]) by (exists [0]; split; [constructor; cbn; lia|reflexivity]).
  constructor; auto. apply EncSeq_app.
  - assert (F : Forall (fun g => (length g <= 75)%nat) (sigs_of s (e_pubs e))).
    { apply Forall_forall. intros g I. apply sigs_of_in in I as (p & I & E). eapply SigsGood_len; eauto. }
    induction F as [|g gs L F IH]; cbn [map concat]; constructor; auto. exists [zlen g]. split; [constructor; unfold zlen; lia|reflexivity].
  - apply EncSeq_app.
    + clear -V0. induction z; cbn [repeat]; [constructor|]. change (0 :: repeat 0 z) with ([0] ++ repeat 0 z). constructor; auto.
    + rewrite <- (app_nil_r (l ++ e_redeem e)). constructor; [|constructor]. exists l. split; auto.
Qed.
Lemma stack_len e s z : Z.of_nat (length (stack e s z)) = 2 + zlen (sigs_of s (e_pubs e)) + Z.of_nat z.
Proof. unfold stack. cbn [length]. rewrite !app_length, repeat_length. cbn [length]. unfold zlen. lia. Qed.
Lemma enc_stack e h s z l c : SigsGood e h s -> RedeemPush e true l ->
  c = 2 + zlen (sigs_of s (e_pubs e)) + Z.of_nat z -> c < 253 -> EncStack (stack e s z) (c :: body e s z l).
Proof.
  intros G R -> Hc. exists [2 + zlen (sigs_of s (e_pubs e)) + Z.of_nat z], (body e s z l). split; [|split; [|reflexivity]].
  - rewrite stack_len. constructor. unfold zlen in *. lia.
  - eapply seq_stack; eauto.
Qed.
Lemma sigs_of_len s pubs : (length (sigs_of s pubs) <= length pubs)%nat.
Proof. induction pubs as [|p pubs IH]; auto. cbn [sigs_of flat_map]. fold (sigs_of s pubs). rewrite app_length. destruct (s p); cbn [length]; lia. Qed.
Lemma parse_body e h s z l : EnvOk e -> SigsGood e h s -> RedeemPush e false l ->
  MinPushes ([] :: sigs_of s (e_pubs e) ++ repeat [] z ++ [e_redeem e]) (body e s z l).
Proof.
  intros O G R.
  assert (F : Forall (fun g => (length g <= 75)%nat) (sigs_of s (e_pubs e))).
  { apply Forall_forall. intros g I. apply sigs_of_in in I as (p & I & E). eapply SigsGood_len; eauto. }
  split.
  2:{ unfold body. cbn [map list_sum fold_right length]. rewrite !map_app, !list_sum_app, !app_length. pose proof (script_push_cost _ _ R) as C. cbn [map list_sum fold_right].
    change (list_sum (map push_cost (repeat [] z))) with (list_sum (map push_cost (repeat (@nil Z) z))).
    assert (Z1 : forall z : nat, list_sum (map push_cost (repeat (@nil Z) z)) = z) by (clear; intros z; induction z as [|z IH]; cbn [repeat map list_sum fold_right]; [reflexivity|]; unfold list_sum in IH; rewrite IH; reflexivity).
    unfold bytes in *. rewrite Z1.
    assert (Z2 : list_sum (map push_cost (sigs_of s (e_pubs e))) = length (concat (map lenbytes (sigs_of s (e_pubs e))))).
    { induction F as [|g gs L F IH]; cbn [map concat list_sum fold_right]; auto. rewrite app_length, push_cost_small by auto. unfold lenbytes at 1. cbn [length]. unfold list_sum in IH. lia. }
    unfold bytes in *. rewrite repeat_length. change (push_cost []) with 1%nat. cbn [length]. lia. }
  cbn [map]. rewrite !map_app.
  assert (ZM : forall z : nat, map Push (repeat (@nil Z : bytes) z) = repeat (Push []) z) by (clear; intros z; induction z as [|z IH]; cbn [repeat map]; [reflexivity|f_equal; exact IH]).
  rewrite ZM.
  cbn [map]. destruct (scan_push_redeem e O) as (pr & st & E & _ & _ & PP & _). cbn [RedeemPush] in R. rewrite R in E. injection E as <-.
  assert (P0 : forall r ops, ParsesTo r ops -> ParsesTo (0 :: r) (Push [] :: ops)) by (intros r ops P; apply (parse_push [] r ops); [cbn; lia|auto]).
  unfold body. apply P0. 
  assert (PZ : ParsesTo (repeat 0 z ++ l ++ e_redeem e) (repeat (Push []) z ++ [Push (e_redeem e)])).
  { induction z; cbn [repeat app]; [|apply P0; auto]. specialize (PP [] [] parse_nil). rewrite app_nil_r in PP. auto. }
  revert F. generalize (sigs_of s (e_pubs e)). intros gs F.
  induction F as [|g gs L F IH]; cbn [map concat app]; auto. unfold lenbytes at 1. cbn [app]. rewrite <- app_assoc. apply parse_push; auto.
Qed.
Lemma sigs_ok e h s : SigsGood e h s -> Forall (fun g => bytes_ok g = true) (sigs_of s (e_pubs e)).
Proof.
  intros G. apply Forall_forall. intros g I. apply sigs_of_in in I as (p & I & E). destruct (G p g I E) as (der & -> & _ & OK & _).
  apply ok_app; auto.
Qed.
Lemma body_ok e h s z l : EnvOk e -> SigsGood e h s -> bytes_ok l = true -> bytes_ok (body e s z l) = true.
Proof.
  intros O G L. destruct (redeem_shape e O) as (_ & _ & _ & _ & _ & _ & _ & OK & _). unfold body. apply ok_app; [reflexivity|]. apply ok_app.
  - pose proof (sigs_ok e h s G) as F.
    assert (F2 : Forall (fun g => (length g <= 75)%nat) (sigs_of s (e_pubs e))).
    { apply Forall_forall. intros g I. apply sigs_of_in in I as (p & I & E). eapply SigsGood_len; eauto. }
    induction F as [|g gs Og F IH]; auto. apply Forall_cons_iff in F2 as [L1 F2]. cbn [map concat]. apply ok_app; auto.
    apply ok_cons; auto. unfold zlen. lia.
  - apply ok_app; [|apply ok_app; auto]. clear. induction z; cbn [repeat]; auto.
Qed.
Lemma body_len e h s z l : EnvOk e -> SigsGood e h s -> (length l <= 9)%nat -> (z <= 15)%nat -> zlen (body e s z l) < 2 ^ 64.
Proof.
  intros O G L Z. destruct (redeem_shape e O) as (Lr & _ & Ln & _). 
  assert (forall pubs, incl pubs (e_pubs e) -> (length (concat (map lenbytes (sigs_of s pubs))) <= 76 * length pubs)%nat).
  { induction pubs as [|p pubs IH]; intros I; auto. cbn [sigs_of flat_map]. fold (sigs_of s pubs). rewrite map_app, concat_app, app_length.
    assert (IP : incl pubs (e_pubs e)) by (intros q Hq; apply I; right; auto). specialize (IH IP).
    assert (length (concat (map lenbytes (match s p with Some g => [g] | None => [] end))) <= 76)%nat; [|cbn [length]; lia].
    destruct (s p) as [g|] eqn:E; cbn [map concat length]; [|lia]. rewrite app_nil_r. unfold lenbytes. cbn [length].
    pose proof (SigsGood_len e h s G p g (I p (or_introl eq_refl)) E). lia. }
  specialize (H (e_pubs e) (incl_refl _)). unfold body, zlen in *. rewrite !app_length, repeat_length. cbn [length]. lia.
Qed.
Lemma push_len e seg l : EnvOk e -> RedeemPush e seg l -> (length l <= 9)%nat /\ bytes_ok l = true.
Proof.
  intros O R. destruct seg; cbn [RedeemPush] in R.
  - split; [inversion R; subst; cbn [length]; try lia; match goal with H : LEnum _ _ _ |- _ => apply LEnum_length in H; rewrite H; lia end|].
    eapply CompactSize_ok; eauto.
  - destruct (scan_push_redeem e O) as (pr & st & E & _ & _ & _ & OK & L). rewrite R in E. injection E as <-. split; [lia|auto].
Qed.
Lemma push_exists e seg : EnvOk e -> exists l, RedeemPush e seg l.
Proof.
  intros O. destruct seg; cbn [RedeemPush].
  - destruct (redeem_shape e O) as (L & _). destruct (cs_exists (e_redeem e)) as (l & _ & C); [unfold zlen; lia|eauto].
  - destruct (scan_push_redeem e O) as (pr & st & E & _). eauto.
Qed.

(** ** The step *)
Definition step_result (e : Env) (h : bytes) (k : PrivateKey) (ks' : list PrivateKey) (seg stx : bool) (xi : tin) (i : TxIn) : Prop :=
  exists ss wit l, sign_multi (wallet e k) h (if seg then witness i else script_sig i) seg stx = Ok (ss, wit) /\
    int_to_varint (zlen ss) = Ok l /\
    (stx = true -> wit <> []) /\ (seg = true -> wit <> []) /\ (seg = false -> stx = false -> wit = []) /\
    exists xi', InState e seg h ks' xi' /\ RepIn xi' (set_signed i ss l wit seg) /\ RepWit xi' (set_signed i ss l wit seg) /\
      in_skel xi' = in_skel xi.

Lemma finish_step e h k ks seg stx xi i z c l : EnvOk e -> CoSigner e k -> Forall (CoSigner e) ks -> RepIn xi i -> RedeemPush e seg l ->
  sign_multi (wallet e k) h (if seg then witness i else script_sig i) seg stx =
    Ok (ms_result e (sset (tab ks h) (k_public_key k) (ec_sign (k_secret k) h ++ [0x01])) seg stx z c l) ->
  (zlen (k :: ks) = e_m e -> z = 0%nat) -> (z <= 15)%nat ->
  (seg = true -> c = 2 + zlen (sigs_of (tab (k :: ks) h) (e_pubs e)) + Z.of_nat z /\ c < 253) ->
  step_result e h k (k :: ks) seg stx xi i.
Proof.
  intros O C F [R1 R2 R3 R4 R5 R6 R7 R8] R E Hz Hz2 Hc. unfold ms_result in E. rewrite tab_body in E.
  assert (G : SigsGood e h (tab (k :: ks) h)) by (apply tab_good; constructor; auto).
  destruct (push_len e seg l O R) as [Ll Ol]. destruct (redeem_shape e O) as (Lr & _ & _ & _ & _ & _ & _ & Ors & _).
  unfold step_result. match type of E with _ = Ok (?a, ?b) => set (ss := a) in *; set (wit := b) in * end.
  assert (Oss : bytes_ok ss = true).
  { unfold ss. destruct seg; [|eapply body_ok; eauto]. apply ok_app; [reflexivity|]. apply bytes_ok_Forall, (sha256_byte _ HO). }
  assert (Lss : zlen ss < 2 ^ 64).
  { unfold ss. destruct seg; [|eapply body_len; eauto]. unfold zlen. rewrite app_length, (sha256_len _ HO). cbn. lia. }
  destruct (cs_exists ss Lss) as (n & En & Cn). exists ss, wit, n. split; auto. split; auto.
  split; [unfold wit; destruct seg; [discriminate|intros ->; discriminate]|].
  split; [intros ->; discriminate|]. split; [unfold wit; intros -> ->; reflexivity|].
  exists (Tin (i_txid xi) (i_vout xi) ss (i_seq xi) (if seg then stack e (tab (k :: ks) h) z else [])).
  split; [|split; [|split; [|reflexivity]]].
  - unfold InState. exists z. split; auto. split; auto. unfold ss. destruct seg; cbn [i_script i_wit]; auto. split; auto. exists l. auto.
  - constructor; auto.
  - split; cbn [i_wit set_signed witness].
    + destruct seg; [|constructor]. unfold stack. constructor; [reflexivity|]. apply Forall_app. split; [eapply sigs_ok; eauto|].
      apply Forall_app. split; [clear; induction z; cbn [repeat]; constructor; auto|]. constructor; auto.
    + unfold wit. destruct seg.
      * right. destruct Hc as [Hc1 Hc2]; auto. eapply enc_stack; eauto.
      * destruct stx; [right; apply EncStack_nil|left; auto].
Qed.

(** The bytes an input in a given state has where signatures are looked for. *)
Lemma state_field e seg h ks xi i : EnvOk e -> Forall (CoSigner e) ks -> NoDup (map k_public_key ks) -> ks <> [] -> RepIn xi i -> RepWit xi i ->
  InState e seg h ks xi ->
  let f := if seg then witness i else script_sig i in f <> [] /\ exists z, Field e seg (tab ks h) z f.
Proof.
  intros O F ND NE R [_ W] S f. destruct ks as [|k ks]; [contradiction|]. set (ks0 := k :: ks) in *.
  assert (S' : exists z, (zlen ks0 = e_m e -> z = 0%nat) /\ (z <= 15)%nat /\
           if seg then i_script xi = [0x22; 0; 32] ++ sha256 (e_redeem e) /\ i_wit xi = stack e (tab ks0 h) z
           else i_wit xi = [] /\ exists l, RedeemPush e false l /\ i_script xi = body e (tab ks0 h) z l) by exact S.
  clear S. destruct S' as (z & Hz & Hz2 & S).
  assert (G : SigsGood e h (tab ks0 h)) by (apply tab_good; auto).
  unfold f. destruct seg.
  - destruct S as [_ S]. rewrite S in W. destruct W as [[_ W]|W]; [discriminate|]. split; [exact (EncStack_ne _ _ W)|].
    exists z. destruct W as (n & c & C & Sq & Q). destruct (push_exists e true O) as (l & Rl).
    assert (c = body e (tab ks0 h) z l) as -> by (eapply EncSeq_fun; [|exact Sq|eapply seq_stack; eauto]; intros; eapply VarBytes_fun; eauto).
    rewrite stack_len in C. destruct (redeem_shape e O) as (_ & _ & Ln & _). pose proof (sigs_of_len (tab ks0 h) (e_pubs e)).
    assert (C2 : CompactSize (2 + zlen (sigs_of (tab ks0 h) (e_pubs e)) + Z.of_nat z) [2 + zlen (sigs_of (tab ks0 h) (e_pubs e)) + Z.of_nat z])
      by (constructor; unfold zlen in *; lia).
    rewrite (CompactSize_fun _ _ _ C C2) in Q. exists l. eexists. split; [auto|]. rewrite Q. reflexivity.
  - destruct S as [_ (l & Rl & S)]. rewrite (ri_script _ _ R), S. split; [discriminate|]. exists z, l, 0. auto.
Qed.

(** Fewer than m signatures present and a new signer: the signature is added. *)
Lemma state_step e seg stx h k ks xi i : EnvOk e -> CoSigner e k -> Forall (CoSigner e) ks -> NoDup (map k_public_key (k :: ks)) ->
  zlen ks < e_m e -> RepIn xi i -> RepWit xi i -> InState e seg h ks xi -> step_result e h k (k :: ks) seg stx xi i.
Proof.
  intros O C F ND Hm R W S. assert (FF : Forall (CoSigner e) (k :: ks)) by (constructor; auto).
  destruct (redeem_shape e O) as (_ & Hm15 & _). pose proof (eo_m _ O) as Hm1. pose proof (tab_count e (k :: ks) h O FF ND) as TC.
  pose proof ND as ND0. cbn [map] in ND0. apply NoDup_cons_iff in ND0 as [_ ND0]. pose proof (tab_count e ks h O F ND0) as TC0.
  destruct (push_exists e seg O) as (l & Rl). destruct ks as [|k0 ks].
  - set (f := if seg then witness i else script_sig i).
    assert (Ff : f = [] \/ (seg = true /\ f = [0])).
    { unfold f, InState in *. destruct seg; [|destruct S as [S _]; rewrite (ri_script _ _ R); auto]. destruct W as [_ W]. rewrite S in W.
      destruct W as [[W _]|W]; auto. right. split; auto. destruct W as (n & c & Cn & Sq & Q). inversion Sq. subst c.
      assert (C0 : CompactSize (Z.of_nat (@length bytes [])) [0]) by (constructor; cbn; lia). rewrite (CompactSize_fun _ _ _ Cn C0) in Q. exact Q. }
    assert (G0 : SigsGood e h (tab [] h)) by (apply tab_good; constructor).
    assert (T0 : sigs_of (tab [] h) (e_pubs e) = []) by (apply sigs_of_none; reflexivity).
    destruct Ff as [Ff|[-> Ff]].
    + eapply (finish_step e h k [] seg stx xi i 0 3 l); eauto; [|lia|].
      * fold f. rewrite Ff. eapply start_ok; eauto; [lia|apply start_first|]. reflexivity.
      * intros _. unfold zlen. rewrite TC. cbn. lia.
    + assert (SF : get_signatures_from_script f = Ok (sigs_of (tab [] h) (e_pubs e) ++ [])) by (rewrite Ff, T0; reflexivity).
      assert (NE : f <> []) by (rewrite Ff; discriminate). assert (ST : StraysOf e []) by (intros h'; constructor).
      destruct (start_field e k h f _ _ O G0 NE SF ST) as [_ SO]. rewrite T0 in SO. change (zlen (@nil bytes)) with 0 in SO.
      destruct SO as (d & SO & Dd); [lia|].
      eapply (finish_step e h k [] true stx xi i (Z.to_nat (e_m e - (0 + 0) - 1)) (e_m e + 2) l); eauto.
      * fold f. eapply start_ok with (d := d); eauto. lia.
      * change (zlen [k]) with 1. intros <-. reflexivity.
      * lia.
      * intros _. unfold zlen. rewrite TC. cbn [length]. lia.
  - destruct (state_field e seg h (k0 :: ks) xi i O F ND0) as (NE & z & Ff); auto; [discriminate|]. 
    assert (G : SigsGood e h (tab (k0 :: ks) h)) by (apply tab_good; auto).
    destruct (field_scan e h seg _ z _ O G Ff) as (st & SF & ST & STs).
    destruct (start_field e k h _ _ _ O G NE SF ST) as [_ SO]. unfold zlen at 1 2 in SO. rewrite TC0 in SO. fold (zlen (k0 :: ks)) in SO.
    destruct (SO Hm) as (d & SO' & Dd). clear SO.
    eapply (finish_step e h k (k0 :: ks) seg stx xi i (Z.to_nat (e_m e - (zlen (k0 :: ks) + zlen st) - 1)) (e_m e + 2) l); eauto.
    + eapply start_ok with (d := d); eauto. lia.
    + unfold zlen in *. cbn [length] in *. lia.
    + unfold zlen in *. lia.
    + intros ->. rewrite STs by auto. unfold zlen in *. rewrite TC. cbn [length] in *. lia.
Qed.

(** m signatures present: refused, whoever signs. *)
Lemma state_full e seg stx h k ks xi i : EnvOk e -> Forall (CoSigner e) ks -> NoDup (map k_public_key ks) ->
  zlen ks = e_m e -> RepIn xi i -> RepWit xi i -> InState e seg h ks xi ->
  sign_multi (wallet e k) h (if seg then witness i else script_sig i) seg stx = Raise ValueError.
Proof.
  intros O F ND Hm R W S. pose proof (eo_m _ O) as Hm1. assert (NK : ks <> []) by (intros ->; unfold zlen in Hm; cbn in Hm; lia).
  destruct (state_field e seg h ks xi i O F ND) as (NE & z & Ff); auto.
  assert (G : SigsGood e h (tab ks h)) by (apply tab_good; auto).
  destruct (field_scan e h seg _ z _ O G Ff) as (st & SF & ST & STs).
  destruct (start_field e k h _ _ _ O G NE SF ST) as [SR _]. apply start_raise. apply SR. unfold zlen. rewrite tab_count; auto.
  unfold zlen in Hm. lia.
Qed.

(** Signing a legacy input again changes nothing that matters. *)
Lemma tab_again k ks h p : NoDup (map k_public_key ks) -> In k ks -> tab (k :: ks) h p = tab ks h p.
Proof.
  intros ND I. rewrite tab_cons. unfold sset. destruct (list_eqb (k_public_key k) p) eqn:Q; auto. apply list_eqb_eq in Q. subst p. symmetry. apply tab_some; auto.
Qed.
Lemma state_again e stx h k ks xi i : EnvOk e -> Forall (CoSigner e) ks -> NoDup (map k_public_key ks) -> In k ks ->
  zlen ks < e_m e -> RepIn xi i -> RepWit xi i -> InState e false h ks xi -> step_result e h k ks false stx xi i.
Proof.
  intros O F ND I Hm R W S. pose proof F as F'. rewrite Forall_forall in F'. pose proof (F' k I) as C. clear F'.
  destruct (redeem_shape e O) as (_ & Hm15 & _). pose proof (eo_m _ O) as Hm1. pose proof (tab_count e ks h O F ND) as TC.
  destruct (push_exists e false O) as (l & Rl). assert (NK : ks <> []) by (intros ->; destruct I).
  destruct (state_field e false h ks xi i O F ND) as (NE & z & Ff); auto.
  assert (G : SigsGood e h (tab ks h)) by (apply tab_good; auto).
  destruct (field_scan e h false _ z _ O G Ff) as (st & SF & ST & STs).
  destruct (start_field e k h _ _ _ O G NE SF ST) as [_ SO]. unfold zlen at 1 2 in SO. rewrite TC in SO. fold (zlen ks) in SO.
  destruct (SO Hm) as (d & SO' & Dd). clear SO.
  assert (SR : step_result e h k (k :: ks) false stx xi i).
  { eapply (finish_step e h k ks false stx xi i (Z.to_nat (e_m e - (zlen ks + zlen st) - 1)) (e_m e + 2) l); eauto.
    + eapply start_ok with (d := d); eauto. lia.
    + unfold zlen in *. cbn [length] in *. lia.
    + unfold zlen in *. lia.
    + discriminate. }
  destruct SR as (ss & wit & n & A1 & A2 & A3 & A4 & A5 & xi' & S' & A6). exists ss, wit, n. do 5 (split; auto). exists xi'. split; auto.
  destruct S' as (z' & _ & Lz & Wx & l' & Rl' & Sx). unfold InState. destruct ks as [|k0 ks0]; [contradiction|]. exists z'. split; [lia|]. split; auto. split; auto.
  exists l'. split; auto. rewrite Sx. unfold body. rewrite (sigs_of_ext (tab (k :: k0 :: ks0) h) (tab (k0 :: ks0) h)); auto. intros p _. apply tab_again; auto.
Qed.

(** Signing a segwit input again: one item less than declared. *)
Lemma EncSeq_split {A} (E : A -> bytes -> Prop) l m b : EncSeq E (l ++ m) b -> exists c d, b = c ++ d /\ EncSeq E l c /\ EncSeq E m d.
Proof.
  revert b. induction l as [|a l IH]; intros b H.
  - exists [], b. repeat split; auto. constructor.
  - cbn [app] in H. inversion H as [|a0 l0 b0 c0 Ha Sl]; subst. destruct (IH _ Sl) as (c & d & -> & S1 & S2).
    exists (b0 ++ c), d. rewrite app_assoc. repeat split; auto. constructor; auto.
Qed.
Lemma short_stack items bod c st w r r' : EncSeq VarBytes items bod -> 0 <= c < 253 -> zlen items < c -> EncStack st w ->
  w ++ r = (c :: bod) ++ r' -> length r = length r' -> False.
Proof.
  intros S Hc L (n & cc & Cn & Sq & ->) Q LR. rewrite <- app_assoc in Q.
  assert (C2 : CompactSize c [c]) by (constructor; lia).
  destruct (CompactSize_prefix _ _ _ [c] (cc ++ r) (bod ++ r') Cn C2 Q) as (QL & _ & QB). cbv beta in QL.
  assert (Sp : st = firstn (length items) st ++ skipn (length items) st) by (symmetry; apply firstn_skipn).
  rewrite Sp in Sq. apply EncSeq_split in Sq as (c1 & c2 & -> & S1 & S2). rewrite <- app_assoc in QB.
  unfold zlen in L. assert (LF : length (firstn (length items) st) = length items) by (rewrite firstn_length; lia).
  destruct (EncSeq_prefix VarBytes (fun s : bytes => s) _ VarBytes_prefix _ _ _ _ _ LF S1 S QB) as (_ & _ & QR).
  apply (f_equal (@length _)) in QR. rewrite app_length in QR. assert (LS : (0 < length (skipn (length items) st))%nat) by (rewrite skipn_length; lia).
  destruct S2 as [|a0 l0 b0 d0 (m & Cm & ->) _]; [cbn in LS; lia|]. rewrite !app_length in QR. inversion Cm; subst; cbn [length] in QR; lia.
Qed.

Lemma segwit_again e h k s z f stx : EnvOk e -> CoSigner e k -> SigsGood e h s -> Field e true s z f -> s (k_public_key k) <> None ->
  zlen (sigs_of s (e_pubs e)) < e_m e ->
  exists items bod, sign_multi (wallet e k) h f true stx = Ok ([0x22; 0; 32] ++ sha256 (e_redeem e), (e_m e + 2) :: bod) /\
    EncSeq VarBytes items bod /\ zlen items = e_m e + 1.
Proof.
  intros O C G Ff Sk Hm. destruct (redeem_shape e O) as (_ & Hm15 & _). pose proof (eo_m _ O) as Hm1.
  destruct (push_exists e true O) as (l & Rl). destruct (field_scan e h true s z f O G Ff) as (st & SF & ST & STs). rewrite STs in * by auto.
  assert (NE : f <> []) by (destruct Ff as (l0 & c0 & _ & ->); discriminate).
  destruct (start_field e k h f s [] O G NE SF ST) as [_ SO]. destruct (SO Hm) as (d & SO' & Dd). clear SO.
  set (n := zlen (sigs_of s (e_pubs e))) in *.
  assert (Hc : 0 <= e_m e + 2 < 253) by lia.
  rewrite (start_ok e k h f true stx _ d _ s l O C G Rl Hc SO' Dd). unfold ms_result. set (s' := sset s _ _) in *. set (z' := Z.to_nat _) in *.
  assert (G' : SigsGood e h s') by (apply SigsGood_set; auto).
  exists (stack e s' z'), (body e s' z' l). split; [reflexivity|]. split; [exact (seq_stack e h s' z' l G' Rl)|].
  unfold zlen at 1. rewrite stack_len.
  destruct (s (k_public_key k)) as [g|] eqn:Eg; [|contradiction].
  assert (LL : zlen (sigs_of s' (e_pubs e)) = n) by (unfold n, zlen, s'; rewrite (sigs_of_set_old s _ _ g); auto).
  rewrite LL. unfold z'. change (zlen (@nil bytes)) with 0. lia.
Qed.

End WithCrypto.
