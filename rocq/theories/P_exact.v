(** C103, continued: the texts that json.loads accepts are those of the grammar, and
    each of them stands for one value. *)
From Coq Require Import String.
From Verif Require Import F_base F_utils F_hex F_decimal M_loads S_Hex S_Decimal S_Cli S_Json S_Prepared S_Loads P_cli P_json P_loads P_prepared P_says.
From Coq Require Import List ZArith Lia Arith.
Import ListNotations.
Open Scope Z_scope.

Lemma chars_escape s u z : LChars s u -> u = 92 :: 117 :: z -> exists n x y, UEscape n x /\ u = x ++ y.
Proof.
  intros [|c s' t v C _|c s' t v U _ _ _|c s' t v U _ _] E; try discriminate.
  - destruct C as [c P Q S|c e I|c x U N|h l x y U1 U2 Rh Rl].
    + injection E as E _. contradiction.
    + exfalso. injection E as E _. subst e. cbn [In] in I. repeat (destruct I as [I|I]; [discriminate|]). destruct I.
    + eauto.
    + rewrite <- app_assoc. eauto.
  - eauto.
  - eauto.
Qed.
Lemma lchars_parse s u : LChars s u -> forall r f, (length u < f)%nat -> scanstring f (u ++ 34 :: r) = Some (s, r).
Proof.
  induction 1 as [|c s t u C H IH|c s t u U FH NO H IH|c s t u U SH H IH]; intros r f L.
  - destruct f; [inversion L|]. reflexivity.
  - rewrite <- app_assoc. destruct f as [|f]; [inversion L|]. rewrite (char_parses c) by auto. rewrite IH; [reflexivity|].
    destruct (char_head _ _ [] C) as (d & v & Q & _). rewrite app_nil_r in Q. subst t. cbn [app length] in L. rewrite app_length in L. lia.
  - rewrite <- app_assoc. destruct f as [|f]; [inversion L|]. destruct (escape_reads _ _ (u ++ 34 :: r) U) as (z & -> & HX). cbn [app scanstring].
    change (92 =? 34) with false. change (92 =? 92) with true. change (117 =? 117) with true. cbn iota.
    assert (UE : unicode_escape (z ++ u ++ 34 :: r) = Some (c, u ++ 34 :: r)).
    { unfold unicode_escape. rewrite HX. assert (HI : high c = true) by (unfold high, first_half in *; lia). rewrite HI.
      destruct u as [|b u1]; [cbn [app]; destruct r; reflexivity|]. destruct u1 as [|b2 u2].
      - cbn [app]. change (34 =? 117) with false. rewrite andb_false_r. reflexivity.
      - cbn [app]. destruct ((b =? 92) && (b2 =? 117)) eqn:B; [|reflexivity]. apply andb_prop in B as (B1 & B2). apply Z.eqb_eq in B1, B2. subst b b2.
        destruct (chars_escape _ _ _ H eq_refl) as (n & x & y & UX & EX). destruct (escape_reads _ _ (y ++ 34 :: r) UX) as (x' & -> & H4). injection EX as ->. rewrite <- app_assoc. rewrite H4.
        destruct (low n) eqn:LO; [|reflexivity]. exfalso. apply (NO n (92 :: 117 :: x') y UX); [unfold low, second_half in *; lia|reflexivity]. }
    rewrite UE. rewrite IH; [reflexivity|]. cbn [app length] in L. rewrite app_length in L. lia.
  - rewrite <- app_assoc. destruct f as [|f]; [inversion L|]. destruct (escape_reads _ _ (u ++ 34 :: r) U) as (z & -> & HX). cbn [app scanstring].
    change (92 =? 34) with false. change (92 =? 92) with true. change (117 =? 117) with true. cbn iota.
    unfold unicode_escape. rewrite HX. assert (HI : high c = false) by (unfold high, second_half in *; lia). rewrite HI. rewrite IH; [reflexivity|]. cbn [app length] in L. rewrite app_length in L. lia.
Qed.
Lemma lstring_parses s t r : LString s t -> exists u, t ++ r = 34 :: u /\ read_string u = Some (s, r).
Proof.
  intros (u & H & ->). exists (u ++ 34 :: r). cbn [app]. rewrite <- app_assoc. split; auto. unfold read_string. apply lchars_parse; auto. rewrite app_length. cbn. lia.
Qed.

Lemma only_digits ds : DigitsOnly ds -> forallb is_digit ds = true /\ ds <> [].
Proof. intros (N & F). split; auto. apply forallb_forall. intros c I. rewrite Forall_forall in F. apply is_digit_iff. apply F. auto. Qed.
Lemma exponent_reads x r : Exponent x -> Starts (fun c => ~ numeric c) r -> exponent (x ++ r) = (x, r).
Proof.
  intros X S. destruct X as [|e sg ds E SG D]; [apply no_fraction; auto|]. apply only_digits in D as (D & N). cbn [app exponent].
  assert (EE : (e =? 101) || (e =? 69) = true) by lia. rewrite EE.
  assert (SP : span_digits (ds ++ r) = (ds, r)). { apply span_all; auto. intros c t ->. cbn in S. destruct (is_digit c) eqn:Q; auto. apply is_digit_iff in Q. unfold numeric in S. tauto. }
  assert (Q : (match (sg ++ ds) ++ r with [] => ([], (sg ++ ds) ++ r) | x :: r' => if (x =? 43) || (x =? 45) then ([x], r') else ([], (sg ++ ds) ++ r) end) = (sg, ds ++ r)).
  { destruct SG as [->|[->| ->]]; [|reflexivity|reflexivity]. cbn [app]. destruct ds as [|d ds]; [contradiction|]. cbn [app]. cbn [forallb] in D. apply andb_prop in D as (D & _). apply is_digit_iff in D. unfold digit in D.
    replace ((d =? 43) || (d =? 45)) with false by lia. reflexivity. }
  rewrite Q. rewrite SP. destruct ds; [contradiction|reflexivity].
Qed.
Lemma exponent_start x r : Exponent x -> Starts (fun c => ~ numeric c) r -> Starts (fun c => ~ digit c /\ c <> 46) (x ++ r).
Proof. intros [|e sg ds [->| ->] _ _] S; cbn [app]; [destruct r; cbn in *; auto; unfold numeric in S; tauto| |]; cbn; unfold digit; lia. Qed.
Lemma fraction_reads f x r : Fraction f -> Exponent x -> Starts (fun c => ~ numeric c) r -> fraction (f ++ x ++ r) = (match f with [] => [] | _ :: ds => ds end, x ++ r).
Proof.
  intros F X S. pose proof (exponent_start x r X S) as ST. destruct F as [|ds D].
  - cbn [app]. unfold fraction. destruct (x ++ r) as [|c t]; [reflexivity|]. cbn in ST. replace (c =? 46) with false by lia. reflexivity.
  - apply only_digits in D as (D & N). cbn [app fraction]. change (46 =? 46) with true. cbn iota. rewrite span_all; auto.
    + destruct ds; [contradiction|reflexivity].
    + intros c t E. rewrite E in ST. cbn in ST. destruct (is_digit c) eqn:Q; auto. apply is_digit_iff in Q. tauto.
Qed.

Section WithFloats.
Context {FL : Floats}.
Notation LVal := (LVal rounded). Notation LText := (LText rounded). Notation LElems := (LElems rounded). Notation LMembers := (LMembers rounded). Notation LMember := (LMember rounded).

Lemma float_parses neg n i f x r : 0 <= n -> WritesInt n i -> Fraction f -> Exponent x -> f ++ x <> [] -> Starts (fun c => ~ numeric c) r ->
  (forall v, ~ Quarter v ((if neg : bool then [45] else []) ++ i ++ f ++ x)) ->
  read_number (((if neg then [45] else []) ++ i ++ f ++ x) ++ r) =
  Some (let t := (if neg then [45] else []) ++ i ++ f ++ x in JFloat (fst (rounded t)) (snd (rounded t)), r).
Proof.
  intros P (d & D & SG & L) F X NE S NQ. destruct SG as [[? _]|[_ ->]]; [lia|]. rewrite Z.abs_eq in D by lia.
  pose proof (Digits_num _ _ D) as N. pose proof (Digits_chars _ _ D) as FC. destruct (digits_nonempty _ L) as (c & d' & ED). cbv zeta.
  set (text := (if neg then [45] else []) ++ d ++ f ++ x) in *.
  assert (ER : text ++ r = (if neg then [45] else []) ++ d ++ f ++ x ++ r) by (unfold text; rewrite <- !app_assoc; reflexivity). rewrite ER.
  rewrite read_number_eq.
  assert (M : minus ((if neg then [45] else []) ++ d ++ f ++ x ++ r) = (neg, d ++ f ++ x ++ r)).
  { destruct neg; [reflexivity|]. cbn [app]. apply minus_digits; auto. congruence. }
  rewrite M. cbv beta iota.
  assert (US : unsigned (d ++ f ++ x ++ r) = (d, f ++ x ++ r)).
  { eapply unsigned_reads; eauto. destruct F as [|ds _]; [cbn [app]|cbn; unfold digit; lia]. pose proof (exponent_start x r X S) as ST. revert ST. apply starts_weaken. tauto. }
  rewrite US. cbv beta iota. rewrite fraction_reads by auto. cbv beta iota. rewrite exponent_reads by auto. cbv beta iota.
  assert (G : forall A (a b : A), match d with [] => a | _ => b end = b) by (intros; subst d; reflexivity). rewrite G.
  set (fd := match f with [] => [] | _ :: ds => ds end).
  assert (FE : f = match fd with [] => [] | _ => 46 :: fd end).
  { unfold fd. destruct F as [|ds (ND & _)]; [reflexivity|]. destruct ds; [contradiction|reflexivity]. }
  assert (FL' : float_of neg d fd x = JFloat (fst (rounded text)) (snd (rounded text))).
  { assert (OT : (let '(r0, d0) := rounded text in JFloat r0 d0) = JFloat (fst (rounded text)) (snd (rounded text))) by (destruct (rounded text); reflexivity).
    assert (V : LVal (float_of neg d fd x) text).
    { unfold text. rewrite FE. apply float_sound; auto.
      - exists d. rewrite N, Z.abs_eq by lia. auto.
      - rewrite N. lia.
      - rewrite <- FE. exact F.
      - destruct fd; [|left; discriminate]. right. intros ->. apply NE. rewrite FE. reflexivity. }
    rewrite <- OT. clear V OT. unfold float_of. cbv zeta. match goal with |- context [rounded ?x] => assert (ET : x = text) by (unfold text; rewrite FE at 1; reflexivity); rewrite ET; clear ET end.
    destruct neg; [reflexivity|]. destruct x as [|e0 x0]; [|reflexivity]. destruct (Z.leb_spec (zlen d) 15) as [LE|GT]; [|reflexivity].
    assert (QQ : forall f0 m a e, In (f0, m, a, e) quarters -> fd = f0 -> False).
    { intros f0 m a e IQ EF. apply (NQ (JFloat (d ++ 46 :: f0) (Fin false (m * n + a) e))). replace text with (d ++ 46 :: f0).
      - apply Q_quarter; auto.
        + apply Digits_bound in D. assert (10 ^ zlen d <= 10 ^ 15) by (apply Z.pow_le_mono_r; lia). lia.
        + exists d. rewrite Z.abs_eq by lia. auto.
      - unfold text. cbn [app]. rewrite app_nil_r. rewrite FE, EF. destruct (quarter_digits _ _ _ _ IQ) as ([->|[->|[->| ->]]] & _); reflexivity. }
    destruct (list_eqb fd (str "0")) eqn:E0; [exfalso; apply list_eqb_eq in E0; eapply (QQ _ 1 0 0); [|exact E0]; cbn; auto|].
    destruct (list_eqb fd (str "5")) eqn:E5; [exfalso; apply list_eqb_eq in E5; eapply (QQ _ 10 5 (-1)); [|exact E5]; cbn; auto|].
    destruct (list_eqb fd (str "25")) eqn:E25; [exfalso; apply list_eqb_eq in E25; eapply (QQ _ 100 25 (-2)); [|exact E25]; cbn; auto|].
    destruct (list_eqb fd (str "75")) eqn:E75; [exfalso; apply list_eqb_eq in E75; eapply (QQ _ 100 75 (-2)); [|exact E75]; cbn; auto 6|]. reflexivity. }
  rewrite FL'. destruct fd as [|c1 fd1] eqn:EFD; [|reflexivity]. destruct x as [|e1 x1]; [|reflexivity]. exfalso. apply NE. rewrite FE. reflexivity.
Qed.

Lemma value_digit t r k : (exists c u, t = c :: u /\ (digit c \/ c = 45 /\ exists d v, u = d :: v /\ digit d)) -> value (S k) (t ++ r) = read_number (t ++ r).
Proof.
  intros (c & u & -> & H). cbn [app]. rewrite value_S.
  assert (Q : c =? 34 = false /\ c =? 123 = false /\ c =? 91 = false) by (unfold digit in H; lia). destruct Q as (-> & -> & ->).
  assert (FD : find (fun p => begins (fst p) (c :: u ++ r)) constants = None).
  { assert (G : forall l : list (pystr * json), (forall p, In p l -> begins (fst p) (c :: u ++ r) = false) -> find (fun p => begins (fst p) (c :: u ++ r)) l = None).
    { induction l as [|p l IH]; intros A; cbn [find]; auto. rewrite (A p) by (left; reflexivity). apply IH. intros q I. apply A. right. auto. }
    apply G. clear G. assert (B : forall a p, (a =? c) = false -> begins (a :: p) (c :: u ++ r) = false) by (intros a p E; cbn [begins]; rewrite E; reflexivity).
    intros p I. unfold constants in I. cbn [In] in I. repeat (destruct I as [<-|I]; [cbn [fst]; match goal with |- begins ?p _ = false => let q := eval vm_compute in p in change p with q end|]); [..|destruct I].
    6:{ destruct H as [H|(-> & d & v & -> & H)]; [apply B; unfold digit in H; lia|]. cbn [begins app]. unfold digit in H. replace (73 =? d) with false by lia. reflexivity. }
    all: apply B; unfold digit in H; lia. }
  rewrite FD. reflexivity.
Qed.
Lemma numeral_start t : Numeral t -> exists c u, t = c :: u /\ (digit c \/ c = 45 /\ exists d v, u = d :: v /\ digit d).
Proof.
  intros [n i f x P W _ _ _|n i f x P W _ _ _]; destruct W as (d & D & SG & L); destruct SG as [[? _]|[_ ->]]; try lia; destruct (digits_nonempty _ L) as (c & d' & ->);
    pose proof (Digits_chars _ _ D) as F; cbn in F; apply andb_true_iff in F as [F _]; apply is_digit_iff in F; cbn [app]; eauto 10.
Qed.
Lemma lval_head v t : LVal v t -> exists c u, t = c :: u /\ ~ blank c /\ c <> 93 /\ c <> 125.
Proof.
  assert (DG : forall c u, (digit c \/ c = 45 /\ exists d v, u = d :: v /\ digit d) -> ~ blank c /\ c <> 93 /\ c <> 125) by (intros c u H; unfold digit, blank in *; cbn; lia).
  intros [| | | | | |n t' W| |v' t' Q|t' N _|s t' (u & _ & ->)|w B|v' l t' E|w B|f fs t' E]; try (eexists _, _; split; [reflexivity|]; unfold blank; cbn; lia).
  - destruct (number_start _ (ex_intro _ n W)) as (c & u & -> & H). eauto 10.
  - destruct Q as [n t0 f m a e R W I]. destruct (number_start _ (ex_intro _ n W)) as (c & u & -> & H). cbn [app]. eauto 10.
  - destruct (numeral_start _ N) as (c & u & -> & H). eauto 10.
Qed.
Scheme LVal_mut := Minimality for S_Loads.LVal Sort Prop with LText_mut := Minimality for S_Loads.LText Sort Prop with LElems_mut := Minimality for S_Loads.LElems Sort Prop
  with LMembers_mut := Minimality for S_Loads.LMembers Sort Prop with LMember_mut := Minimality for S_Loads.LMember Sort Prop.
Combined Scheme loads_mut from LVal_mut, LText_mut, LElems_mut, LMembers_mut, LMember_mut.
Lemma ltext_head v t r : LText v t -> exists w c u, Blank w /\ t ++ r = w ++ c :: u /\ ~ blank c /\ c <> 93 /\ c <> 125.
Proof. intros [v' w t' w' B V B']. destruct (lval_head _ _ V) as (c & u & -> & A). exists w, c. eexists. split; auto. split; auto. rewrite <- !app_assoc. cbn [app]. reflexivity. Qed.
Lemma lelems_head v l t r : LElems v l t -> exists w c u, Blank w /\ t ++ r = w ++ c :: u /\ ~ blank c /\ c <> 93.
Proof.
  intros [v' t' T|v' v2 l' t' u T _].
  - destruct (ltext_head _ _ r T) as (w & c & x & B & E & A). exists w, c, x. tauto.
  - rewrite <- app_assoc. destruct (ltext_head _ _ ((44 :: u) ++ r) T) as (w & c & x & B & E & A). exists w, c, x. tauto.
Qed.
Lemma lmember_head f t r : LMember f t -> exists w u, Blank w /\ t ++ r = w ++ 34 :: u.
Proof. intros [k v w s w' t' B (u & _ & ->) B' _]. exists w. eexists. split; auto. rewrite <- app_assoc. cbn [app]. reflexivity. Qed.
Lemma lmembers_head f l t r : LMembers f l t -> exists w u, Blank w /\ t ++ r = w ++ 34 :: u.
Proof. intros [f' t' M|f' f2 l' t' u M _]; [eapply lmember_head; eauto|]. rewrite <- app_assoc. eapply lmember_head; eauto. Qed.

Lemma exact_parses :
  (forall v t, LVal v t -> forall r f, Starts (fun c => ~ numeric c) r -> (2 * length t <= f)%nat -> value f (t ++ r) = Some (v, r)) /\
  (forall v t, LText v t -> forall r, Starts delim r -> exists r', skip r' = r /\ forall f, (2 * length t <= f)%nat -> value f (skip (t ++ r)) = Some (v, r')) /\
  (forall v l t, LElems v l t -> forall r f, (2 * length t + 1 <= f)%nat -> elements f (skip (t ++ 93 :: r)) = Some (v :: l, r)) /\
  (forall m l t, LMembers m l t -> forall r f, (2 * length t + 1 <= f)%nat -> members f (skip (t ++ 125 :: r)) = Some (m :: l, r)) /\
  (forall m t, LMember m t -> forall r, Starts delim r -> exists u r1 r2 r', skip (t ++ r) = 34 :: u /\ read_string u = Some (fst m, r1) /\ skip r1 = 58 :: r2 /\
     (forall f, (2 * length t <= f)%nat -> value f (skip r2) = Some (snd m, r')) /\ skip r' = r).
Proof.
  apply loads_mut.
  - intros r f S L. destruct f; [cbn in L; lia|]. reflexivity.
  - intros r f S L. destruct f; [cbn in L; lia|]. reflexivity.
  - intros r f S L. destruct f; [cbn in L; lia|]. reflexivity.
  - intros r f S L. destruct f; [cbn in L; lia|]. reflexivity.
  - intros r f S L. destruct f; [cbn in L; lia|]. reflexivity.
  - intros r f S L. destruct f; [cbn in L; lia|]. reflexivity.
  - intros n t W r f S L. destruct f; [destruct (number_start t (ex_intro _ n W)) as (c & u & -> & _); cbn in L; lia|]. rewrite value_number by eauto. apply int_parses; auto.
  - intros r f S L. destruct f; [cbn in L; lia|]. rewrite value_digit by (exists 45, [48]; split; [reflexivity|right; split; auto; exists 48, []; split; auto; unfold digit; lia]).
    change (str "-0") with [45; 48]. cbn [app]. rewrite read_number_eq. destruct (no_fraction r S) as (FR & EX). change (minus (45 :: 48 :: r)) with (true, 48 :: r). cbv beta iota. change (unsigned (48 :: r)) with ([48], r). cbv beta iota.
    rewrite FR. cbv beta iota. rewrite EX. reflexivity.
  - intros v t Q r k S L. destruct Q as [n t0 f m a e R W Q]. destruct k; [rewrite app_length in L; cbn in L; lia|]. rewrite <- app_assoc. rewrite value_number by eauto. rewrite app_assoc. apply quarter_parses; auto.
  - intros t N NQ r k S L. destruct k; [destruct (numeral_start _ N) as (c & u & -> & _); cbn in L; lia|]. rewrite value_digit by (apply numeral_start; auto).
    destruct N as [n i f x P W F X NE|n i f x P W F X NE].
    + apply (float_parses false n i f x r P W F X NE S NQ).
    + apply (float_parses true n i f x r P W F X NE S NQ).
  - intros s t J r f S L. destruct (lstring_parses s t r J) as (u & E & RS). rewrite E. destruct f; [destruct J as (? & _ & ->); cbn in L; lia|]. rewrite value_S. change (34 =? 34) with true. cbv iota. rewrite RS. reflexivity.
  - intros w B r f S L. destruct f; [cbn in L; lia|]. cbn [app]. rewrite value_S. change (91 =? 34) with false. change (91 =? 123) with false. change (91 =? 91) with true. cbv iota. rewrite <- app_assoc.
    rewrite skip_blank by (auto; cbn; unfold blank; cbn; lia). reflexivity.
  - intros v l t E IH r f S L. destruct f; [cbn in L; lia|]. cbn [app]. rewrite value_S. change (91 =? 34) with false. change (91 =? 123) with false. change (91 =? 91) with true. cbv iota. rewrite <- app_assoc. cbn [app].
    cbn [length] in L. rewrite app_length in L. cbn [length] in L.
    destruct (lelems_head _ _ _ (93 :: r) E) as (w & c & u & B & Q & NB & NC). specialize (IH r f ltac:(lia)). rewrite Q in *. rewrite skip_blank in * by auto. destruct (Z.eqb_spec c 93); [contradiction|]. rewrite IH. reflexivity.
  - intros w B r f S L. destruct f; [cbn in L; lia|]. cbn [app]. rewrite value_S. change (123 =? 34) with false. change (123 =? 123) with true. cbv iota. rewrite <- app_assoc.
    rewrite skip_blank by (auto; cbn; unfold blank; cbn; lia). reflexivity.
  - intros m l t E IH r f S L. destruct f; [cbn in L; lia|]. cbn [app]. rewrite value_S. change (123 =? 34) with false. change (123 =? 123) with true. cbv iota. rewrite <- app_assoc. cbn [app].
    cbn [length] in L. rewrite app_length in L. cbn [length] in L.
    destruct (lmembers_head _ _ _ (125 :: r) E) as (w & u & B & Q). specialize (IH r f ltac:(lia)). rewrite Q in *. rewrite skip_blank in * by (auto; cbn; unfold blank; cbn; lia). change (34 =? 125) with false. cbv iota. rewrite IH. reflexivity.
  - intros v w t w' B V IH B' r S. destruct (lval_head _ _ V) as (c & u & E & NB & _). exists (w' ++ r). split; [apply skip_blank; auto using delim_blank|].
    rewrite <- !app_assoc. rewrite skip_blank by (auto; subst t; cbn; auto). intros f L. rewrite !app_length in L. rewrite IH by (auto using delim_digit; lia). reflexivity.
  - intros v t T IH r f L. destruct f; [lia|]. rewrite elements_S. destruct (IH (93 :: r)) as (r' & SK & V); [cbn; unfold delim; auto|]. rewrite V by lia. rewrite SK. reflexivity.
  - intros v v' l t u T IH E IH2 r f L. destruct f; [lia|]. rewrite elements_S. rewrite app_length in L. cbn [length] in L. rewrite <- app_assoc. cbn [app]. destruct (IH (44 :: u ++ 93 :: r)) as (r' & SK & V); [cbn; unfold delim; auto|]. rewrite V by lia. rewrite SK.
    change (44 =? 93) with false. change (44 =? 44) with true. cbv iota. rewrite IH2 by lia. reflexivity.
  - intros m t T IH r f L. destruct f; [lia|]. destruct (IH (125 :: r)) as (u & r1 & r2 & r' & -> & RS & SK & V & SK'); [cbn; unfold delim; auto|]. rewrite members_S. change (negb (34 =? 34)) with false. cbv iota. rewrite RS, SK. change (negb (58 =? 58)) with false. cbv iota.
    rewrite V by lia. rewrite SK'. change (125 =? 125) with true. cbv iota. destruct m. reflexivity.
  - intros m m' l t u T IH E IH2 r f L. destruct f; [lia|]. rewrite app_length in L. cbn [length] in L. rewrite <- app_assoc. cbn [app]. destruct (IH (44 :: u ++ 125 :: r)) as (u' & r1 & r2 & r' & -> & RS & SK & V & SK'); [cbn; unfold delim; auto|].
    rewrite members_S. change (negb (34 =? 34)) with false. cbv iota. rewrite RS, SK. change (negb (58 =? 58)) with false. cbv iota. rewrite V by lia. rewrite SK'. change (44 =? 125) with false. change (44 =? 44) with true. cbv iota. rewrite IH2 by lia. destruct m. reflexivity.
  - intros k v w s w' t B J B' T IH r S. rewrite <- !app_assoc. cbn [app]. rewrite <- ?app_assoc.
    destruct (lstring_parses k s (w' ++ (58 :: t ++ r)) J) as (u & E & RS). exists u, (w' ++ (58 :: t ++ r)), (t ++ r).
    destruct (IH r S) as (r' & SK' & V). exists r'. cbn [fst snd]. assert (NB : Starts (fun c => ~ blank c) (s ++ w' ++ 58 :: t ++ r)) by (rewrite E; cbn; unfold blank; cbn; lia).
    rewrite (skip_blank w) by auto. split; auto. split; auto. split; [apply skip_blank; auto; cbn; unfold blank; cbn; lia|]. split; auto. intros f L. apply V. rewrite !app_length in L. cbn [length] in L. lia.
Qed.
Lemma exact_text v t : LText v t -> parse t = Some v.
Proof.
  intros T. destruct exact_parses as (_ & P & _). destruct (P v t T [] I) as (r' & SK & V). rewrite app_nil_r in V. unfold parse. rewrite V by lia. rewrite SK. reflexivity.
Qed.

(** Each text stands for at most one value. *)
Theorem C103_one_value v v' t : LText v t -> LText v' t -> v = v'.
Proof. intros A B. apply exact_text in A, B. congruence. Qed.
(** json.loads accepts a text if and only if it is one of the grammar. *)
Theorem C103_exactly t : (exists v, loads t = Ok v) <-> (exists v, LText v t).
Proof.
  split; intros (v & H).
  - apply C103_accepts in H as (v0 & T & _). eauto.
  - apply exact_text in H. unfold loads. rewrite H. eauto.
Qed.
(** A text says one thing: the same coins and the same outputs however it is read. *)
Theorem C103_says_one t us outs us' outs' : Says rounded t us outs -> Says rounded t us' outs' ->
  outs = outs' /\ Forall2 (fun d d' => d_amount d = d_amount d' /\ d_confirmations d = d_confirmations d' /\ d_script d = d_script d' /\ d_txid d = d_txid d' /\
    d_txindex d = d_txindex d' /\ d_type d = d_type d' /\ d_vsize d = d_vsize d' /\ d_sequence d = d_sequence d') us us'.
Proof.
  intros (j & ul & ol & T & U & O & FU & FO) (j' & ul' & ol' & T' & U' & O' & FU' & FO').
  pose proof (C103_one_value _ _ _ T T'). subst j'. clear T T'.
  assert (LAST : forall k v v' j, LastField k v j -> LastField k v' j -> v = v').
  { clear. intros k v v' j (a & b & -> & N) (a' & b' & E & N'). injection E as E. revert a' E. induction a as [|x a IH]; intros [|x' a'] E; cbn [app] in E.
    - injection E as -> _. auto.
    - injection E as <- E. exfalso. apply N. rewrite E, map_app, in_app_iff. right. left. auto.
    - injection E as -> E. exfalso. apply N'. rewrite <- E, map_app, in_app_iff. right. left. auto.
    - injection E as <- E. eauto. }
  pose proof (LAST _ _ _ _ U U') as Q. injection Q as <-. pose proof (LAST _ _ _ _ O O') as Q. injection Q as <-. split.
  - clear -FO FO'. revert outs' FO'. induction FO as [|o j outs l (a & n & -> & ->) _ IH]; intros outs' H; inversion H as [|o' j' outs2 l' (a' & n' & -> & E) FO2]; subst; auto.
    injection E as <- <-. f_equal. auto.
  - clear -FU FU' LAST. revert us' FU'. induction FU as [|d j us l C _ IH]; intros us' H; inversion H as [|d' j' us2 l' C' FU2]; subst; constructor; auto.
    destruct C as (A1 & A2 & A3 & A4 & A5 & A6 & (v & A7 & V7) & _ & A8). destruct C' as (B1 & B2 & B3 & B4 & B5 & B6 & (v' & B7 & V7') & _ & B8).
    pose proof (LAST _ _ _ _ A1 B1) as Q1. pose proof (LAST _ _ _ _ A2 B2) as Q2. pose proof (LAST _ _ _ _ A3 B3) as Q3. pose proof (LAST _ _ _ _ A4 B4) as Q4.
    pose proof (LAST _ _ _ _ A5 B5) as Q5. pose proof (LAST _ _ _ _ A6 B6) as Q6. pose proof (LAST _ _ _ _ A7 B7) as Q7. pose proof (LAST _ _ _ _ A8 B8) as Q8.
    injection Q1 as ->. injection Q2 as ->. injection Q3 as ->. injection Q4 as ->. injection Q5 as ->. injection Q6 as ->. injection Q8 as ->. repeat split; auto.
    subst v'. clear -V7 V7'. inversion V7 as [E1 E2|n E1 E2|r neg c e z LE EQ E1 E2]; subst v; inversion V7' as [E3 E4|n' E3 E4|r' neg' c' e' z' LE' EQ' E3 E4]; subst; auto.
    assert (0 < 10 ^ - e) by (apply Z.pow_pos_nonneg; lia). assert (z = z') by nia. subst. reflexivity.
Qed.

(** ** What is said is signed *)
Lemma last_get k v j : LastField (str k) v j -> jget k (as_dicts j) = Ok (as_dicts v).
Proof.
  intros (a & b & -> & NI). cbn [as_dicts jget]. fold (into_dict (map (fun p => (fst p, as_dicts (snd p))) (a ++ (str k, v) :: b)) []).
  set (l := map (fun p => (fst p, as_dicts (snd p))) (a ++ (str k, v) :: b)).
  destruct (into_dict_spec l [] (NoDup_nil _)) as (N & B & C).
  assert (I : In (str k) (map fst (into_dict l []))).
  { apply B. left. unfold l. rewrite map_map, map_app, in_app_iff. right. left. reflexivity. }
  apply in_map_iff in I as ((k' & v') & E & I). cbn [fst] in E. subst k'.
  assert (V : v' = as_dicts v).
  { destruct (C _ _ I) as [(l1 & l2 & E & NI2)|(_ & [])]. destruct (mapped_last _ _ _ _ _ E NI2) as (v0 & (a' & b' & E' & NI') & <- & _).
    injection E' as E'. f_equal. clear -E' NI NI'. revert a' E'. induction a as [|x a IH]; intros [|x' a'] E; cbn [app] in E.
    - injection E as -> _. auto.
    - injection E as <- E. exfalso. apply NI. rewrite E, map_app, in_app_iff. right. left. auto.
    - injection E as -> E. exfalso. apply NI'. rewrite <- E, map_app, in_app_iff. right. left. auto.
    - injection E as <- E. eauto. }
  subst v'. destruct (find (fun p => list_eqb (fst p) (str k)) (into_dict l [])) as [(k1 & v1)|] eqn:F.
  - cbn [snd]. apply find_some in F as (I1 & E). cbn [fst] in E. apply list_eqb_eq in E. subst k1. f_equal.
    clear -N I I1. induction (into_dict l []) as [|(x & y) d IH]; [destruct I|]. cbn [map fst] in N. inversion N as [|? ? N1 N2]; subst.
    destruct I as [I|I]; destruct I1 as [I1|I1]; auto; [congruence|exfalso|exfalso].
    + injection I as -> ->. apply N1. apply in_map_iff. exists (str k, v1). auto.
    + injection I1 as -> ->. apply N1. apply in_map_iff. exists (str k, as_dicts v). auto.
  - exfalso. pose proof (find_none _ _ F _ I) as Q. cbn [fst] in Q. rewrite list_eqb_refl in Q. discriminate.
Qed.
Lemma last_vsize v j : SizeIs v j -> read_vsize (as_dicts j) = Ok v.
Proof.
  intros [|n|r neg c e z LE EQ]; [reflexivity|reflexivity|]. cbn [as_dicts read_vsize]. assert (P : 0 < 10 ^ - e) by (apply Z.pow_pos_nonneg; lia).
  rewrite <- EQ. rewrite Z.mod_mul, Z.div_mul by lia. destruct (Z.leb_spec e 0); [|lia]. cbn [andb Z.eqb]. f_equal. destruct neg; lia.
Qed.
Lemma last_udict d j : CoinIs d j -> exists w, read_udict (as_dicts j) = Ok (mkD (d_amount d) (d_confirmations d) (d_script d) (d_txid d) (d_txindex d) (d_type d) (d_vsize d) w (d_sequence d)).
Proof.
  intros (A1 & A2 & A3 & A4 & A5 & A6 & (v & A7 & V) & (w & A8) & A9). unfold read_udict. eexists.
  rewrite (last_get _ _ _ A1). cbn [bind as_dicts jint]. rewrite (last_get _ _ _ A2). cbn [bind as_dicts jint]. rewrite (last_get _ _ _ A3). cbn [bind as_dicts jstr].
  rewrite (last_get _ _ _ A4). cbn [bind as_dicts jstr]. rewrite (last_get _ _ _ A5). cbn [bind as_dicts jint]. rewrite (last_get _ _ _ A6). cbn [bind as_dicts jstr].
  rewrite (last_get _ _ _ A7). cbn [bind]. rewrite (last_vsize _ _ V). cbn [bind]. rewrite (last_get _ _ _ A8). cbn [bind]. rewrite (last_get _ _ _ A9). cbn [bind as_dicts jint]. reflexivity.
Qed.
Lemma last_udicts us ul : Forall2 CoinIs us ul -> exists us', mapM read_udict (map as_dicts ul) = Ok us' /\ map from_dict us' = map from_dict us.
Proof.
  induction 1 as [|d j us ul C _ (us' & E & M)]; [exists []; auto|]. destruct (last_udict _ _ C) as (w & R). eexists. cbn [map mapM]. rewrite R. cbn [bind]. rewrite E. cbn [bind]. split; [reflexivity|].
  cbn [map]. rewrite M. f_equal.
Qed.
Lemma last_outputs outs ol : Forall2 OutputIs outs ol -> mapM read_output (map as_dicts ol) = Ok outs.
Proof. induction 1 as [|o j outs ol (a & n & -> & ->) _ IH]; [reflexivity|]. cbn [map mapM as_dicts read_output bind]. rewrite IH. reflexivity. Qed.

Context {CR : Crypto} {W Amt : Type} {WD : World W Amt}.
(** A text that says which coins to spend and what to pay is signed so, in whatever
    order its fields are, with whatever blanks, escapes and further fields. *)
Theorem C103_signs sg t us outs h (s : Wallet (W:=W)) : Says rounded t us outs -> create_new_transaction sg (map from_dict us) outs = Ok h ->
  sign_text sg t None s = (Ok h, s).
Proof.
  intros (j & ul & ol & T & U & O & FU & FO) C. unfold sign_text. cbv zeta. unfold loads. rewrite (exact_text _ _ T).
  rewrite (last_get _ _ _ U). cbn [bind as_dicts jlist]. destruct (last_udicts _ _ FU) as (us' & E & M). rewrite E.
  unfold itry, ibind at 1, ilift at 1. rewrite (last_get _ _ _ O). cbn [bind as_dicts jlist]. rewrite (last_outputs _ _ FO). unfold ilift. rewrite M, C. reflexivity.
Qed.
Lemma said_not_hex t us outs : Says rounded t us outs -> deserialize_hex t = Raise ValueError.
Proof.
  intros (j & ul & ol & T & (a & b & -> & _) & _). inversion T as [v w t0 w' B V B' E1 E2]; subst. clear T.
  assert (I : In 123 (w ++ t0 ++ w')).
  { apply in_app_iff. right. apply in_app_iff. left. clear -V. inversion V; subst; try (left; reflexivity). match goal with Q : Quarter _ _ |- _ => inversion Q end. }
  unfold deserialize_hex. assert (F : forallb (fun c => match hex_val c with Some _ => true | None => false end) (w ++ t0 ++ w') = false).
  { destruct (forallb _ _) eqn:F; auto. rewrite forallb_forall in F. specialize (F 123 I). discriminate. }
  rewrite F. rewrite (hex_to_bytes_bad _ 123); auto.
Qed.
(** Whatever is said, and whichever coins are given, two texts that say the same are
    signed alike, with the same errors and the same effects. *)
Theorem C103_reformatted sg t t' us outs x (s : Wallet (W:=W)) : Says rounded t us outs -> Says rounded t' us outs -> sign_text sg t x s = sign_text sg t' x s.
Proof.
  intros A B. pose proof (said_not_hex _ _ _ A) as HA. pose proof (said_not_hex _ _ _ B) as HB.
  destruct A as (j & ul & ol & T & U & O & FU & FO). destruct B as (j' & ul' & ol' & T' & U' & O' & FU' & FO'). unfold sign_text. cbv zeta. unfold loads. rewrite HA, HB, (exact_text _ _ T), (exact_text _ _ T').
  destruct x as [x|]; [reflexivity|].
  rewrite (last_get _ _ _ U), (last_get _ _ _ U'). cbn [bind as_dicts jlist]. destruct (last_udicts _ _ FU) as (us1 & E & M). destruct (last_udicts _ _ FU') as (us2 & E' & M'). rewrite E, E'.
  rewrite (last_get _ _ _ O), (last_get _ _ _ O'). cbn [bind as_dicts jlist]. rewrite (last_outputs _ _ FO), (last_outputs _ _ FO'), M, M'. reflexivity.
Qed.
(** The text that prepare_transaction makes says the coins and the outputs. *)
Theorem C103_prepared_says floats us outs : Forall WritableDict us -> Forall (fun o => Forall scalar (fst o)) outs -> length floats = length us ->
  Says rounded (prepared_text floats us outs) us (map (fun '(a, n) => (Addr a, n)) outs).
Proof.
  intros HU HO L. assert (T : LText (prepared_json floats us outs) (prepared_text floats us outs)).
  { apply parse_sound, text_parses, val_text, compact_reads. apply prepared_plain; auto. }
  pose proof (as_dicts_id _ (prepared_unrepeated floats us outs)) as ID.
  assert (EU : (us <- jget "unspents" (as_dicts (prepared_json floats us outs));; us <- jlist us;; mapM read_udict us) = Ok us).
  { rewrite ID. change (jget "unspents" (prepared_json floats us outs)) with (Ok (JList (map udict_json (combine floats us)))). cbn [bind jlist]. apply read_udicts; auto. }
  assert (EO : (outs <- jget "outputs" (as_dicts (prepared_json floats us outs));; outs <- jlist outs;; mapM read_output outs) = Ok (map (fun '(a, n) => (Addr a, n)) outs)).
  { rewrite ID. change (jget "outputs" (prepared_json floats us outs)) with (Ok (JList (map (fun o => JList [JStr (fst o); JInt (snd o)]) outs))). cbn [bind jlist]. apply read_outputs. }
  apply bind_ok in EU as (x1 & E1 & EU). apply bind_ok in EU as (x2 & E2 & EU). apply jget_last in E1 as (y1 & L1 & ->). apply jlist_last in E2 as (ul & -> & ->).
  apply (mapM_last _ CoinIs) in EU; [|exact udict_last].
  apply bind_ok in EO as (x1 & E1 & EO). apply bind_ok in EO as (x2 & E2 & EO). apply jget_last in E1 as (y1 & L2 & ->). apply jlist_last in E2 as (ol & -> & ->).
  apply (mapM_last _ OutputIs) in EO; [|exact output_last].
  exists (prepared_json floats us outs), ul, ol. auto.
Qed.
End WithFloats.
Print Assumptions C103_signs.
Print Assumptions C103_reformatted.
Print Assumptions C103_prepared_says.
Print Assumptions C103_one_value.
Print Assumptions C103_exactly.
Print Assumptions C103_says_one.

(** ** The hypotheses are met *)
(** Fields in another order, blanks, an escape, a field of no meaning and a coin with
    its amount twice: the text says what the text of the wallet says. *)
Definition shuffled : pystr := str " { ""outputs"" :[ [""1BvBMSEYstWetqTFn5Au4m4GFg7xJaNVN2"" ,4000 ] ] , ""note"":[NaN,-1.50e3], ""unspents"":[{""amount"":1,""sequence"":4294967295,""vsize"":131.50,""type"":""p2sh"",""txindex"":1,""txid"":""77"",""script"":""a914"",""segwit"":null,""confirmations"":3,""amount"":5000}]}".
Definition floats_150 : Floats := {| rounded := fun s => (str "131.5", Fin false 1315 (-1)) |}.
Definition shuffled_value : json := JObj [(str "outputs", JList [JList [JStr (str "1BvBMSEYstWetqTFn5Au4m4GFg7xJaNVN2"); JInt 4000]]);
  (str "note", JList [JFloat (str "nan") (NaN false); JFloat (str "131.5") (Fin false 1315 (-1))]);
  (str "unspents", JList [JObj [(str "amount", JInt 1); (str "sequence", JInt 4294967295); (str "vsize", JFloat (str "131.5") (Fin false 1315 (-1))); (str "type", JStr (str "p2sh"));
     (str "txindex", JInt 1); (str "txid", JStr (str "77")); (str "script", JStr (str "a914")); (str "segwit", JNull); (str "confirmations", JInt 3); (str "amount", JInt 5000)]])].
Ltac last_at n := match goal with |- LastField _ _ (JObj ?l) => exists (firstn n l), (skipn (S n) l); split; [reflexivity|vm_compute; intuition discriminate] end.
Example C103_says_hypotheses : Says (@rounded floats_150) shuffled [half] [(Addr (str "1BvBMSEYstWetqTFn5Au4m4GFg7xJaNVN2"), 4000)].
Proof.
  eexists shuffled_value, _, _. split; [apply (@parse_sound floats_150); vm_compute; reflexivity|].
  unfold shuffled_value. split; [last_at 2%nat|]. split; [last_at 0%nat|]. split; (apply Forall2_cons; [|constructor]).
  - split; [last_at 9%nat|]. split; [last_at 8%nat|]. split; [last_at 6%nat|]. split; [last_at 5%nat|]. split; [last_at 4%nat|]. split; [last_at 3%nat|].
    split; [eexists; split; [last_at 2%nat|]; apply (Z_float _ false 1315 (-1) 526); [lia|reflexivity]|]. split; [eexists; last_at 7%nat|]. last_at 1%nat.
  - eexists _, _. split; reflexivity.
Qed.
Example C103_reformatted_hypotheses : Says (@rounded floats_150) half_text [half] [(Addr (str "1BvBMSEYstWetqTFn5Au4m4GFg7xJaNVN2"), 4000)].
Proof. rewrite <- C103_text. destruct C103_sign_hypotheses. exact (@C103_prepared_says floats_150 [false] [half] [(str "1BvBMSEYstWetqTFn5Au4m4GFg7xJaNVN2", 4000)] H H0 eq_refl). Qed.
(** Texts that are not of the grammar: a comma too many, a control character in a
    string, a number with a leading zero, nothing at all, something after the value. *)
Example C103_refused : forall t, In t [str "[1,]"; [34; 10; 34]; str "01"; []; str "{} x"; str "1."; str "+1"; str "'a'"; str "{a:1}"] -> forall v, ~ LText (@rounded any_floats) v t.
Proof.
  intros t I v T. apply (@exact_text any_floats) in T. cbn [In] in I. repeat (destruct I as [<-|I]; [vm_compute in T; discriminate|]). destruct I.
Qed.
(** Half of a surrogate pair, which no grammar of JSON allows, is accepted. *)
Example C103_lone : @loads any_floats (str """\ud83dx\ude00""") = Ok (JStr [0xd83d; 120; 0xde00]).
Proof. vm_compute. reflexivity. Qed.
