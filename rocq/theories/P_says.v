(** C103, continued: what json.loads accepts, and what is signed is what the text says. *)
From Coq Require Import String.
From Verif Require Import F_base F_utils F_hex F_decimal M_loads S_Hex S_Decimal S_Cli S_Json S_Prepared S_Loads P_cli P_json P_loads P_prepared.
From Coq Require Import List ZArith Lia Arith.
Import ListNotations.
Open Scope Z_scope.

(** ** Strings *)
Lemma hex4_sound s n r : hex4 s = Some (n, r) -> exists a b t, HexOf [a; b] t /\ n = 256 * a + b /\ s = t ++ r /\ length t = 4%nat.
Proof.
  destruct s as [|a [|b [|c [|d s]]]]; try discriminate. cbn [hex4]. destruct (hex_val a) as [va|] eqn:A; [|discriminate]. destruct (hex_val b) as [vb|] eqn:B; [|discriminate].
  destruct (hex_val c) as [vc|] eqn:C; [|discriminate]. destruct (hex_val d) as [vd|] eqn:D; [|discriminate]. intros E. assert (EN : n = 4096 * va + 256 * vb + 16 * vc + vd) by congruence. assert (ER : r = s) by congruence. subst n r.
  exists (16 * va + vb), (16 * vc + vd), [a; b; c; d]. split; [|split; [lia|auto]].
  apply hexdigit_val in A, B, C, D. do 2 (econstructor; eauto). constructor.
Qed.
Lemma escape_sound s n r : hex4 s = Some (n, r) -> exists t, UEscape n (92 :: 117 :: t) /\ s = t ++ r /\ length t = 4%nat.
Proof. intros E. apply hex4_sound in E as (a & b & t & H & -> & -> & L). exists t. split; auto. constructor. auto. Qed.
Lemma hexdigit_range c v : hexdigit c v -> 0 <= v < 16.
Proof.
  intros (P & H). split; auto. assert (L : nth_error hexdigits (Z.to_nat v) <> None \/ nth_error HEXDIGITS (Z.to_nat v) <> None) by (destruct H as [H|H]; [left|right]; congruence).
  rewrite !nth_error_Some in L. change (length hexdigits) with 16%nat in L. change (length HEXDIGITS) with 16%nat in L. lia.
Qed.
Lemma escape_bound n t : UEscape n t -> 0 <= n < 65536.
Proof.
  intros [a b u H]. inversion H as [|x c1 c2 v1 v2 b' h H1 H2 E H3]; subst. inversion H3 as [|x' d1 d2 w1 w2 b'' h' H1' H2' E' H3']; subst.
  apply hexdigit_range in H1, H2, H1', H2'. lia.
Qed.

Lemma unicode_sound s n r : unicode_escape s = Some (n, r) ->
  (exists t, JChar n (92 :: 117 :: t) /\ s = t ++ r) \/
  (exists t, UEscape n (92 :: 117 :: t) /\ s = t ++ r /\ second_half n) \/
  (exists t, UEscape n (92 :: 117 :: t) /\ s = t ++ r /\ first_half n /\ forall m x y, UEscape m x -> second_half m -> r <> x ++ y).
Proof.
  unfold unicode_escape. intros E. destruct (hex4 s) as [(u & r1)|] eqn:E1; [|discriminate]. apply escape_sound in E1 as (t & U & -> & L).
  assert (FST : high u = true -> n = u -> r = r1 -> (forall v r3 r2, r1 = 92 :: 117 :: r2 -> hex4 r2 = Some (v, r3) -> low v = false) ->
    exists t0, UEscape n (92 :: 117 :: t0) /\ t ++ r1 = t0 ++ r /\ first_half n /\ forall m x y, UEscape m x -> second_half m -> r <> x ++ y).
  { intros HI -> -> NO. exists t. split; auto. split; auto. unfold high in HI. unfold first_half. split; [lia|]. intros m x y UX SH ->.
    destruct (escape_reads m x y UX) as (x' & -> & H4). cbn [app] in NO. specialize (NO _ _ _ eq_refl H4). unfold low in NO. unfold second_half in SH. lia. }
  destruct (high u) eqn:HI.
  - destruct r1 as [|b [|c r2]].
    + right; right. injection E as <- <-. apply FST; auto. discriminate.
    + right; right. injection E as <- <-. apply FST; auto. discriminate.
    + destruct ((b =? 92) && (c =? 117)) eqn:BC.
      * apply andb_prop in BC as (B & C). apply Z.eqb_eq in B, C. subst b c. destruct (hex4 r2) as [(v & r3)|] eqn:E2; [|discriminate]. destruct (low v) eqn:LO.
        -- left. injection E as EN ER. assert (EN' : n = 65536 + 1024 * (u - 55296) + (v - 56320)) by (symmetry; exact EN). subst r3. apply escape_sound in E2 as (t2 & U2 & -> & _).
           exists (t ++ 92 :: 117 :: t2). split; [|rewrite <- app_assoc; reflexivity]. rewrite EN'. unfold high in HI. unfold low in LO.
           change (92 :: 117 :: t ++ 92 :: 117 :: t2) with ((92 :: 117 :: t) ++ 92 :: 117 :: t2). replace (65536 + 1024 * (u - 55296) + (v - 56320)) with (65536 + 1024 * (u - 55296) + (v - 56320)) by lia.
           apply J_pair; [replace (55296 + (u - 55296)) with u by lia; auto|replace (56320 + (v - 56320)) with v by lia; auto|lia|lia].
        -- right; right. injection E as <- <-. apply FST; auto. intros v' r3' r2' Q. injection Q as <-. rewrite E2. intros Q. injection Q as <- <-. exact LO.
      * right; right. injection E as <- <-. apply FST; auto. intros v' r3' r2' Q. injection Q as -> -> <-. discriminate.
  - injection E as <- <-. destruct (low u) eqn:LO.
    + right; left. exists t. unfold low in LO. unfold second_half. repeat split; auto; lia.
    + left. exists t. split; auto. apply J_u; auto. unfold surrogate, high, low in *. lia.
Qed.

Lemma scan_sound f : forall s x r, scanstring f s = Some (x, r) -> exists u, LChars x u /\ s = u ++ 34 :: r.
Proof.
  induction f as [|f IH]; intros s x r E; [discriminate|]. cbn [scanstring] in E. destruct s as [|c s]; [discriminate|].
  destruct (Z.eqb_spec c 34) as [->|N34]. { injection E as <- <-. exists []. split; [constructor|reflexivity]. }
  destruct (Z.eqb_spec c 92) as [->|N92].
  - destruct s as [|e s]; [discriminate|]. destruct (Z.eqb_spec e 117) as [->|N117].
    + destruct (unicode_escape s) as [(n & r3)|] eqn:U; [|discriminate]. unfold with_char in E. destruct (scanstring f r3) as [(x' & r')|] eqn:S; [|discriminate]. injection E as <- <-.
      apply IH in S as (u & LC & ->). apply unicode_sound in U as [(t & J & ->)|[(t & J & -> & SH)|(t & J & -> & FH & NO)]].
      * exists ((92 :: 117 :: t) ++ u). split; [apply Ls_cons; auto|cbn [app]; rewrite <- app_assoc; reflexivity].
      * exists ((92 :: 117 :: t) ++ u). split; [apply Ls_second; auto|cbn [app]; rewrite <- app_assoc; reflexivity].
      * exists ((92 :: 117 :: t) ++ u). split; [apply Ls_first; auto|cbn [app]; rewrite <- app_assoc; reflexivity]. intros m a y UA SH ->. apply (NO m a (y ++ 34 :: r') UA SH). rewrite <- app_assoc. reflexivity.
    + destruct (letter e) as [n|] eqn:LE; [|discriminate]. unfold with_char in E. destruct (scanstring f s) as [(x' & r')|] eqn:S; [|discriminate]. injection E as <- <-.
      apply IH in S as (u & LC & ->). exists ([92; e] ++ u). split; [|reflexivity]. apply Ls_cons; auto. apply J_letter. unfold letter in LE. cbn [In].
      repeat (match type of LE with (if ?b then _ else _) = _ => let Q := fresh "Q" in destruct b eqn:Q; [injection LE as <-; apply Z.eqb_eq in Q; subst e; clear; repeat (first [left; reflexivity|right])|clear Q] end). discriminate.
  - destruct (Z.ltb_spec c 32) as [LT|GE]; [discriminate|]. unfold with_char in E. destruct (scanstring f s) as [(x' & r')|] eqn:S; [|discriminate]. injection E as <- <-.
    apply IH in S as (u & LC & ->). exists ([c] ++ u). split; [|reflexivity]. apply Ls_cons; auto. apply J_plain; auto.
Qed.
Lemma string_sound s x r : read_string s = Some (x, r) -> exists t, LString x t /\ 34 :: s = t ++ r.
Proof. intros E. apply scan_sound in E as (u & L & ->). exists (34 :: u ++ [34]). split; [exists u; auto|]. cbn [app]. rewrite <- app_assoc. reflexivity. Qed.

Lemma skip_sound s : exists w, Blank w /\ s = w ++ skip s.
Proof.
  induction s as [|c s (w & B & E)]; [exists []; split; [constructor|reflexivity]|]. cbn [skip]. destruct (is_blank c) eqn:I.
  - exists (c :: w). split; [constructor; auto; apply is_blank_iff; auto|]. cbn [app]. f_equal. exact E.
  - exists []. split; [constructor|reflexivity].
Qed.

(** ** Numbers *)
Lemma span_sound s ds r : span_digits s = (ds, r) -> s = ds ++ r /\ forallb is_digit ds = true.
Proof.
  revert ds r. induction s as [|c s IH]; intros ds r E; cbn [span_digits] in E; [injection E as <- <-; auto|].
  destruct (is_digit c) eqn:I; [|injection E as <- <-; auto]. destruct (span_digits s) as (d & t) eqn:S. injection E as <- <-. destruct (IH _ _ eq_refl) as (-> & F). split; [reflexivity|]. cbn [forallb]. rewrite I, F. reflexivity.
Qed.
Lemma digits_only ds : forallb is_digit ds = true -> ds <> [] -> DigitsOnly ds.
Proof. intros F N. split; auto. apply Forall_forall. intros c H. rewrite forallb_forall in F. specialize (F c H). apply is_digit_iff in F. exact F. Qed.
Lemma Digits_of ds : forallb is_digit ds = true -> Digits (num ds) ds.
Proof.
  induction ds as [|c ds IH] using rev_ind; intros F; [constructor|]. rewrite forallb_app in F. apply andb_prop in F as (F1 & F2). cbn [forallb] in F2. rewrite andb_true_r in F2. apply is_digit_iff in F2. unfold digit in F2.
  replace (ds ++ [c]) with (ds ++ [48 + (c - 48)]) by (do 2 f_equal; lia). unfold num at 1. rewrite fold_left_app. cbn [fold_left]. replace (48 + (c - 48) - 48) with (c - 48) by lia. apply (Dsnoc (num ds)); [apply IH; auto|lia].
Qed.
Lemma unsigned_sound s i r : unsigned s = (i, r) -> i <> [] -> s = i ++ r /\ 0 <= num i /\ WritesInt (num i) i.
Proof.
  intros E N. assert (Q : s = i ++ r /\ forallb is_digit i = true /\ (length i = 1%nat \/ exists c t, i = c :: t /\ c <> 48)).
  { unfold unsigned in E. destruct s as [|c s]; [injection E as <- <-; contradiction|]. destruct (Z.eqb_spec c 48) as [->|NC].
    - injection E as <- <-. auto.
    - apply span_sound in E as (E & F). split; auto. split; auto. right. destruct i as [|d i]; [contradiction|]. injection E as <- _. eauto. }
  destruct Q as (-> & F & L). apply Digits_of in F. pose proof (Digits_nonneg _ _ F). repeat split; auto. exists i. rewrite Z.abs_eq by auto. repeat split; auto.
Qed.
Lemma fraction_sound s f r : fraction s = (f, r) -> exists t, s = t ++ r /\ Fraction t /\ t = match f with [] => [] | _ => 46 :: f end.
Proof.
  unfold fraction. intros E. destruct s as [|c s]; [injection E as <- <-; exists []; repeat split; constructor|].
  destruct (Z.eqb_spec c 46) as [->|]; [|injection E as <- <-; exists []; repeat split; constructor].
  destruct (span_digits s) as ([|d ds] & t) eqn:S; [injection E as <- <-; exists []; repeat split; constructor|].
  injection E as <- <-. apply span_sound in S as (-> & F). exists (46 :: d :: ds). repeat split; auto. constructor. apply digits_only; auto. discriminate.
Qed.
Lemma exponent_sound s x r : exponent s = (x, r) -> s = x ++ r /\ Exponent x.
Proof.
  unfold exponent. intros E. destruct s as [|c s]; [injection E as <- <-; repeat split; constructor|].
  destruct ((c =? 101) || (c =? 69)) eqn:C; [|injection E as <- <-; repeat split; constructor].
  assert (Q : exists sg s', (match s with [] => ([], s) | x :: r' => if (x =? 43) || (x =? 45) then ([x], r') else ([], s) end) = (sg, s') /\ s = sg ++ s' /\ (sg = [] \/ sg = [43] \/ sg = [45])).
  { destruct s as [|y s]; [exists [], []; auto|]. destruct ((y =? 43) || (y =? 45)) eqn:Y; [exists [y], s|exists [], (y :: s); auto]. split; auto. split; auto. apply orb_prop in Y as [Y|Y]; apply Z.eqb_eq in Y; subst; auto. }
  destruct Q as (sg & s' & EQ & ES & SG). rewrite EQ in E. subst s. clear EQ. destruct (span_digits s') as ([|d ds] & t) eqn:S; [injection E as <- <-; repeat split; constructor|].
  injection E as <- <-. apply span_sound in S as (-> & F). split; [cbn [app]; rewrite <- !app_assoc; reflexivity|]. constructor; auto.
  - apply orb_prop in C as [C|C]; apply Z.eqb_eq in C; auto.
  - apply digits_only; auto. discriminate.
Qed.

Lemma digits_apart a b c d : forallb is_digit a = true -> forallb is_digit b = true -> Starts (fun x => ~ digit x) c -> Starts (fun x => ~ digit x) d -> a ++ c = b ++ d -> a = b /\ c = d.
Proof.
  revert b. induction a as [|x a IH]; intros [|y b] A B C D E; cbn [app forallb] in *; auto.
  - exfalso. subst c. cbn in C. apply andb_prop in B as (B & _). apply is_digit_iff in B. contradiction.
  - exfalso. subst d. cbn in D. apply andb_prop in A as (A & _). apply is_digit_iff in A. contradiction.
  - apply andb_prop in A as (_ & A). apply andb_prop in B as (_ & B). injection E as <- E. destruct (IH b A B C D E) as (-> & ->). auto.
Qed.
Lemma quarter_long n d : Digits n d -> (length d = 1%nat \/ exists c r, d = c :: r /\ c <> 48) -> n < 10 ^ 15 -> zlen d <= 15.
Proof.
  intros D L R. destruct L as [L|(c0 & r0 & E0 & N0)]; [unfold zlen; lia|]. rewrite E0 in D. pose proof (Digits_hd _ _ _ D N0) as LB. destruct (Z.le_gt_cases (zlen d) 15); auto.
  exfalso. assert (10 ^ 15 <= 10 ^ zlen r0) by (apply Z.pow_le_mono_r; [lia|]; subst d; unfold zlen in *; cbn [length] in *; lia). lia.
Qed.
Lemma quarter_digits f m a e : In (f, m, a, e) quarters -> (f = str "0" \/ f = str "25" \/ f = str "5" \/ f = str "75") /\ forallb is_digit f = true.
Proof. cbn [quarters In]. intros Q. repeat (destruct Q as [Q|Q]; [injection Q as <- <- <- <-; split; [tauto|reflexivity]|]). destruct Q. Qed.
Lemma no_quarter neg n i f x v : WritesInt n i -> 0 <= n -> Exponent x ->
  (neg = true \/ x <> [] \/ 15 < zlen i \/ ~ (f = str "0" \/ f = str "25" \/ f = str "5" \/ f = str "75")) ->
  ~ Quarter v ((if neg : bool then [45] else []) ++ i ++ (match f with [] => [] | _ => 46 :: f end) ++ x).
Proof.
  intros (d & D & SG & L) P X C Q. destruct SG as [[? _]|[_ ->]]; [lia|]. rewrite Z.abs_eq in D by lia.
  inversion Q as [n' t f' m a e R (d' & D' & SG & L') IQ EV ET]. subst v. destruct SG as [[? _]|[_ ->]]; [lia|]. rewrite Z.abs_eq in D' by lia.
  pose proof (Digits_chars _ _ D) as F. pose proof (Digits_chars _ _ D') as F'. destruct (quarter_digits _ _ _ _ IQ) as (FQ & FD).
  destruct neg; cbn [app] in ET.
  { destruct (digits_nonempty _ L') as (c & r & ->). injection ET as -> _. cbn in F'. discriminate. }
  assert (XS : Starts (fun x => ~ digit x) x) by (destruct X as [|? ? ? [->| ->] _ _]; cbn; unfold digit; auto; lia).
  destruct f as [|c0 f0]; [cbn [app] in ET|].
  - apply digits_apart in ET as (-> & ET); auto; [|cbn; unfold digit; lia]. destruct X as [|? ? ? [->| ->] _ _]; discriminate.
  - apply digits_apart in ET as (-> & ET); auto; try (cbn; unfold digit; lia). injection ET as ET. change (f' = (c0 :: f0) ++ x) in ET.
    destruct X as [|e0 sg ds [->| ->] _ _].
    + rewrite app_nil_r in ET. subst f'. destruct C as [C|[C|[C|C]]]; [discriminate|congruence| |contradiction].
      pose proof (quarter_long _ _ D L). assert (n = n') by (apply Digits_num in D; apply Digits_num in D'; congruence). lia.
    + exfalso. subst f'. rewrite forallb_app in FD. cbn in FD. rewrite andb_false_r in FD. discriminate.
    + exfalso. subst f'. rewrite forallb_app in FD. cbn in FD. rewrite andb_false_r in FD. discriminate.
Qed.

Section WithFloats.
Context {FL : Floats}.
Notation LVal := (LVal rounded). Notation LText := (LText rounded). Notation LElems := (LElems rounded). Notation LMembers := (LMembers rounded). Notation LMember := (LMember rounded).

Lemma float_sound neg i f x : WritesInt (num i) i -> 0 <= num i -> Fraction (match f with [] => [] | _ => 46 :: f end) -> Exponent x -> (f <> [] \/ x <> []) ->
  LVal (float_of neg i f x) ((if neg : bool then [45] else []) ++ i ++ (match f with [] => [] | _ => 46 :: f end) ++ x).
Proof.
  intros W P FR X NE. set (text := _ ++ i ++ _ ++ x).
  assert (NUM : Numeral text).
  { unfold text. assert (NN : (match f with [] => [] | _ => 46 :: f end) ++ x <> []) by (destruct f; [destruct NE as [NE|NE]; [contradiction|exact NE]|discriminate]).
    set (ff := match f with [] => [] | _ => 46 :: f end) in *. destruct neg; [exact (N_neg (num i) i ff x P W FR X NN)|exact (N_pos (num i) i ff x P W FR X NN)]. }
  assert (OTHER : (neg = true \/ x <> [] \/ 15 < zlen i \/ ~ (f = str "0" \/ f = str "25" \/ f = str "5" \/ f = str "75")) -> LVal (let '(r, d) := rounded text in JFloat r d) text).
  { intros C. pose proof (LV_float rounded text NUM (fun v => no_quarter neg (num i) i f x v W P X C)) as V. destruct (rounded text) as (r & d). exact V. }
  assert (QU : forall f0 m a e, In (f0, m, a, e) quarters -> f = f0 -> neg = false -> x = [] -> zlen i <= 15 -> m * num i + a = m * num i + a -> LVal (JFloat text (Fin false (m * num i + a) e)) text).
  { intros f0 m a e IQ EF EN EX LE _. assert (ET : text = i ++ 46 :: f0).
    { unfold text. rewrite EN, EX, EF, app_nil_r. destruct (quarter_digits _ _ _ _ IQ) as ([->|[->|[->| ->]]] & _); reflexivity. }
    rewrite ET. apply LV_quarter. apply Q_quarter; auto. destruct W as (d & D & SG & L). destruct SG as [[? _]|[_ SG]]; [lia|]. subst d. rewrite Z.abs_eq in D by lia. apply Digits_bound in D.
    assert (10 ^ zlen i <= 10 ^ 15) by (apply Z.pow_le_mono_r; lia). lia. }
  unfold float_of. fold text.
  destruct neg; [apply OTHER; auto|]. destruct x as [|e0 x0]; [|apply OTHER; right; left; discriminate].
  destruct (Z.leb_spec (zlen i) 15) as [LE|GT]; [|apply OTHER; auto].
  destruct (list_eqb f (str "0")) eqn:E0.
  { apply list_eqb_eq in E0. pose proof (QU (str "0") 1 0 0) as V. replace (1 * num i + 0) with (num i) in V by lia. apply V; auto. cbn; auto. }
  destruct (list_eqb f (str "5")) eqn:E5.
  { apply list_eqb_eq in E5. pose proof (QU (str "5") 10 5 (-1)) as V. replace (10 * num i + 5) with (num (i ++ f)) in V. { apply V; auto. cbn; auto. } rewrite E5. unfold num. rewrite fold_left_app. cbn [fold_left str]. cbn -[num Z.mul Z.add]. unfold num. lia. }
  destruct (list_eqb f (str "25")) eqn:E25.
  { apply list_eqb_eq in E25. cbn [orb]. pose proof (QU (str "25") 100 25 (-2)) as V. replace (100 * num i + 25) with (num (i ++ f)) in V. { apply V; auto. cbn; auto. } rewrite E25. unfold num. rewrite fold_left_app. cbn -[Z.mul Z.add Z.sub]. lia. }
  destruct (list_eqb f (str "75")) eqn:E75.
  { apply list_eqb_eq in E75. cbn [orb]. pose proof (QU (str "75") 100 75 (-2)) as V. replace (100 * num i + 75) with (num (i ++ f)) in V. { apply V; auto. cbn; auto 6. } rewrite E75. unfold num. rewrite fold_left_app. cbn -[Z.mul Z.add Z.sub]. lia. }
  cbn [orb]. apply OTHER. right; right; right. intros [Q|[Q|[Q|Q]]]; rewrite Q in *; discriminate.
Qed.
Lemma number_sound s v r : read_number s = Some (v, r) -> exists t, s = t ++ r /\ LVal v t.
Proof.
  rewrite read_number_eq. intros E. assert (M : exists neg s1, minus s = (neg, s1) /\ s = (if neg : bool then [45] else []) ++ s1).
  { unfold minus. destruct s as [|c s]; [exists false, []; auto|]. destruct (Z.eqb_spec c 45) as [->|]; [exists true, s|exists false, (c :: s)]; auto. }
  destruct M as (neg & s1 & EM & ->). rewrite EM in E. cbv beta iota in E. destruct (unsigned s1) as (i & s2) eqn:U. destruct i as [|c i0]; [discriminate|].
  destruct (unsigned_sound _ _ _ U ltac:(discriminate)) as (-> & P & W). set (i := c :: i0) in *. clearbody i. clear c i0 U EM.
  destruct (fraction s2) as (f & s3) eqn:F. destruct (fraction_sound _ _ _ F) as (ft & -> & FR & EF). destruct (exponent s3) as (x & s4) eqn:X. destruct (exponent_sound _ _ _ X) as (-> & EX).
  subst ft.
  assert (INT : f = [] -> x = [] -> LVal (JInt (if neg then - num i else num i)) ((if neg then [45] else []) ++ i)).
  { intros -> ->. destruct neg; [|apply LV_int; exact W]. destruct (Z.eq_dec (num i) 0) as [Z0|NZ].
    - rewrite Z0. destruct W as (d & D & SG & L). destruct SG as [[? _]|[_ SG]]; [lia|]. subst d. rewrite Z.abs_eq in D by lia.
      assert (i = [48]) as ->; [|apply LV_minus_zero]. destruct L as [L|(c & t & E1 & N)].
      + destruct i as [|c [|]]; try discriminate. f_equal. rewrite Z0 in D. apply Digits_num in D as D1. apply Digits_chars in D. cbn in D. rewrite andb_true_r in D. apply is_digit_iff in D. unfold num in D1. cbn [fold_left] in D1. lia.
      + rewrite E1 in D. pose proof (Digits_hd _ _ _ D N). rewrite <- E1, Z0 in H. assert (0 < 10 ^ zlen t) by (apply Z.pow_pos_nonneg; unfold zlen; lia). lia.
    - apply LV_int. destruct W as (d & D & SG & L). destruct SG as [[? _]|[_ SG]]; [lia|]. subst d. exists i. rewrite Z.abs_opp. repeat split; auto. left. split; [lia|reflexivity]. }
  assert (FLO : (f <> [] \/ x <> []) -> LVal (float_of neg i f x) ((if neg then [45] else []) ++ i ++ (match f with [] => [] | _ => 46 :: f end) ++ x)) by (intros NE; apply float_sound; auto).
  destruct f as [|c f]; [destruct x as [|e x]|].
  - injection E as <- <-. exists ((if neg then [45] else []) ++ i). split; [rewrite <- app_assoc; reflexivity|auto].
  - injection E as <- <-. exists ((if neg then [45] else []) ++ i ++ [] ++ e :: x). split; [rewrite <- !app_assoc; reflexivity|]. apply FLO. right. discriminate.
  - injection E as <- <-. exists ((if neg then [45] else []) ++ i ++ (46 :: c :: f) ++ x). split; [rewrite <- !app_assoc; reflexivity|]. apply FLO. left. discriminate.
Qed.

(** ** Values *)
Lemma begins_sound p s : begins p s = true -> s = p ++ skipn (length p) s.
Proof. revert s. induction p as [|c p IH]; intros s E; auto. destruct s as [|d s]; [discriminate|]. cbn [begins] in E. apply andb_prop in E as (E1 & E2). apply Z.eqb_eq in E1. subst d. cbn [app length skipn]. f_equal. auto. Qed.
Lemma constants_sound p v : In (p, v) constants -> LVal v p.
Proof. intros H. cbn [constants In] in H. repeat (destruct H as [H|H]; [injection H as <- <-; first [apply LV_null|apply LV_true|apply LV_false|apply LV_nan|apply LV_inf|apply LV_minus_inf]|]). destruct H. Qed.
Lemma elems_blank v l w t : Blank w -> LElems v l t -> LElems v l (w ++ t).
Proof.
  intros B E. destruct E as [v t T|v v' l t u T E].
  - constructor. destruct T as [v w1 t w2 B1 V B2]. rewrite app_assoc. constructor; auto. apply Forall_app; auto.
  - rewrite app_assoc. constructor; auto. destruct T as [v w1 t w2 B1 V B2]. rewrite app_assoc. constructor; auto. apply Forall_app; auto.
Qed.
Lemma member_blank f w t : Blank w -> LMember f t -> LMember f (w ++ t).
Proof. intros B M. destruct M as [k v w1 s w2 t B1 S B2 T]. rewrite app_assoc. constructor; auto. apply Forall_app; auto. Qed.
Lemma members_blank f fs w t : Blank w -> LMembers f fs t -> LMembers f fs (w ++ t).
Proof. intros B E. destruct E as [f t T|f f' l t u T E]; [|rewrite app_assoc]; constructor; auto; apply member_blank; auto. Qed.
Lemma text_blank v w t w' : Blank w -> Blank w' -> LVal v t -> LText v (w ++ t ++ w'). Proof. intros; constructor; auto. Qed.
Lemma nil_blank : Blank []. Proof. constructor. Qed.

Lemma sound k :
  (forall s v r, value k s = Some (v, r) -> exists t, s = t ++ r /\ LVal v t) /\
  (forall s l r, elements k s = Some (l, r) -> exists v l' t, l = v :: l' /\ s = t ++ 93 :: r /\ LElems v l' t) /\
  (forall s l r, members k s = Some (l, r) -> exists f fs t, l = f :: fs /\ s = t ++ 125 :: r /\ LMembers f fs t).
Proof.
  induction k as [|k (IV & IE & IM)]; [repeat split; discriminate|]. repeat split.
  - intros s v r E. rewrite value_S in E. destruct s as [|c s]; [discriminate|]. destruct (Z.eqb_spec c 34) as [->|N34].
    { destruct (read_string s) as [(x & r')|] eqn:S; [|discriminate]. injection E as <- <-. apply string_sound in S as (t & L & ->). exists t. split; auto. apply LV_str. auto. }
    destruct (Z.eqb_spec c 123) as [->|N123].
    { destruct (skip_sound s) as (w & B & ES). destruct (skip s) as [|d r2]; [discriminate|]. destruct (Z.eqb_spec d 125) as [->|ND].
      - injection E as <- <-. exists (123 :: w ++ [125]). split; [rewrite ES; cbn [app]; rewrite <- app_assoc; reflexivity|apply LV_empty; auto].
      - destruct (members k (d :: r2)) as [(l & r')|] eqn:M; [|discriminate]. injection E as <- <-. apply IM in M as (f & fs & t & -> & EM & LM). exists (123 :: (w ++ t) ++ [125]).
        split; [rewrite ES, EM; cbn [app]; rewrite <- !app_assoc; reflexivity|]. apply LV_obj. apply members_blank; auto. }
    destruct (Z.eqb_spec c 91) as [->|N91].
    { destruct (skip_sound s) as (w & B & ES). destruct (skip s) as [|d r2]; [discriminate|]. destruct (Z.eqb_spec d 93) as [->|ND].
      - injection E as <- <-. exists (91 :: w ++ [93]). split; [rewrite ES; cbn [app]; rewrite <- app_assoc; reflexivity|apply LV_none; auto].
      - destruct (elements k (d :: r2)) as [(l & r')|] eqn:M; [|discriminate]. injection E as <- <-. apply IE in M as (v & l' & t & -> & EM & LM). exists (91 :: (w ++ t) ++ [93]).
        split; [rewrite ES, EM; cbn [app]; rewrite <- !app_assoc; reflexivity|]. apply LV_list. apply elems_blank; auto. }
    destruct (find _ constants) as [(p & j)|] eqn:F.
    { apply find_some in F as (IN & BG). cbn [fst] in BG. injection E as <- <-. exists p. split; [apply begins_sound; exact BG|apply constants_sound; exact IN]. }
    apply number_sound. exact E.
  - intros s l r E. rewrite elements_S in E. destruct (value k s) as [(v & r1)|] eqn:V; [|discriminate]. apply IV in V as (t & -> & LV).
    destruct (skip_sound r1) as (w & B & ES). destruct (skip r1) as [|c r2]; [discriminate|]. destruct (Z.eqb_spec c 93) as [->|N93].
    + injection E as <- <-. exists v, [], (t ++ w). split; auto. split; [rewrite ES, <- app_assoc; reflexivity|]. constructor. apply (text_blank v [] t w); auto. apply nil_blank.
    + destruct (Z.eqb_spec c 44) as [->|N44]; [|discriminate]. destruct (elements k (skip r2)) as [(l1 & r3)|] eqn:EL; [|discriminate]. injection E as <- <-.
      apply IE in EL as (v' & l' & t2 & -> & ER & LE). destruct (skip_sound r2) as (w2 & B2 & ES2). exists v, (v' :: l'), ((t ++ w) ++ 44 :: w2 ++ t2). split; auto.
      split; [rewrite ES, ES2, ER; rewrite <- !app_assoc; cbn [app]; rewrite <- !app_assoc; reflexivity|]. constructor; [apply (text_blank v [] t w); auto; apply nil_blank|apply elems_blank; auto].
  - intros s l r E. rewrite members_S in E. destruct s as [|q s]; [discriminate|]. destruct (Z.eqb_spec q 34) as [->|]; cbn [negb] in E; [|discriminate].
    destruct (read_string s) as [(key & r1)|] eqn:S; [|discriminate]. apply string_sound in S as (t1 & LS & ->).
    destruct (skip_sound r1) as (w1 & B1 & E1). destruct (skip r1) as [|c r2]; [discriminate|]. destruct (Z.eqb_spec c 58) as [->|]; cbn [negb] in E; [|discriminate].
    destruct (skip_sound r2) as (w2 & B2 & E2). destruct (value k (skip r2)) as [(v & r3)|] eqn:V; [|discriminate]. apply IV in V as (t & EV & LV).
    destruct (skip_sound r3) as (w3 & B3 & E3). destruct (skip r3) as [|c r4]; [discriminate|].
    assert (MB : LMember (key, v) ([] ++ t1 ++ w1 ++ 58 :: w2 ++ t ++ w3)) by (constructor; auto; [apply nil_blank|apply text_blank; auto]). cbn [app] in MB.
    destruct (Z.eqb_spec c 125) as [->|N125].
    + injection E as <- <-. exists (key, v), [], (t1 ++ w1 ++ 58 :: w2 ++ t ++ w3). split; auto. split; [rewrite E1, E2, EV, E3; repeat (rewrite <- !app_assoc; cbn [app]); reflexivity|]. constructor. exact MB.
    + destruct (Z.eqb_spec c 44) as [->|N44]; [|discriminate]. destruct (members k (skip r4)) as [(l1 & r5)|] eqn:EL; [|discriminate]. injection E as <- <-.
      apply IM in EL as (f & fs & t2 & -> & ER & LM). destruct (skip_sound r4) as (w4 & B4 & E4). exists (key, v), (f :: fs), ((t1 ++ w1 ++ 58 :: w2 ++ t ++ w3) ++ 44 :: w4 ++ t2). split; auto.
      split; [rewrite E1, E2, EV, E3, E4, ER; repeat (rewrite <- !app_assoc; cbn [app]); reflexivity|]. constructor; [exact MB|apply members_blank; auto].
Qed.
Lemma parse_sound t v : parse t = Some v -> LText v t.
Proof.
  unfold parse. intros E. destruct (value _ (skip t)) as [(v1 & r)|] eqn:V; [|discriminate]. apply sound in V as (t1 & EV & LV).
  destruct (skip_sound t) as (w & B & ET). destruct (skip_sound r) as (w' & B' & ER). destruct (skip r); [|discriminate]. injection E as <-. rewrite app_nil_r in ER. subst r. rewrite ET, EV. apply text_blank; auto.
Qed.

(** ** Names that come more than once *)
Lemma set_item_keys k v d : forall x, In x (map fst (set_item k v d)) <-> x = k \/ In x (map fst d).
Proof.
  induction d as [|(k' & v') d IH]; intros x; cbn [set_item map fst In]; [intuition|]. destruct (list_eqb k' k) eqn:E; cbn [map fst In].
  - apply list_eqb_eq in E. subst. intuition.
  - rewrite IH. intuition.
Qed.
Lemma set_item_nodup k v d : NoDup (map fst d) -> NoDup (map fst (set_item k v d)).
Proof.
  induction d as [|(k' & v') d IH]; cbn [set_item map fst]; intros N; [repeat constructor; auto|]. inversion N as [|? ? N1 N2]; subst. destruct (list_eqb k' k) eqn:E; cbn [map fst]; constructor; auto.
  rewrite set_item_keys. intros [->|I]; [rewrite list_eqb_refl in E; discriminate|contradiction].
Qed.
Lemma set_item_in k v d x y : NoDup (map fst d) -> In (x, y) (set_item k v d) -> x = k /\ y = v \/ x <> k /\ In (x, y) d.
Proof.
  induction d as [|(k' & v') d IH]; cbn [set_item map fst]; intros N I.
  - destruct I as [I|[]]. injection I as <- <-. auto.
  - inversion N as [|? ? N1 N2]; subst. destruct (list_eqb k' k) eqn:E.
    + apply list_eqb_eq in E. subst k'. destruct I as [I|I]; [injection I as <- <-; auto|]. right. split; [|right; auto]. intros ->. apply N1. apply in_map_iff. exists (k, y). auto.
    + apply list_eqb_neq in E. destruct I as [I|I]; [injection I as <- <-; right; split; auto; left; auto|]. destruct (IH N2 I) as [?|(? & ?)]; auto. right. split; auto. right; auto.
Qed.
Definition into_dict (l d : list (pystr * json)) := fold_left (fun d p => set_item (fst p) (snd p) d) l d.
Lemma into_dict_spec l : forall d, NoDup (map fst d) ->
  NoDup (map fst (into_dict l d)) /\ (forall x, In x (map fst (into_dict l d)) <-> In x (map fst l) \/ In x (map fst d)) /\
  (forall x y, In (x, y) (into_dict l d) -> (exists l1 l2, l = l1 ++ (x, y) :: l2 /\ ~ In x (map fst l2)) \/ (~ In x (map fst l) /\ In (x, y) d)).
Proof.
  unfold into_dict. induction l as [|(k & v) l IH]; intros d N; cbn [fold_left fst snd map In].
  - repeat split; auto; tauto.
  - destruct (IH (set_item k v d) (set_item_nodup k v d N)) as (A & B & C). split; [exact A|]. split.
    + intros x. rewrite B, set_item_keys. intuition.
    + intros x y I. destruct (C x y I) as [(l1 & l2 & -> & NI)|(NI & I2)].
      * left. exists ((k, v) :: l1), l2. auto.
      * destruct (set_item_in _ _ _ _ _ N I2) as [(-> & ->)|(NE & I3)]; [left; exists [], l; auto|right]. split; auto. intros [?|?]; auto.
Qed.
Lemma mapped_last fs x y l1 l2 : map (fun p : pystr * json => (fst p, as_dicts (snd p))) fs = l1 ++ (x, y) :: l2 -> ~ In x (map fst l2) ->
  exists v0, LastField x v0 (JObj fs) /\ as_dicts v0 = y /\ In (x, v0) fs.
Proof.
  intros E NI. apply map_eq_app in E as (f1 & f2 & -> & <- & E). destruct f2 as [|(k & v) f2]; [discriminate|]. cbn [map fst snd] in E. injection E as <- <- <-.
  exists v. split; [exists f1, f2; split; auto; rewrite map_map in NI; exact NI|]. split; auto. apply in_app_iff. right; left; auto.
Qed.
Lemma as_dicts_collapses j : Collapses j (as_dicts j).
Proof.
  induction j as [|b|n|r d|s|l IH|fs IH] using json_ind'; try constructor.
  - induction IH; constructor; auto.
  - fold (into_dict (map (fun p => (fst p, as_dicts (snd p))) fs) []). apply into_dict_spec. constructor.
  - intros k. fold (into_dict (map (fun p => (fst p, as_dicts (snd p))) fs) []). destruct (into_dict_spec (map (fun p => (fst p, as_dicts (snd p))) fs) [] (NoDup_nil _)) as (_ & B & _).
    rewrite B, map_map. cbn. tauto.
  - intros k v I. fold (into_dict (map (fun p => (fst p, as_dicts (snd p))) fs) []) in I. destruct (into_dict_spec (map (fun p => (fst p, as_dicts (snd p))) fs) [] (NoDup_nil _)) as (_ & _ & C).
    destruct (C k v I) as [(l1 & l2 & E & NI)|(_ & [])]. destruct (mapped_last _ _ _ _ _ E NI) as (v0 & LF & <- & IN). exists v0. split; auto. rewrite Forall_forall in IH. apply (IH _ IN).
Qed.

(** json.loads accepts nothing but the texts of the grammar; the value is the one
    that the text stands for, each name with its last value. *)
Theorem C103_accepts t v : loads t = Ok v -> exists v0, LText v0 t /\ Collapses v0 v.
Proof. unfold loads. intros E. destruct (parse t) as [v0|] eqn:P; [|discriminate]. injection E as <-. exists v0. split; [apply parse_sound; auto|apply as_dicts_collapses]. Qed.
Theorem C103_refuses t : (forall v, ~ LText v t) -> loads t = Raise ValueError.
Proof. intros N. unfold loads. destruct (parse t) as [v0|] eqn:P; [|reflexivity]. exfalso. apply (N v0), parse_sound, P. Qed.

(** ** What is signed *)
Lemma jget_last k j v : jget k (as_dicts j) = Ok v -> exists v0, LastField (str k) v0 j /\ v = as_dicts v0.
Proof.
  intros E. destruct j as [|b|n|r d|s|l|fs]; try discriminate. cbn [as_dicts jget] in E. fold (into_dict (map (fun p => (fst p, as_dicts (snd p))) fs) []) in E.
  match type of E with match ?f with _ => _ end = _ => destruct f as [(k' & v')|] eqn:F; [|discriminate] end. injection E as <-. cbn [snd]. apply find_some in F as (I & EK). cbn [fst] in EK. apply list_eqb_eq in EK. subst k'.
  destruct (into_dict_spec (map (fun p => (fst p, as_dicts (snd p))) fs) [] (NoDup_nil _)) as (_ & _ & C).
  destruct (C _ _ I) as [(l1 & l2 & E & NI)|(_ & [])]. destruct (mapped_last _ _ _ _ _ E NI) as (v0 & LF & <- & _). eauto.
Qed.
Lemma jint_last j n : jint (as_dicts j) = Ok n -> j = JInt n.
Proof. destruct j; cbn; try discriminate. intros E. injection E as <-. auto. Qed.
Lemma jstr_last j s : jstr (as_dicts j) = Ok s -> j = JStr s.
Proof. destruct j; cbn; try discriminate. intros E. injection E as <-. auto. Qed.
Lemma jlist_last j l : jlist (as_dicts j) = Ok l -> exists l0, j = JList l0 /\ l = map as_dicts l0.
Proof. destruct j; cbn; try discriminate. intros E. injection E as <-. eauto. Qed.
Lemma vsize_last j v : read_vsize (as_dicts j) = Ok v -> SizeIs v j.
Proof.
  destruct j as [|b|n|r d|s|l|fs]; try discriminate.
  - intros E. injection E as <-. constructor.
  - intros E. change (Ok (4 * n) = Ok v) in E. assert (v = 4 * n) by congruence. subst v. constructor.
  - cbn [as_dicts read_vsize]. destruct d as [neg c e| |]; try discriminate. intros E. destruct (Z.leb_spec e 0) as [LE|]; [|discriminate]. cbn [andb] in E.
    destruct (Z.eqb_spec (4 * c mod 10 ^ - e) 0) as [M|]; [|discriminate].
    assert (EV : v = (if neg then -1 else 1) * (4 * c / 10 ^ - e)) by congruence. assert (P : 0 < 10 ^ - e) by (apply Z.pow_pos_nonneg; lia).
    pose proof (Z_div_exact_full_2 (4 * c) (10 ^ - e) ltac:(lia) M) as D. set (q := 4 * c / 10 ^ - e) in *. replace v with (if neg then - q else q) by (rewrite EV; destruct neg; lia). constructor; auto. lia.
Qed.
Lemma udict_last j d : read_udict (as_dicts j) = Ok d -> CoinIs d j.
Proof.
  unfold read_udict. intros E.
  apply bind_ok in E as (x1 & E1 & E). apply bind_ok in E as (a & A & E). apply jget_last in E1 as (y1 & L1 & ->). apply jint_last in A. subst y1.
  apply bind_ok in E as (x2 & E2 & E). apply bind_ok in E as (c & A & E). apply jget_last in E2 as (y2 & L2 & ->). apply jint_last in A. subst y2.
  apply bind_ok in E as (x3 & E3 & E). apply bind_ok in E as (s & A & E). apply jget_last in E3 as (y3 & L3 & ->). apply jstr_last in A. subst y3.
  apply bind_ok in E as (x4 & E4 & E). apply bind_ok in E as (t & A & E). apply jget_last in E4 as (y4 & L4 & ->). apply jstr_last in A. subst y4.
  apply bind_ok in E as (x5 & E5 & E). apply bind_ok in E as (i & A & E). apply jget_last in E5 as (y5 & L5 & ->). apply jint_last in A. subst y5.
  apply bind_ok in E as (x6 & E6 & E). apply bind_ok in E as (y & A & E). apply jget_last in E6 as (y6 & L6 & ->). apply jstr_last in A. subst y6.
  apply bind_ok in E as (x7 & E7 & E). apply bind_ok in E as (v & A & E). apply jget_last in E7 as (y7 & L7 & ->). apply vsize_last in A.
  apply bind_ok in E as (x8 & E8 & E). apply bind_ok in E as (x9 & E9 & E). apply bind_ok in E as (q & Q & E). apply jget_last in E9 as (y9 & L9 & ->). apply jint_last in Q. subst y9.
  apply jget_last in E8 as (y8 & L8 & _).
  injection E as <-. repeat split; eauto.
Qed.
Lemma output_last j o : read_output (as_dicts j) = Ok o -> OutputIs o j.
Proof.
  destruct j as [|b|n|r d|s|l|fs]; try discriminate. cbn [as_dicts read_output]. destruct l as [|x [|y [|z l]]]; try discriminate; cbn [map]; destruct x; try discriminate; cbn [as_dicts]; destruct y; try discriminate.
  cbn [as_dicts]. intros E. injection E as <-. exists s, n. auto.
Qed.
Lemma mapM_last {A} (f : json -> result A) (P : A -> json -> Prop) l xs : (forall j x, f (as_dicts j) = Ok x -> P x j) -> mapM f (map as_dicts l) = Ok xs -> Forall2 P xs l.
Proof.
  intros H. revert xs. induction l as [|j l IH]; intros xs E; cbn [map mapM] in E; [injection E as <-; constructor|].
  apply bind_ok in E as (x & E1 & E). apply bind_ok in E as (ys & E2 & E). injection E as <-. constructor; auto.
Qed.

Context {CR : Crypto} {W Amt : Type} {WD : World W Amt}.
(** A transaction that sign_transaction makes of a text spends the coins that the
    text lists and pays what it lists, or the text is a raw transaction. *)
Theorem C103_says sg t (s : Wallet (W:=W)) h s' : sign_text sg t None s = (Ok h, s') ->
  (exists us outs, Says rounded t us outs /\ create_new_transaction sg (map from_dict us) outs = Ok h /\ s' = s) \/
  (exists x us, deserialize_hex t = Ok x /\ sign_tx sg x us = Ok h).
Proof.
  unfold sign_text. cbv zeta.
  assert (SECOND : forall u (s0 : Wallet (W:=W)) s1, (us <~ match nonempty u with Some us => iret us | None => get_unspents sg end;; tx <~ ilift (deserialize_hex t);; ilift (sign_tx sg tx us)) s0 = (Ok h, s1) ->
    exists x us, deserialize_hex t = Ok x /\ sign_tx sg x us = Ok h).
  { intros u s0 s1 E. unfold ibind at 1 in E. destruct (match nonempty u with Some us => iret us | None => get_unspents sg end s0) as ([us|] & s2); [|discriminate].
    unfold ibind, ilift in E. destruct (deserialize_hex t) as [x|]; [|discriminate]. exists x, us. split; auto. congruence. }
  destruct (loads t) as [data|e] eqn:EL; [|intros E; right; exact (SECOND None _ _ E)].
  unfold loads in EL. destruct (parse t) as [j|] eqn:EP; [|discriminate]. injection EL as <-. apply parse_sound in EP.
  destruct (us <- jget "unspents" (as_dicts j);; us <- jlist us;; mapM read_udict us) as [us|e] eqn:EU; [|intros E; right; exact (SECOND None _ _ E)].
  apply bind_ok in EU as (x1 & E1 & EU). apply bind_ok in EU as (x2 & E2 & EU). apply jget_last in E1 as (y1 & L1 & ->). apply jlist_last in E2 as (ul & -> & ->).
  apply (mapM_last _ CoinIs) in EU; [|exact udict_last].
  unfold itry, ibind at 1, ilift at 1. destruct (outs <- jget "outputs" (as_dicts j);; outs <- jlist outs;; mapM read_output outs) as [outs|e] eqn:EO; [|intros E; right; exact (SECOND (Some (map from_dict us)) _ _ E)].
  apply bind_ok in EO as (x1 & E1 & EO). apply bind_ok in EO as (x2 & E2 & EO). apply jget_last in E1 as (y1 & L2 & ->). apply jlist_last in E2 as (ol & -> & ->).
  apply (mapM_last _ OutputIs) in EO; [|exact output_last].
  unfold ilift at 1. destruct (create_new_transaction sg (map from_dict us) outs) as [h'|e] eqn:EC; [|intros E; right; exact (SECOND (Some (map from_dict us)) _ _ E)].
  intros E. injection E as <- <-. left. exists us, outs. split; [|split; auto]. exists j, ul, ol. auto.
Qed.
End WithFloats.
Print Assumptions C103_accepts.
Print Assumptions C103_refuses.
Print Assumptions C103_says.
