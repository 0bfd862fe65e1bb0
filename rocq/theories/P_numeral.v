(** C93: which texts are amounts. *)
From Coq Require Import String.
From Verif Require Import F_decimal M_services S_Decimal S_Numeral X_net P_rates P_network.
From Verif Require Import M_wallet F_wallet F_app M_app P_wallet P_create X_world X_server P_app.
From Verif Require Import M_decimal S_Numeral.

(** ** White space and underscores *)
Lemma space_white c : is_space c = true <-> In c white.
Proof.
  unfold is_space, white. cbn [In].
  destruct (Z.leb_spec 9 c), (Z.leb_spec c 13), (Z.leb_spec 28 c), (Z.leb_spec c 32), (Z.eqb_spec c 133), (Z.eqb_spec c 160);
    cbn; split; intros H'; try reflexivity; try discriminate; lia.
Qed.
Lemma lstrip_split s : exists a, s = a ++ lstrip s /\ White a.
Proof.
  induction s as [|c s (a & E & W)]; [exists []; split; [reflexivity|constructor]|]. cbn [lstrip]. destruct (is_space c) eqn:S0.
  - exists (c :: a). split; [cbn; congruence|]. constructor; [apply space_white; auto|auto].
  - exists []. split; [reflexivity|constructor].
Qed.
Lemma strip_split s : exists a b, s = a ++ strip s ++ b /\ White a /\ White b.
Proof.
  destruct (lstrip_split s) as (a & E & A). destruct (lstrip_split (rev (lstrip s))) as (b & E' & B). exists a, (rev b). split; [|split; auto].
  - rewrite E at 1. f_equal. unfold strip. rewrite <- rev_app_distr, <- E', rev_involutive. reflexivity.
  - apply Forall_rev. auto.
Qed.
Lemma lstrip_white a s : White a -> lstrip (a ++ s) = lstrip s.
Proof. induction 1 as [|c a H W IH]; [reflexivity|]. cbn [app lstrip]. rewrite (proj2 (space_white c) H). exact IH. Qed.
Lemma lstrip_dark s : forallb (fun c => negb (is_space c)) s = true -> lstrip s = s.
Proof. destruct s as [|c s]; [reflexivity|]. cbn. intros H. destruct (is_space c); [discriminate|reflexivity]. Qed.
Lemma strip_around a t b : White a -> White b -> t <> [] -> forallb (fun c => negb (is_space c)) t = true -> strip (a ++ t ++ b) = t.
Proof.
  intros A B NE D. unfold strip. rewrite lstrip_white by auto.
  assert (E : lstrip (t ++ b) = t ++ b).
  { destruct t as [|c t]; [congruence|]. cbn in D |- *. destruct (is_space c); [discriminate|reflexivity]. }
  rewrite E, rev_app_distr, lstrip_white by (apply Forall_rev; auto). rewrite lstrip_dark; [apply rev_involutive|].
  rewrite forallb_forall in *. intros x Hx. apply D. apply in_rev. auto.
Qed.
Lemma Plainly_filter s t : Plainly s t <-> filter (fun c => negb (c =? 95)) s = t.
Proof.
  split.
  - induction 1 as [|s t H IH|c s t N H IH]; [reflexivity|exact IH|]. cbn [filter]. destruct (Z.eqb_spec c 95); [contradiction|]. cbn. congruence.
  - intros <-. induction s as [|c s IH]; [constructor|]. cbn [filter]. destruct (Z.eqb_spec c 95) as [->|]; cbn [negb]; constructor; auto.
Qed.

(** ** Numerals *)
Lemma span_split s : forall d t, span_digits s = (d, t) -> s = d ++ t /\ forallb is_digit d = true.
Proof.
  induction s as [|c s IH]; cbn [span_digits]; intros d t E; [injection E as <- <-; auto|].
  destruct (is_digit c) eqn:D; [|injection E as <- <-; auto]. destruct (span_digits s) as [d' t'] eqn:E'. injection E as <- <-.
  destruct (IH _ _ eq_refl) as [-> F]. split; [reflexivity|]. cbn. rewrite D, F. reflexivity.
Qed.
Lemma sign_split s neg t : sign_of s = (neg, t) -> exists sg, s = sg ++ t /\ SignIs neg sg.
Proof.
  destruct s as [|c s]; cbn [sign_of]; [intros E; injection E as <- <-; exists []; split; [reflexivity|constructor]|].
  destruct (Z.eqb_spec c 45) as [->|]; [intros E; injection E as <- <-; exists [45]; split; [reflexivity|constructor]|].
  destruct (Z.eqb_spec c 43) as [->|]; [intros E; injection E as <- <-; exists [43]; split; [reflexivity|constructor]|].
  intros E; injection E as <- <-. exists []. split; [reflexivity|constructor].
Qed.
Lemma sign_join neg sg s : SignIs neg sg -> (forall c r, s = c :: r -> c <> 43 /\ c <> 45) -> sign_of (sg ++ s) = (neg, s).
Proof.
  intros [| |] H; [|reflexivity|reflexivity]. destruct s as [|c r]; [reflexivity|]. cbn. destruct (H c r eq_refl).
  destruct (Z.eqb_spec c 45); [contradiction|]. destruct (Z.eqb_spec c 43); [contradiction|]. reflexivity.
Qed.
Lemma digit_range c : is_digit c = true -> 48 <= c <= 57.
Proof. unfold is_digit. intros H. apply andb_true_iff in H as [A B]. apply Z.leb_le in A, B. lia. Qed.
Lemma not_digit c : c < 48 \/ 57 < c -> is_digit c = false.
Proof. intros H. destruct (is_digit c) eqn:D; [apply digit_range in D; lia|reflexivity]. Qed.

(** The characters of a numeral. *)
Definition numeral_char (c : Z) : Prop := 48 <= c <= 57 \/ In c [43; 45; 46; 69; 101].
Lemma numeral_chars neg c e s : Numeral neg c e s -> Forall numeral_char s /\ s <> [].
Proof.
  intros (sg & k & m & x & ex & -> & S0 & A & X & _). destruct (Amount_clean _ _ _ A) as (_ & _ & NE). apply Amount_chars in A.
  assert (SG : forall b g, SignIs b g -> Forall numeral_char g).
  { intros b g [| |]; repeat constructor; right; cbn; auto. }
  assert (DG : forall n l, Digits n l -> Forall numeral_char l).
  { intros n l D. apply Digits_chars in D. rewrite forallb_forall in D. apply Forall_forall. intros y Hy. left. apply digit_range. auto. }
  split.
  - apply Forall_app. split; [eauto|]. apply Forall_app. split.
    + rewrite forallb_forall in A. apply Forall_forall. intros y Hy. specialize (A y Hy). unfold plain_char in A. apply orb_true_iff in A as [A|A].
      * left. apply digit_range. auto.
      * apply Z.eqb_eq in A as ->. right. cbn. auto.
    + destruct X as [|l b g y ys L G D _]; [constructor|]. constructor; [right; cbn in L |- *; tauto|]. apply Forall_app. split; eauto.
  - intros E. apply app_eq_nil in E as [_ E]. apply app_eq_nil in E as [E _]. auto.
Qed.
Lemma numeral_dark s : Forall numeral_char s -> forallb (fun c => negb (is_space c)) s = true /\ forallb (fun c => negb (c =? 95)) s = true.
Proof.
  intros F. rewrite !forallb_forall. rewrite Forall_forall in F. split; intros x Hx; specialize (F x Hx).
  - destruct (is_space x) eqn:S0; [|reflexivity]. apply space_white in S0. unfold numeral_char, white in *. cbn in *. lia.
  - destruct (Z.eqb_spec x 95); [|reflexivity]. unfold numeral_char in *. cbn in *. lia.
Qed.
Lemma plainly_dark s t : Plainly s t -> Forall numeral_char t -> forallb (fun c => negb (is_space c)) s = true.
Proof.
  induction 1 as [|s t H IH|c s t N H IH]; intros F; [reflexivity|cbn; auto|]. apply Forall_cons_iff in F as [F1 F2].
  destruct (numeral_dark [c] ltac:(constructor; auto)) as [G _]. cbn in G |- *. apply andb_true_iff in G as [-> _]. auto.
Qed.

(** What follows the sign. *)
Definition tail_of (neg : bool) (s : pystr) : result dec :=
  let '(i, r) := span_digits s in
  let '(f, r) := match r with c :: r' => if c =? 46 then span_digits r' else ([], r) | [] => ([], r) end in
  match i ++ f with
  | [] =>
      let s := lower s in
      if in_listb s [str "inf"; str "infinity"] then Ok (Inf neg)
      else if list_eqb (firstn 3 s) (str "nan") && forallb is_digit (skipn 3 s) then Ok (NaN false)
      else if list_eqb (firstn 4 s) (str "snan") && forallb is_digit (skipn 4 s) then Ok (NaN true)
      else Raise InvalidOperation
  | _ =>
      match r with
      | [] => Ok (Fin neg (num (i ++ f)) (- zlen f))
      | c :: r' =>
          let '(eneg, r') := sign_of r' in
          let '(x, rest) := span_digits r' in
          match x, rest with
          | _ :: _, [] => if (c =? 69) || (c =? 101) then Ok (Fin neg (num (i ++ f)) ((if eneg then - num x else num x) - zlen f))
                          else Raise InvalidOperation
          | _, _ => Raise InvalidOperation
          end
      end
  end.
Lemma parse_tail s : parse_dec s = let '(neg, t) := sign_of (filter (fun c => negb (c =? 95)) (strip s)) in tail_of neg t.
Proof. reflexivity. Qed.

Lemma tail_sound neg s neg' c e : tail_of neg s = Ok (Fin neg' c e) ->
  neg' = neg /\ exists k m x ex, s = m ++ ex /\ Amount c k m /\ Exponent x ex /\ e = x - k.
Proof.
  unfold tail_of. destruct (span_digits s) as [i r] eqn:E1. apply span_split in E1 as [-> I].
  destruct (match r with [] => ([], r) | c0 :: r' => if c0 =? 46 then span_digits r' else ([], r) end) as [f r2] eqn:E2.
  assert (A : i ++ f <> [] -> exists m, i ++ r = m ++ r2 /\ Amount (num (i ++ f)) (zlen f) m).
  { destruct r as [|c0 r'].
    - injection E2 as <- <-. intros NE. exists i. split; [reflexivity|]. rewrite app_nil_r in *. constructor; auto. apply digits_denote. auto.
    - destruct (Z.eqb_spec c0 46) as [->|].
      + apply span_split in E2 as [-> F]. intros NE. exists (i ++ 46 :: f). split; [rewrite <- app_assoc; reflexivity|]. constructor; auto.
        apply digits_denote. rewrite forallb_app, I, F. reflexivity.
      + injection E2 as <- <-. intros NE. exists i. split; [reflexivity|]. rewrite app_nil_r in *. constructor; auto. apply digits_denote. auto. }
  destruct (i ++ f) as [|d0 ds] eqn:EI.
  - cbv zeta. destruct (in_listb _ _); [discriminate|]. destruct (_ && _); [discriminate|]. destruct (_ && _); discriminate.
  - destruct A as (m & E & A); [discriminate|]. destruct r2 as [|c0 r'].
    + intros H. injection H as -> <- <-. split; auto. exists (zlen f), m, 0, []. split; [exact E|]. split; auto. split; [constructor|lia].
    + destruct (sign_of r') as [eneg r1] eqn:ES. apply sign_split in ES as (sg & -> & SG). destruct (span_digits r1) as [x rest] eqn:EX.
      apply span_split in EX as [-> X]. destruct x as [|x0 xs]; [discriminate|]. destruct rest; [|discriminate].
      destruct (_ || _) eqn:EL; [|discriminate]. intros H. injection H as -> <- <-. split; auto. rewrite app_nil_r in *.
      exists (zlen f), m, (if eneg then - num (x0 :: xs) else num (x0 :: xs)), (c0 :: sg ++ x0 :: xs). split; [exact E|]. split; auto. split; [|reflexivity].
      constructor; auto; [|apply digits_denote; auto|discriminate]. apply orb_true_iff in EL as [EL|EL]; apply Z.eqb_eq in EL; cbn; auto.
Qed.
Lemma tail_complete neg c k m x ex : Amount c k m -> Exponent x ex -> tail_of neg (m ++ ex) = Ok (Fin neg c (x - k)).
Proof.
  intros A X. assert (XH : forall y t, ex = y :: t -> is_digit y = false /\ (y =? 46) = false).
  { intros y t ->. inversion X as [|l b g z zs L G D NE]; subst. split; [apply not_digit|apply Z.eqb_neq]; cbn in L; lia. }
  assert (S0 : exists i f, (let '(i, r) := span_digits (m ++ ex) in match r with c :: r' => if c =? 46 then let '(f, r) := span_digits r' in (i, f, r) else (i, [], r) | [] => (i, [], r) end) = (i, f, ex)
                /\ i ++ f <> [] /\ num (i ++ f) = c /\ zlen f = k).
  { destruct A as [c ds D NE|c ds fs D NE].
    - pose proof (Digits_chars _ _ D) as F. rewrite span_all; [|auto|intros y t E; apply (XH y t E)].
      exists ds, []. rewrite app_nil_r. split; [|split; [auto|split; [apply Digits_num; auto|reflexivity]]].
      destruct ex as [|y t]; [reflexivity|]. destruct (XH y t eq_refl) as [_ ->]. reflexivity.
    - pose proof (Digits_chars _ _ D) as F. rewrite forallb_app in F. apply andb_true_iff in F as [F1 F2].
      rewrite <- app_assoc. cbn [app]. rewrite span_all; [|auto|intros y t E; injection E as <- _; reflexivity]. rewrite Z.eqb_refl.
      rewrite span_all; [|auto|intros y t E; apply (XH y t E)]. exists ds, fs. split; auto. split; auto. split; [apply Digits_num; auto|reflexivity]. }
  destruct S0 as (i & f & S0 & NE & <- & <-). unfold tail_of. destruct (span_digits (m ++ ex)) as [i0 r0].
  assert (S1 : i0 = i /\ (match r0 with c :: r' => if c =? 46 then span_digits r' else ([], r0) | [] => ([], r0) end) = (f, ex)).
  { destruct r0 as [|y t]; [injection S0 as -> <- <-; auto|]. destruct (y =? 46); [destruct (span_digits t)|]; injection S0 as -> <- <-; auto. }
  destruct S1 as [-> ->]. destruct (i ++ f) as [|d0 ds] eqn:EI; [congruence|]. clear S0.
  destruct X as [|l b g z zs L G D NZ].
  - reflexivity.
  - rewrite (sign_join b g zs); auto.
    + pose proof (span_all zs [] (Digits_chars _ _ D) ltac:(discriminate)) as SA. rewrite app_nil_r in SA. rewrite SA. destruct zs as [|z0 zs]; [congruence|].
      rewrite (Digits_num _ _ D). destruct L as [<-|[<-|[]]]; reflexivity.
    + intros y r ->. apply Digits_chars in D. cbn in D. apply andb_true_iff in D as [D _]. apply digit_range in D. lia.
Qed.
Lemma amount_head c k m ex y r : Amount c k m -> m ++ ex = y :: r -> y <> 43 /\ y <> 45.
Proof.
  intros A E. destruct (Amount_clean _ _ _ A) as (_ & _ & NE). apply Amount_chars in A. destruct m as [|y' m]; [congruence|]. injection E as -> _.
  cbn in A. apply andb_true_iff in A as [A _]. unfold plain_char in A. apply orb_true_iff in A as [A|A]; [apply digit_range in A; lia|apply Z.eqb_eq in A; lia].
Qed.

(** ** Integers *)
Lemma grouped_cons c s t : is_digit c = true -> Grouped s t -> Grouped (c :: s) (c :: t).
Proof.
  intros D G. destruct G as [n t H NE|n d s t H NE G].
  - eapply Gr_one; [|discriminate]. apply digits_denote. cbn. rewrite D. eapply Digits_chars; eauto.
  - eapply (Gr_more _ (c :: d)); [|discriminate|exact G]. apply digits_denote. cbn. rewrite D. eapply Digits_chars; eauto.
Qed.
Lemma grouped_sound s : forall b t, grouped b s = Some t -> Grouped s t \/ b = true /\ (s = [] /\ t = [] \/ exists s', s = 95 :: s' /\ Grouped s' t).
Proof.
  induction s as [|c s IH]; intros b t; cbn [grouped]; [destruct b; [intros H; injection H as <-; auto|discriminate]|].
  destruct (is_digit c) eqn:D.
  - destruct (grouped true s) as [t'|] eqn:G; [|discriminate]. intros H. injection H as <-. left.
    destruct (IH _ _ G) as [Q|(_ & [(-> & ->)|(s' & -> & Q)])]; [apply grouped_cons; auto| |].
    + eapply Gr_one; [|discriminate]. apply digits_denote. cbn. rewrite D. reflexivity.
    + eapply (Gr_more _ [c]); [|discriminate|exact Q]. apply digits_denote. cbn. rewrite D. reflexivity.
  - destruct b; [|discriminate]. cbn [andb]. destruct (Z.eqb_spec c 95) as [->|]; [|discriminate]. intros G. right. split; auto. right. exists s. split; auto.
    destruct (IH _ _ G) as [Q|(Q & _)]; [exact Q|discriminate].
Qed.
Lemma grouped_digits d : forall b s, forallb is_digit d = true -> d <> [] -> grouped b (d ++ s) = option_map (app d) (grouped true s).
Proof.
  induction d as [|c d IH]; intros b s F NE; [congruence|]. cbn in F |- *. apply andb_true_iff in F as [-> F]. destruct d as [|c' d]; [reflexivity|].
  rewrite IH by (auto; discriminate). destruct (grouped true s); reflexivity.
Qed.
Lemma grouped_complete s t : Grouped s t -> grouped false s = Some t.
Proof.
  induction 1 as [n t D NE|n d s t D NE G IH].
  - rewrite <- (app_nil_r t) at 1. rewrite grouped_digits by (auto; eapply Digits_chars; eauto). cbn. rewrite app_nil_r. reflexivity.
  - rewrite grouped_digits by (auto; eapply Digits_chars; eauto). cbn [grouped]. change (is_digit 95) with false. cbn [andb Z.eqb Pos.eqb]. rewrite IH. reflexivity.
Qed.
Lemma grouped_chars s t : Grouped s t -> Forall (fun c => 48 <= c <= 57 \/ c = 95) s /\ forallb is_digit t = true /\ exists c r, s = c :: r /\ 48 <= c <= 57.
Proof.
  assert (DG : forall n l, Digits n l -> Forall (fun c => 48 <= c <= 57 \/ c = 95) l).
  { intros n l D. apply Digits_chars in D. rewrite forallb_forall in D. apply Forall_forall. intros y Hy. left. apply digit_range. auto. }
  assert (HD : forall n l x, Digits n l -> l <> [] -> exists c r, l ++ x = c :: r /\ 48 <= c <= 57).
  { intros n l x D NE. destruct l as [|c l]; [congruence|]. exists c, (l ++ x). split; [reflexivity|]. apply Digits_chars in D. cbn in D. apply andb_true_iff in D as [D _]. apply digit_range. auto. }
  induction 1 as [n t D NE|n d s t D NE G IH].
  - split; [eauto|]. split; [eapply Digits_chars; eauto|]. destruct (HD n t [] D NE) as (c & r & E0 & H). rewrite app_nil_r in E0. eauto.
  - destruct IH as (F & T & _). split; [apply Forall_app; split; eauto|]. split; [rewrite forallb_app, T, (Digits_chars _ _ D); reflexivity|]. eauto.
Qed.
Lemma reads_int s z : int_of_text s = Ok z <-> ReadsInt z s.
Proof.
  unfold int_of_text. split.
  - destruct (sign_of (strip s)) as [neg ds] eqn:ES. apply sign_split in ES as (sg & ES & SG). destruct (grouped false ds) as [t|] eqn:G; [|discriminate].
    intros H. injection H as <-. destruct (grouped_sound _ _ _ G) as [Q|(Q & _)]; [|discriminate]. destruct (strip_split s) as (a & b & E & A & B).
    exists a, sg, ds, b, t, neg, (num t). rewrite ES, <- app_assoc in E. split; auto. split; auto. split; auto. split; auto. split; auto. split; auto.
    apply digits_denote. apply (grouped_chars _ _ Q).
  - intros (a & sg & m & b & t & neg & n & -> & A & B & SG & G & D & ->). destruct (grouped_chars _ _ G) as (F & _ & c & r & EM & HC).
    replace (a ++ sg ++ m ++ b) with (a ++ (sg ++ m) ++ b) by (rewrite <- app_assoc; reflexivity). rewrite strip_around; auto.
    + rewrite (sign_join _ _ _ SG) by (intros c' r' E; rewrite EM in E; injection E as -> ->; lia). rewrite (grouped_complete _ _ G). rewrite (Digits_num _ _ D). reflexivity.
    + subst m. destruct sg; discriminate.
    + rewrite forallb_app. apply andb_true_iff. split; [destruct SG; reflexivity|]. apply forallb_forall. rewrite Forall_forall in F. intros x Hx. specialize (F x Hx).
      destruct (is_space x) eqn:S0; [|reflexivity]. apply space_white in S0. unfold white in S0. cbn in S0. lia.
Qed.
Lemma refuses_int s : (forall z, ~ ReadsInt z s) -> int_of_text s = Raise ValueError.
Proof.
  intros N. destruct (int_of_text s) as [z|x] eqn:E; [destruct (N z); apply reads_int; exact E|]. unfold int_of_text in E.
  destruct (sign_of (strip s)). destruct (grouped false p); congruence.
Qed.

(** C93: exactly the texts that read as numbers do, with the values they have. *)
Theorem C93_reads neg c e s : Decimal s = Ok (Fin neg c e) <-> Reads neg c e s.
Proof.
  unfold Decimal. rewrite parse_tail. split.
  - destruct (sign_of (filter (fun c => negb (c =? 95)) (strip s))) as [b t] eqn:ES. apply sign_split in ES as (sg & ES & SG).
    intros H. apply tail_sound in H as [-> (k & m & x & ex & -> & A & X & ->)]. destruct (strip_split s) as (a & b' & E & WA & WB).
    exists a, (strip s), b', (sg ++ m ++ ex). split; auto. split; auto. split; auto. split; [apply Plainly_filter; auto|].
    exists sg, k, m, x, ex. auto.
  - intros (a & t & b & t' & -> & WA & WB & P & N). destruct (numeral_chars _ _ _ _ N) as [F NE]. pose proof (plainly_dark _ _ P F) as D.
    rewrite strip_around; auto.
    + apply Plainly_filter in P. rewrite P. destruct N as (sg & k & m & x & ex & -> & SG & A & X & ->).
      rewrite (sign_join neg sg (m ++ ex) SG); [apply tail_complete; auto|]. intros y r E. eapply amount_head; eauto.
    + intros ->. inversion P; subst. congruence.
Qed.

Lemma Reads_nonneg neg c e s : Reads neg c e s -> 0 <= c.
Proof.
  intros (a & t & b & t' & _ & _ & _ & _ & sg & k & m & x & ex & _ & _ & A & _). destruct A as [c ds D _|c ds fs D _]; eapply Digits_nonneg; eauto.
Qed.
(** Two readings of a text agree. *)
Lemma Reads_fun neg c e neg' c' e' s : Reads neg c e s -> Reads neg' c' e' s -> neg = neg' /\ c = c' /\ e = e'.
Proof. intros A B. apply C93_reads in A, B. rewrite A in B. injection B. auto. Qed.

(** ** Amounts *)
(** Times a power of ten, without rounding but for the fractions. *)
Lemma mul_power prec u neg c e : 0 <= u <= 100000 -> 0 <= c < 10 ^ prec -> 1 <= prec <= 100000 -> -100000 < e < 100000 ->
  exists x, dec_mul prec (dec_of_int (10 ^ u)) (Fin neg c e) = Ok x /\
    dec_to_int x = Ok (trunc neg (c * 10 ^ (u + Z.max e 0)) (10 ^ Z.max (- e) 0)).
Proof.
  intros Hu Hc Hp He. destruct (Z_lt_le_dec e 0) as [N|P].
  - rewrite (Z.max_r e 0), (Z.max_l (- e) 0), Z.add_0_r, (Z.mul_comm c) by lia.
    destruct (mul_exact prec (10 ^ u) neg c (- e) c u) as (x & E1 & E2); try lia; try (apply p10; lia).
    rewrite Z.opp_involutive in E1. eauto.
  - rewrite (Z.max_l e 0), (Z.max_r (- e) 0) by lia. pose proof (p10 u ltac:(lia)) as PU. pose proof (p10 e ltac:(lia)) as PE.
    unfold dec_of_int. destruct (Z.ltb_spec (10 ^ u) 0); [lia|]. rewrite Z.abs_eq by lia. cbn [dec_mul].
    replace (xorb false neg) with neg by (destruct neg; auto). change (0 + e) with e. rewrite (Z.mul_comm (10 ^ u)).
    destruct (Z.eq_dec c 0) as [->|NZ].
    + rewrite Z.mul_0_l, fix_zero; [|lia|cbv [Emin Emax]; lia]. eexists. split; [reflexivity|]. apply to_int_scaled; lia.
    + pose proof (ndigits_le c prec Hc ltac:(lia)). destruct (fix_zeros prec neg c u e) as (c' & e' & -> & G & EV); [lia|lia|lia|cbv [Emin]; lia|cbv [Emax]; lia|].
      eexists. split; [reflexivity|]. apply to_int_scaled; try lia. rewrite Z.add_0_r, Z.pow_add_r by lia. rewrite Z.mul_assoc, EV, <- Z.mul_assoc, <- Z.pow_add_r by lia.
      do 2 f_equal. lia.
Qed.
Lemma times_reads prec u neg c e s : Reads neg c e s -> 0 <= u <= 100000 -> c < 10 ^ prec -> 1 <= prec <= 100000 -> -100000 < e < 100000 ->
  times_amount prec (10 ^ u) s = Ok (trunc neg (c * 10 ^ (u + Z.max e 0)) (10 ^ Z.max (- e) 0)).
Proof.
  intros R Hu Hc Hp He. pose proof (Reads_nonneg _ _ _ _ R). apply C93_reads in R. unfold times_amount. rewrite R. cbn [bind].
  destruct (mul_power prec u neg c e) as (x & -> & E2); try lia. exact E2.
Qed.
(** Only finite numbers give an amount. *)
Lemma times_finite prec r s n : times_amount prec r s = Ok n -> exists neg c e, Reads neg c e s.
Proof.
  unfold times_amount. destruct (Decimal s) as [[neg c e|b|b]|] eqn:D; cbn [bind]; [intros _; apply C93_reads in D; eauto| | |discriminate].
  - unfold dec_of_int. cbn [dec_mul]. destruct (_ =? 0); cbn; discriminate.
  - unfold dec_of_int. destruct b; cbn; discriminate.
Qed.
Lemma parse_raises s y : Decimal s = Raise y -> y = InvalidOperation.
Proof.
  unfold Decimal. rewrite parse_tail. destruct (sign_of _) as [b t]. unfold tail_of. destruct (span_digits t) as [i r].
  destruct (match r with [] => ([], r) | c0 :: r' => if c0 =? 46 then span_digits r' else ([], r) end) as [f r2]. destruct (i ++ f).
  - cbv zeta. destruct (in_listb _ _); [discriminate|]. destruct (_ && _); [discriminate|]. destruct (_ && _); congruence.
  - destruct r2 as [|c0 r']; [discriminate|]. destruct (sign_of r') as [b' r1]. destruct (span_digits r1) as [[|x0 xs] [|z9 z9s]]; try congruence.
    destruct (_ || _); congruence.
Qed.
Lemma times_refuses prec r s : (forall neg c e, ~ Reads neg c e s) ->
  exists y, times_amount prec r s = Raise y /\ In y [InvalidOperation; ValueError; OverflowError].
Proof.
  intros N. unfold times_amount. destruct (Decimal s) as [[neg c e|b|b]|y] eqn:D; cbn [bind].
  - apply C93_reads in D. destruct (N _ _ _ D).
  - unfold dec_of_int. cbn [dec_mul]. destruct (_ =? 0); cbn; eauto 10.
  - unfold dec_of_int. destruct b; cbn; eauto 10.
  - apply parse_raises in D as ->. exists InvalidOperation. cbn. auto.
Qed.

Section WithOutside.
Context {E : Type} {OU : Outside E}.

(** C93: what an amount of bitcoin is worth, with or without an exponent. *)
Theorem C93_amount unit_ u neg c e s (st : Net E) :
  In (unit_, u) units -> Reads neg c e s -> -100000 < e < 100000 -> 1 <= g_prec (n_globals st) <= 100000 -> c < 10 ^ g_prec (n_globals st) ->
  currency_to_satoshi s unit_ st = (Ok (trunc neg (c * 10 ^ (u + Z.max e 0)) (10 ^ Z.max (- e) 0)), st).
Proof.
  intros HU R He HP HC. destruct (units_rate (E:=E) _ _ HU) as (Hu & _ & ER). unfold currency_to_satoshi. unfold ibind at 1. rewrite ER.
  unfold globals, iget, iret, ilift, ibind. cbn [fst snd]. unfold zoom. rewrite (times_reads _ u neg c e); auto; lia.
Qed.

(** C93: other texts are not amounts in any currency. *)
Theorem C93_refuses cur r s (st st1 : Net E) : exchange_rate cur st = (Ok r, st1) -> (forall neg c e, ~ Reads neg c e s) ->
  exists y, currency_to_satoshi s cur st = (Raise y, st1) /\ In y [InvalidOperation; ValueError; OverflowError].
Proof.
  intros ER N. destruct (times_refuses (g_prec (n_globals st1)) r s N) as (y & EY & I). exists y. split; auto.
  unfold currency_to_satoshi. unfold ibind at 1. rewrite ER. unfold globals, iget, iret, ilift, ibind. unfold zoom. cbn [fst snd]. rewrite EY. reflexivity.
Qed.
Theorem C93_only cur s (st st1 : Net E) n :
  currency_to_satoshi s cur st = (Ok n, st1) \/ currency_to_satoshi_cached s cur st = (Ok n, st1) -> exists neg c e, Reads neg c e s.
Proof.
  assert (T : forall (x : IO (Net E) Z), (r <~ x ;; g <~ globals ;; ilift (times_amount (g_prec g) r s)) st = (Ok n, st1) -> exists neg c e, Reads neg c e s).
  { intros x H. apply ibind_ok in H as (r & s1 & _ & H). apply ibind_ok in H as (g & s2 & _ & H). apply ilift_ok in H as (H & _). eapply times_finite; eauto. }
  intros [H|H]; [exact (T _ H)|]. unfold currency_to_satoshi_cached in H. apply ibind_ok in H as (now & s1 & _ & H). apply ibind_ok in H as (g & s2 & _ & H).
  destruct (find _ _) as [[? [? ?]]|]; [|discriminate]. apply ibind_ok in H as (r & s3 & _ & H). apply ibind_ok in H as (g2 & s4 & _ & H).
  apply ilift_ok in H as (H & _). eapply times_finite; eauto.
Qed.

(** C93: a transaction is only made if every amount is the text of a number. *)
Theorem C93_create {CR : Crypto} {CH : Chance E} rounds sg outputs fee leftover unspents o s s' h :
  @create_transaction CR _ _ (network (CR:=CR) rounds) sg outputs fee leftover unspents o s = (Ok h, s') ->
  Forall (fun out => exists neg c e, Reads neg c e (snd (fst out))) outputs.
Proof.
  intros H. destruct (create_steps _ _ _ _ _ _ _ _ _ H) as (us & s1 & back & f & w1 & sel & outs & w2 & _ & _ & ES & _).
  destruct (sanitize_ok _ _ _ _ _ _ _ _ _ _ _ _ ES) as (sats & w3 & msgs & sizes & b & script & rnd & sel0 & rem & C & _).
  clear - C. induction C as [w|w w1 w2 a x c n outs ns EC C IH]; constructor; [|exact IH]. cbn [fst snd]. eapply C93_only. right. exact EC.
Qed.
End WithOutside.

(** ** Examples *)
Ltac reads := apply C93_reads; vm_compute; reflexivity.
Ltac no_reading := intros ? ? ?; rewrite <- C93_reads; vm_compute; discriminate.
(** The specification by itself: " +1_0.50e-1" and a line feed. *)
Example C93_reads_case : Reads false 1050 (-3) (str " +1_0.50e-1" ++ [10]).
Proof.
  exists [32], (str "+1_0.50e-1"), [10], (str "+10.50e-1"). split; [reflexivity|]. split; [repeat constructor; cbn; tauto|]. split; [repeat constructor; cbn; tauto|]. split.
  - repeat ((apply Pl_other; [discriminate|]) || apply Pl_underscore). constructor.
  - exists [43], 2, (str "10.50"), (-1), (str "e-1"). split; [reflexivity|]. split; [constructor|]. split.
    + apply (A_point 1050 (str "10") (str "50")); [apply (digits_denote (str "1050")); reflexivity|discriminate].
    + split; [|reflexivity]. apply (Ex_some 101 true [45] 1 [49]); [cbn; auto|constructor|apply (digits_denote [49]); reflexivity|discriminate].
Qed.
Example C93_amount_case :
  currency_to_satoshi (str " +1_0.50e-1" ++ [10]) (str "btc") (at_import []) = (Ok 105000000, at_import []) /\
  currency_to_satoshi (str "25E+3") (str "satoshi") (at_import []) = (Ok 25000, at_import []) /\
  currency_to_satoshi ([160; 133] ++ str "-.5e-3" ++ [28]) (str "mbtc") (at_import []) = (Ok (-50), at_import []).
Proof.
  split; [|split].
  - etransitivity; [apply (C93_amount _ 8 false 1050 (-3)); [do 3 right; left; reflexivity|exact C93_reads_case|lia|vm_compute; split; discriminate|vm_compute; reflexivity]|vm_compute; reflexivity].
  - etransitivity; [apply (C93_amount _ 0 false 25 3); [left; reflexivity|reads|lia|vm_compute; split; discriminate|vm_compute; reflexivity]|vm_compute; reflexivity].
  - etransitivity; [apply (C93_amount _ 5 true 5 (-4)); [do 2 right; left; reflexivity|reads|lia|vm_compute; split; discriminate|vm_compute; reflexivity]|vm_compute; reflexivity].
Qed.
(** Texts that somebody may type. *)
Definition no_amounts : list pystr :=
  map str ["1,5"; ""; " "; "."; "1 000"; "0x10"; "1e"; "--1"; "1.2.3"; "$5"; "e5"; "_"; "nan"; "-Infinity"; "sNaN1"; "None"; "True"]%string.
Example C93_refuses_case : Forall (fun s => forall neg c e, ~ Reads neg c e s) no_amounts /\
  Forall2 (fun s y => currency_to_satoshi s (str "btc") (at_import []) = (Raise y, at_import [])) (map str ["1,5"; "nan"; "-Infinity"]%string) [InvalidOperation; ValueError; OverflowError].
Proof. split; [repeat constructor; no_reading|repeat constructor; vm_compute; reflexivity]. Qed.
Example C93_only_case : exists n, currency_to_satoshi (str "1_0") (str "ubtc") (at_import []) = (Ok n, at_import []).
Proof. eexists. vm_compute. reflexivity. Qed.
(** A transaction, and the same with a comma in one of the amounts. *)
Local Opaque create_transaction.
Example C93_create_hypotheses : exists h s', town_create = (Ok h, s').
Proof. apply C75_multi_hypotheses. Qed.
Example C93_create_case : Forall (fun out => exists neg c e, Reads neg c e (snd (fst out))) town_outs.
Proof. destruct C93_create_hypotheses as (h & s' & E). unfold town_create in E. exact (C93_create _ _ _ _ _ _ _ _ _ _ E). Qed.
Example C93_comma : fst (@create_transaction toy _ _ (@network toy Town town town_chance 5) (Multi town_ms)
  [(addr_of other_key, str "0,00025", str "btc"); (segwit_addr_of other_key, str "1000", str "satoshi")] (Some 2) None None (wopts true true) town_wallet) = Raise InvalidOperation.
Proof. vm_compute. reflexivity. Qed.

Print Assumptions C93_reads.
Print Assumptions C93_amount.
Print Assumptions C93_refuses.
Print Assumptions C93_only.
Print Assumptions C93_create.
