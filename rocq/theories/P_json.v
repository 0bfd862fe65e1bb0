(** C102: what nodes are asked. *)
From Coq Require Import String.
From Verif Require Import F_base F_utils F_hex F_decimal M_json S_Hex S_Decimal S_Cli S_Json P_cli.
From Coq Require Import List ZArith Lia.
Import ListNotations.
Open Scope Z_scope.

(** ** The texts written *)
Lemma u_reads n : 0 <= n < 65536 -> UEscape n (u_escape n).
Proof.
  intros H. assert (Q : 0 <= n / 256 < 256) by (split; [apply Z.div_pos|apply Z.div_lt_upper_bound]; lia). pose proof (Z.mod_pos_bound n 256 ltac:(lia)) as M.
  pose proof (U_hex (n / 256) (n mod 256) (bytes_to_hex [n / 256; n mod 256])) as U. rewrite <- Z.div_mod in U by lia. apply U. apply bytes_to_hex_HexOf. cbn. unfold is_byte.
  rewrite !andb_true_r, !andb_true_iff, !Z.leb_le, !Z.ltb_lt. lia.
Qed.
Lemma char_reads c : scalar c -> JChar c (json_char c).
Proof.
  intros [R S]. unfold json_char. destruct (Z.eqb_spec c 34) as [->|N1]; [apply J_letter; cbn; auto|]. destruct (Z.eqb_spec c 92) as [->|N2]; [apply J_letter; cbn; auto|]. cbn [orb].
  destruct (Z.eqb_spec c 10) as [->|N3]; [apply J_letter; cbn; auto 10|]. destruct (Z.eqb_spec c 13) as [->|N4]; [apply J_letter; cbn; auto 10|]. destruct (Z.eqb_spec c 9) as [->|N5]; [apply J_letter; cbn; auto 10|].
  destruct (Z.eqb_spec c 12) as [->|N6]; [apply J_letter; cbn; auto 10|]. destruct (Z.eqb_spec c 8) as [->|N7]; [apply J_letter; cbn; auto 10|].
  destruct (Z.leb_spec 32 c), (Z.leb_spec c 126); cbn [andb]; try (apply J_plain; lia).
  all: destruct (Z.ltb_spec c 65536); [apply J_u; auto; apply u_reads; lia|].
  all: pose proof (Z.mod_pos_bound (c - 65536) 1024 ltac:(lia)) as M; assert (Q : 0 <= (c - 65536) / 1024 < 1024) by (split; [apply Z.div_pos|apply Z.div_lt_upper_bound]; lia);
    pose proof (Z.div_mod (c - 65536) 1024 ltac:(lia)) as D; replace c with (65536 + 1024 * ((c - 65536) / 1024) + (c - 65536) mod 1024) at 1 by lia; apply J_pair; auto; apply u_reads; lia.
Qed.
Lemma str_reads s : Forall scalar s -> JString s (json_str s).
Proof. intros F. eexists. split; [|reflexivity]. induction F; cbn [flat_map]; constructor; auto using char_reads. Qed.
Fixpoint json_ind' (P : json -> Prop) (HN : P JNull) (HB : forall b, P (JBool b)) (HI : forall n, P (JInt n)) (HF : forall r d, P (JFloat r d)) (HS : forall s, P (JStr s))
  (HL : forall l, Forall P l -> P (JList l)) (HO : forall fs, Forall (fun p => P (snd p)) fs -> P (JObj fs)) (j : json) : P j :=
  match j with
  | JNull => HN | JBool b => HB b | JInt n => HI n | JFloat r d => HF r d | JStr s => HS s
  | JList l => HL l ((fix go l := match l return Forall P l with [] => Forall_nil P | a :: r => Forall_cons a (json_ind' P HN HB HI HF HS HL HO a) (go r) end) l)
  | JObj fs => HO fs ((fix go l := match l return Forall (fun p => P (snd p)) l with [] => Forall_nil _ | a :: r => Forall_cons a (json_ind' P HN HB HI HF HS HL HO (snd a)) (go r) end) fs)
  end.
Lemma blank_nil : Blank []. Proof. constructor. Qed.
Lemma blank_sp : Blank [32]. Proof. repeat constructor. Qed.
Lemma val_text v t : JVal v t -> JText v t.
Proof. intros H. pose proof (T_blank v [] t [] blank_nil H blank_nil) as T. cbn [app] in T. rewrite app_nil_r in T. auto. Qed.
Lemma sp_text v t : JVal v t -> JText v (32 :: t).
Proof. intros H. pose proof (T_blank v [32] t [] blank_sp H blank_nil) as T. cbn [app] in T. rewrite app_nil_r in T. auto. Qed.
Lemma dumps_reads j : Plain j -> JVal j (dumps j).
Proof.
  induction j as [|b|n|r d|s|l IH|fs IH] using json_ind'; intros P; inversion P; subst.
  - constructor.
  - destruct b; constructor.
  - apply V_int, writes_int.
  - apply V_quarter; auto.
  - apply V_str, str_reads. auto.
  - destruct l as [|a l]; [apply (V_none []), blank_nil|]. cbn [dumps map]. inversion H0 as [|? ? PA PL]; subst. inversion IH as [|? ? IA IL]; subst.
    apply V_list. enough (G : forall w, (w = [] \/ w = [32]) -> Elems a l (w ++ commas (dumps a :: map dumps l))) by (apply (G []); auto).
    assert (W : forall a w, JVal a (dumps a) -> (w = [] \/ w = [32]) -> JText a (w ++ dumps a)) by (intros ? ? ? [->| ->]; [apply val_text|apply sp_text]; auto).
    clear H0 IH. revert a PA PL IA IL P. induction l as [|b l IHl]; intros a PA PL IA IL P w Hw; cbn [map commas].
    + apply E_one, W; auto.
    + inversion PL as [|? ? PB PL']; subst. inversion IL as [|? ? IB IL']; subst. rewrite app_assoc. change (str ", " ++ commas (dumps b :: map dumps l)) with (44 :: ([32] ++ commas (dumps b :: map dumps l))).
      apply E_more; [apply W; auto|]. refine (IHl b PB PL' IB IL' _ [32] _); auto. constructor; auto.
  - destruct fs as [|a l]; [apply (V_empty []), blank_nil|]. cbn [dumps map]. inversion H0 as [|? ? PA PL]; subst. inversion IH as [|? ? IA IL]; subst. set (f := fun p : pystr * json => _).
    apply V_obj. enough (G : forall w, (w = [] \/ w = [32]) -> Members a l (w ++ commas (f a :: map f l))) by (apply (G []); auto).
    assert (W : forall a w, JVal (snd a) (dumps (snd a)) -> Forall scalar (fst a) -> (w = [] \/ w = [32]) -> Member a (w ++ f a)).
    { intros [k v] w R K Hw. unfold f. cbn [fst snd] in *. change (str ": " ++ dumps v) with ([] ++ 58 :: 32 :: dumps v). apply M_field; auto using blank_nil, str_reads, sp_text. destruct Hw as [->| ->]; auto using blank_nil, blank_sp. }
    clearbody f. clear H0 IH. revert a PA PL IA IL P. induction l as [|b l IHl]; intros a PA PL IA IL P w Hw; cbn [map commas].
    + apply M_one, W; tauto.
    + inversion PL as [|? ? PB PL']; subst. inversion IL as [|? ? IB IL']; subst. rewrite app_assoc. change (str ", " ++ commas (f b :: map f l)) with (44 :: ([32] ++ commas (f b :: map f l))).
      apply M_more; [apply W; tauto|]. refine (IHl b PB PL' IB IL' _ [32] _); auto. constructor; auto.
Qed.

(** ** No other reading *)
Lemma hex_unique b t b' t' r r' : HexOf b t -> HexOf b' t' -> length b = length b' -> t ++ r = t' ++ r' -> b = b' /\ r = r'.
Proof.
  assert (D : forall c v v', hexdigit c v -> hexdigit c v' -> v = v') by (intros c v v' A B; apply hexdigit_val in A, B; congruence).
  intros H. revert b' t'. induction H as [|x c1 c2 v1 v2 b h H1 H2 -> H IH]; intros b' t' H' L E; destruct H' as [|x' c1' c2' v1' v2' b' h' H1' H2' -> H']; cbn [length app] in *; try discriminate; auto.
  injection E as <- <- E. injection L as L. destruct (IH b' h' H' L E) as [-> ->]. rewrite (D _ _ _ H1 H1'), (D _ _ _ H2 H2'). auto.
Qed.

Lemma u_unique n t n' t' r r' : UEscape n t -> UEscape n' t' -> t ++ r = t' ++ r' -> n = n' /\ r = r'.
Proof.
  intros [a b h H] [a' b' h' H'] E. cbn [app] in E. injection E as E. destruct (hex_unique _ _ _ _ _ _ H H' eq_refl E) as [Q ->]. injection Q as <- <-. auto.
Qed.
Lemma u_head n t : UEscape n t -> exists u, t = 92 :: 117 :: u. Proof. intros []. eauto. Qed.
Lemma char_unique c t c' t' r r' : JChar c t -> JChar c' t' -> t ++ r = t' ++ r' -> c = c' /\ r = r'.
Proof.
  intros H H' E. destruct H as [c P Q S|c e I|c t U N|h l t u U1 U2 Rh Rl], H' as [c' P' Q' S'|c' e' I'|c' t' U' N'|h' l' t' u' U1' U2' Rh' Rl'];
    repeat match goal with U : UEscape _ ?t |- _ => match goal with _ : t = 92 :: 117 :: _ |- _ => fail 1 | _ => destruct (u_head _ _ U) as (? & ?) end end.
  - cbn [app] in E. injection E as -> ->. auto.
  - exfalso. cbn [app] in E. congruence.
  - exfalso. subst t'. cbn [app] in E. congruence.
  - exfalso. subst t'. cbn [app] in E. congruence.
  - exfalso. cbn [app] in E. congruence.
  - cbn [app] in E. injection E as <- ->. split; auto. cbn [In] in I, I'. intuition congruence.
  - exfalso. subst t'. cbn [app] in E. injection E as -> _. cbn [In] in I. intuition congruence.
  - exfalso. subst t'. cbn [app] in E. injection E as -> _. cbn [In] in I. intuition congruence.
  - exfalso. subst t. cbn [app] in E. congruence.
  - exfalso. subst t. cbn [app] in E. injection E as <- _. cbn [In] in I'. intuition congruence.
  - eapply u_unique; eauto.
  - exfalso. rewrite <- app_assoc in E. destruct (u_unique _ _ _ _ _ _ U U1' E) as [-> _]. apply N. unfold surrogate. lia.
  - exfalso. subst t. cbn [app] in E. congruence.
  - exfalso. subst t. cbn [app] in E. injection E as <- _. cbn [In] in I'. intuition congruence.
  - exfalso. rewrite <- app_assoc in E. destruct (u_unique _ _ _ _ _ _ U1 U' E) as [<- _]. apply N'. unfold surrogate. lia.
  - rewrite <- !app_assoc in E. destruct (u_unique _ _ _ _ _ _ U1 U1' E) as [A E2]. destruct (u_unique _ _ _ _ _ _ U2 U2' E2) as [B ->]. split; auto. lia.
Qed.
Lemma char_head c t r : JChar c t -> exists d u, t ++ r = d :: u /\ d <> 34.
Proof.
  intros [c' P Q S|c' e I|c' u U N|h l u v U1 U2 _ _]; cbn [app]; [eauto|exists 92; eauto with zarith..| |]; [destruct (u_head _ _ U) as (x & ->)|destruct (u_head _ _ U1) as (x & ->)]; cbn [app]; exists 92; eexists; split; eauto; lia.
Qed.
Lemma chars_unique s u : JChars s u -> forall s' u' r r', JChars s' u' -> u ++ 34 :: r = u' ++ 34 :: r' -> s = s' /\ r = r'.
Proof.
  intros H. induction H as [|c s t u C H IH]; intros s' u' r r' H' E; destruct H' as [|c' s' t' u' C' H']; cbn [app] in E; rewrite <- ?app_assoc in E.
  - injection E as ->. auto.
  - exfalso. destruct (char_head _ _ (u' ++ 34 :: r') C') as (d & v & Q & N). congruence.
  - exfalso. destruct (char_head _ _ (u ++ 34 :: r) C) as (d & v & Q & N). congruence.
  - destruct (char_unique _ _ _ _ _ _ C C' E) as [<- E2]. destruct (IH _ _ _ _ H' E2) as [<- ->]. auto.
Qed.
Lemma string_unique s t s' t' r r' : JString s t -> JString s' t' -> t ++ r = t' ++ r' -> s = s' /\ r = r'.
Proof.
  intros (u & H & ->) (u' & H' & ->) E. cbn [app] in E. injection E as E. rewrite <- !app_assoc in E. eapply chars_unique; eauto.
Qed.

Definition blank (c : Z) : Prop := In c [32; 9; 10; 13].
Definition Starts (P : Z -> Prop) (r : pystr) : Prop := match r with [] => True | c :: _ => P c end.
Lemma blank_unique w w' x x' : Blank w -> Blank w' -> Starts (fun c => ~ blank c) x -> Starts (fun c => ~ blank c) x' -> w ++ x = w' ++ x' -> x = x'.
Proof.
  intros H. revert w'. induction H as [|c w Hc H IH]; intros w' H' S S' E; destruct H' as [|c' w' Hc' H']; cbn [app] in E; auto.
  - subst x. cbn in S. contradiction.
  - subst x'. cbn in S'. contradiction.
  - injection E as <- E. eauto.
Qed.
Definition digit (c : Z) : Prop := 48 <= c <= 57.
Lemma int_unique n t n' t' r r' : WritesInt n t -> WritesInt n' t' -> Starts (fun c => ~ digit c) r -> Starts (fun c => ~ digit c) r' -> t ++ r = t' ++ r' -> n = n' /\ r = r'.
Proof.
  assert (DS : forall n ds, Digits n ds -> Forall digit ds).
  { intros m ds D. apply Digits_chars in D. rewrite forallb_forall in D. apply Forall_forall. intros c I. apply D in I. unfold is_digit in I. unfold digit. lia. }
  assert (G : forall d d' r r', Forall digit d -> Forall digit d' -> Starts (fun c => ~ digit c) r -> Starts (fun c => ~ digit c) r' -> d ++ r = d' ++ r' -> d = d' /\ r = r').
  { clear. intros d d' r r' F. revert d'. induction F as [|c d Hc F IH]; intros d' F' S S' E; destruct F' as [|c' d' Hc' F']; cbn [app] in E; auto.
    - subst r. cbn in S. contradiction.
    - subst r'. cbn in S'. contradiction.
    - injection E as <- E. destruct (IH _ F' S S' E) as [-> ->]. auto. }
  intros (d & D & Sg & L) (d' & D' & Sg' & L') S S' E. pose proof (DS _ _ D) as F. pose proof (DS _ _ D') as F'.
  assert (NE : d <> []) by (destruct L as [L|(? & ? & -> & _)]; [destruct d; discriminate|discriminate]). assert (NE' : d' <> []) by (destruct L' as [L'|(? & ? & -> & _)]; [destruct d'; discriminate|discriminate]).
  destruct Sg as [[P ->]|[P ->]], Sg' as [[P' ->]|[P' ->]]; cbn [app] in E.
  - injection E as E. destruct (G _ _ _ _ F F' S S' E) as [<- ->]. split; auto. apply Digits_num in D, D'. lia.
  - exfalso. destruct d' as [|c d']; [contradiction|]. cbn [app] in E. injection E as <- _. inversion F'; subst. unfold digit in *. lia.
  - exfalso. destruct d as [|c d]; [contradiction|]. cbn [app] in E. injection E as -> _. inversion F; subst. unfold digit in *. lia.
  - destruct (G _ _ _ _ F F' S S' E) as [<- ->]. split; auto. apply Digits_num in D, D'. lia.
Qed.
(** What a text begins with tells the kind of value. *)
Definition kind (v : json) : Z :=
  match v with JNull => 110 | JBool true => 116 | JBool false => 102 | JInt _ | JFloat _ _ => 48 | JStr _ => 34 | JList _ => 91 | JObj _ => 123 end.
Definition kind_of (c : Z) : Z := if (c =? 45) || ((48 <=? c) && (c <=? 57)) then 48 else c.
Lemma val_head v t : JVal v t -> exists c u, t = c :: u /\ kind_of c = kind v /\ ~ blank c /\ c <> 93 /\ c <> 125.
Proof.
  assert (C : forall c u v, In c [110; 116; 102; 34; 91; 123] -> c = kind v -> exists d w, c :: u = d :: w /\ kind_of d = kind v /\ ~ blank d /\ d <> 93 /\ d <> 125).
  { intros c u w I K. exists c, u. split; auto. rewrite <- K. cbn [In] in I. repeat (destruct I as [<-|I]; [repeat split; try lia; cbn; intuition lia|]). destruct I. }
  assert (I : forall n d, WritesInt n d -> exists c u, d = c :: u /\ kind_of c = 48 /\ ~ blank c /\ c <> 93 /\ c <> 125).
  2:{ intros [| | |n d W|n d f m a e R W Q|s d (u & H & ->)|w B|w l d H|w B|w l d H]; try (apply C; cbn; auto 10; fail); destruct (I _ _ W) as (c & u & -> & K); cbn [app]; eauto. }
  intros n d (ds & D & Sg & L). assert (NE : exists c r, ds = c :: r /\ digit c).
  { assert (F : Forall digit ds) by (apply Digits_chars in D; rewrite forallb_forall in D; apply Forall_forall; intros c I; apply D in I; unfold is_digit in I; unfold digit; lia).
    destruct L as [L|(c & r & -> & _)]; [destruct ds as [|c r]; [discriminate|]|]; inversion F; subst; eauto. }
  destruct NE as (c & r & -> & R). destruct Sg as [[P ->]|[P ->]].
  - exists 45, (c :: r). repeat split; try lia; cbn; intuition lia.
  - exists c, r. unfold digit in R. split; auto. split; [unfold kind_of; destruct (Z.leb_spec 48 c), (Z.leb_spec c 57); try lia; rewrite orb_true_r; reflexivity|]. split; [cbn; lia|lia].
Qed.
Scheme JVal_mut := Minimality for JVal Sort Prop with JText_mut := Minimality for JText Sort Prop with Elems_mut := Minimality for Elems Sort Prop
  with Members_mut := Minimality for Members Sort Prop with Member_mut := Minimality for Member Sort Prop.
Combined Scheme json_mut from JVal_mut, JText_mut, Elems_mut, Members_mut, Member_mut.
Definition numeric (c : Z) : Prop := digit c \/ c = 46 \/ c = 101 \/ c = 69.
Definition delim (c : Z) : Prop := c = 44 \/ c = 93 \/ c = 125.
Lemma starts_weaken (P Q : Z -> Prop) r : (forall c, P c -> Q c) -> Starts P r -> Starts Q r.
Proof. destruct r; cbn; auto. Qed.
Lemma delim_blank r : Starts delim r -> Starts (fun c => ~ blank c) r.
Proof. apply starts_weaken. unfold delim, blank. cbn. intros. lia. Qed.
Lemma delim_digit w r : Blank w -> Starts delim r -> Starts (fun c => ~ numeric c) (w ++ r).
Proof. intros B H. destruct B as [|c w' Bc B]; cbn [app]; [revert H; apply starts_weaken; unfold delim, numeric, digit; intros; lia|]. cbn in *. unfold numeric, digit. lia. Qed.
Lemma numeric_digit r : Starts (fun c => ~ numeric c) r -> Starts (fun c => ~ digit c) r.
Proof. apply starts_weaken. unfold numeric. tauto. Qed.
Lemma quarter_unique f m a e f' m' a' e' r r' : In (f, m, a, e) quarters -> In (f', m', a', e') quarters -> f ++ r = f' ++ r' -> (f, m, a, e) = (f', m', a', e') /\ r = r'.
Proof.
  intros I I' E. unfold quarters in I, I'. cbn [In] in I, I'.
  repeat match goal with H : _ \/ _ |- _ => destruct H as [H|H] | H : False |- _ => destruct H end; injection I as <- <- <- <-; injection I' as <- <- <- <-; cbn in E; try discriminate E; injection E as ->; auto.
Qed.
Lemma text_head v t r : JText v t -> exists w c u, Blank w /\ t ++ r = w ++ c :: u /\ ~ blank c /\ c <> 93 /\ c <> 125.
Proof.
  intros [v' w t' w' B V B']. destruct (val_head _ _ V) as (c & u & -> & K & A). exists w, c. eexists. split; auto. split; auto. rewrite <- !app_assoc. cbn [app]. reflexivity.
Qed.
Lemma elems_head v l t r : Elems v l t -> exists w c u, Blank w /\ t ++ r = w ++ c :: u /\ ~ blank c /\ c <> 93.
Proof.
  intros [v' t' T|v' v2 l' t' u T _].
  - destruct (text_head _ _ r T) as (w & c & x & B & E & A). exists w, c, x. tauto.
  - rewrite <- app_assoc. destruct (text_head _ _ ((44 :: u) ++ r) T) as (w & c & x & B & E & A). exists w, c, x. tauto.
Qed.
Lemma member_head f t r : Member f t -> exists w u, Blank w /\ t ++ r = w ++ 34 :: u.
Proof.
  intros [k v w s w' t' B (u & _ & ->) B' _]. exists w. eexists. split; auto. rewrite <- app_assoc. cbn [app]. reflexivity.
Qed.
Lemma members_head f l t r : Members f l t -> exists w u, Blank w /\ t ++ r = w ++ 34 :: u.
Proof.
  intros [f' t' M|f' f2 l' t' u M _]; [eapply member_head; eauto|]. rewrite <- app_assoc. eapply member_head; eauto.
Qed.
Lemma unique :
  (forall v t, JVal v t -> forall v' t' r r', JVal v' t' -> Starts (fun c => ~ numeric c) r -> Starts (fun c => ~ numeric c) r' -> t ++ r = t' ++ r' -> v = v' /\ r = r') /\
  (forall v t, JText v t -> forall v' t' r r', JText v' t' -> Starts delim r -> Starts delim r' -> t ++ r = t' ++ r' -> v = v' /\ r = r') /\
  (forall v l t, Elems v l t -> forall v' l' t' r r', Elems v' l' t' -> t ++ 93 :: r = t' ++ 93 :: r' -> v = v' /\ l = l' /\ r = r') /\
  (forall f l t, Members f l t -> forall f' l' t' r r', Members f' l' t' -> t ++ 125 :: r = t' ++ 125 :: r' -> f = f' /\ l = l' /\ r = r') /\
  (forall f t, Member f t -> forall f' t' r r', Member f' t' -> Starts delim r -> Starts delim r' -> t ++ r = t' ++ r' -> f = f' /\ r = r').
Proof.
  assert (KD : forall v t v' t' r r', JVal v t -> JVal v' t' -> t ++ r = t' ++ r' -> kind v = kind v').
  { intros v t v' t' r r' H H' E. destruct (val_head _ _ H) as (c & u & -> & <- & _). destruct (val_head _ _ H') as (c' & u' & -> & <- & _). cbn [app] in E. congruence. }
  apply json_mut.
  - intros v' t' r r' H' S S' E. pose proof (KD _ _ _ _ _ _ V_null H' E) as K. destruct H'; try discriminate K. apply app_inv_head in E. auto.
  - intros v' t' r r' H' S S' E. pose proof (KD _ _ _ _ _ _ V_true H' E) as K. destruct H'; try discriminate K. apply app_inv_head in E. auto.
  - intros v' t' r r' H' S S' E. pose proof (KD _ _ _ _ _ _ V_false H' E) as K. destruct H'; try discriminate K. apply app_inv_head in E. auto.
  - intros n t W v' t' r r' H' S S' E. pose proof (KD _ _ _ _ _ _ (V_int _ _ W) H' E) as K. destruct H' as [| | |n' d W'|n' d f m a e R' W' Q'| | | | |]; try discriminate K.
    + destruct (int_unique _ _ _ _ _ _ W W' (numeric_digit _ S) (numeric_digit _ S') E) as [-> ->]. auto.
    + exfalso. rewrite <- app_assoc in E. edestruct (fun X => int_unique _ _ _ _ _ _ W W' (numeric_digit _ S) X E) as [_ ->]; [cbn; unfold digit; lia|]. cbn in S. unfold numeric in S. tauto.
  - intros n t f m a e R W Q v' t' r r' H' S S' E. pose proof (KD _ _ _ _ _ _ (V_quarter _ _ _ _ _ _ R W Q) H' E) as K. destruct H' as [| | |n' d W'|n' d f' m' a' e' R' W' Q'| | | | |]; try discriminate K; rewrite <- !app_assoc in E.
    + exfalso. edestruct (fun X => int_unique _ _ _ _ _ _ W W' X (numeric_digit _ S') E) as [_ <-]; [cbn; unfold digit; lia|]. cbn in S'. unfold numeric in S'. tauto.
    + destruct (int_unique _ _ _ _ ((46 :: f) ++ r) ((46 :: f') ++ r') W W') as [<- E2]; [cbn; unfold digit; lia|cbn; unfold digit; lia|exact E|]. cbn [app] in E2. injection E2 as E2. destruct (quarter_unique _ _ _ _ _ _ _ _ _ _ Q Q' E2) as [E3 ->]. injection E3 as <- <- <- <-. split; auto.
      assert (d = t) as ->; [|reflexivity]. rewrite !app_assoc in E. apply app_inv_tail in E. apply app_inv_tail in E. auto.
  - intros s t W v' t' r r' H' S S' E. pose proof (KD _ _ _ _ _ _ (V_str _ _ W) H' E) as K. destruct H' as [| | | | |s' d W'| | | |]; try discriminate K. destruct (string_unique _ _ _ _ _ _ W W' E) as [-> ->]. auto.
  - intros w B v' t' r r' H' S S' E. pose proof (KD _ _ _ _ _ _ (V_none _ B) H' E) as K. destruct H' as [| | | | | |w' B'|x l d H| |]; try discriminate K; cbn [app] in E; injection E as E; rewrite <- !app_assoc in E.
    + apply blank_unique in E; auto; try (cbn; unfold blank; cbn; lia). cbn [app] in E. injection E as ->. auto.
    + exfalso. destruct (elems_head _ _ _ ([93] ++ r') H) as (w' & c & u & B' & Q & NB & NC). rewrite Q in E. apply blank_unique in E; auto; [|cbn; unfold blank; cbn; lia]. cbn [app] in E. congruence.
  - intros x l t H IH v' t' r r' H' S S' E. pose proof (KD _ _ _ _ _ _ (V_list _ _ _ H) H' E) as K. destruct H' as [| | | | | |w' B'|x' l' d H'| |]; try discriminate K; cbn [app] in E; injection E as E; rewrite <- !app_assoc in E.
    + exfalso. destruct (elems_head _ _ _ ([93] ++ r) H) as (w & c & u & B & Q & NB & NC). rewrite Q in E. apply blank_unique in E; auto; [|cbn; unfold blank; cbn; lia]. cbn [app] in E. congruence.
    + destruct (IH _ _ _ _ _ H' E) as (-> & -> & ->). auto.
  - intros w B v' t' r r' H' S S' E. pose proof (KD _ _ _ _ _ _ (V_empty _ B) H' E) as K. destruct H' as [| | | | | | | |w' B'|x l d H]; try discriminate K; cbn [app] in E; injection E as E; rewrite <- !app_assoc in E.
    + apply blank_unique in E; auto; try (cbn; unfold blank; cbn; lia). cbn [app] in E. injection E as ->. auto.
    + exfalso. destruct (members_head _ _ _ ([125] ++ r') H) as (w' & u & B' & Q). rewrite Q in E. apply blank_unique in E; auto; try (cbn; unfold blank; cbn; lia). discriminate.
  - intros x l t H IH v' t' r r' H' S S' E. pose proof (KD _ _ _ _ _ _ (V_obj _ _ _ H) H' E) as K. destruct H' as [| | | | | | | |w' B'|x' l' d H']; try discriminate K; cbn [app] in E; injection E as E; rewrite <- !app_assoc in E.
    + exfalso. destruct (members_head _ _ _ ([125] ++ r) H) as (w & u & B & Q). rewrite Q in E. apply blank_unique in E; auto; try (cbn; unfold blank; cbn; lia). discriminate.
    + destruct (IH _ _ _ _ _ H' E) as (-> & -> & ->). auto.
  - intros v w t w1 B V IH B1 v' t' r r' H' S S' E. destruct H' as [v' w' t' w1' B' V' B1']. rewrite <- !app_assoc in E.
    destruct (val_head _ _ V) as (c & u & -> & _ & NB & _). destruct (val_head _ _ V') as (c' & u' & -> & _ & NB' & _). apply blank_unique in E; auto.
    destruct (IH _ _ _ _ V' (delim_digit _ _ B1 S) (delim_digit _ _ B1' S') E) as [-> E2]. apply blank_unique in E2; auto using delim_blank.
  - intros v t T IH v' l' t' r r' H' E. destruct H' as [v' t' T'|v' v2 l' t' u T' _].
    + edestruct (fun S S' => IH _ _ _ _ T' S S' E) as [-> E2]; [cbn; unfold delim; auto|cbn; unfold delim; auto|]. injection E2 as ->. auto.
    + exfalso. rewrite <- app_assoc in E. edestruct (fun S S' => IH _ _ _ _ T' S S' E) as [_ E2]; [cbn; unfold delim; auto|cbn; unfold delim; auto|]. discriminate.
  - intros v v1 l t u T IH _ IH2 v' l' t' r r' H' E. rewrite <- app_assoc in E. destruct H' as [v' t' T'|v' v2 l' t' u' T' H'].
    + exfalso. edestruct (fun S S' => IH _ _ _ _ T' S S' E) as [_ E2]; [cbn; unfold delim; auto|cbn; unfold delim; auto|]. discriminate.
    + rewrite <- app_assoc in E. edestruct (fun S S' => IH _ _ _ _ T' S S' E) as [-> E2]; [cbn; unfold delim; auto|cbn; unfold delim; auto|]. injection E2 as E2. destruct (IH2 _ _ _ _ _ H' E2) as (-> & -> & ->). auto.
  - intros v t T IH v' l' t' r r' H' E. destruct H' as [v' t' T'|v' v2 l' t' u T' _].
    + edestruct (fun S S' => IH _ _ _ _ T' S S' E) as [-> E2]; [cbn; unfold delim; auto|cbn; unfold delim; auto|]. injection E2 as ->. auto.
    + exfalso. rewrite <- app_assoc in E. edestruct (fun S S' => IH _ _ _ _ T' S S' E) as [_ E2]; [cbn; unfold delim; auto|cbn; unfold delim; auto|]. discriminate.
  - intros v v1 l t u T IH _ IH2 v' l' t' r r' H' E. rewrite <- app_assoc in E. destruct H' as [v' t' T'|v' v2 l' t' u' T' H'].
    + exfalso. edestruct (fun S S' => IH _ _ _ _ T' S S' E) as [_ E2]; [cbn; unfold delim; auto|cbn; unfold delim; auto|]. discriminate.
    + rewrite <- app_assoc in E. edestruct (fun S S' => IH _ _ _ _ T' S S' E) as [-> E2]; [cbn; unfold delim; auto|cbn; unfold delim; auto|]. injection E2 as E2. destruct (IH2 _ _ _ _ _ H' E2) as (-> & -> & ->). auto.
  - intros k v w s w1 t B K B1 _ IH f' t' r r' H' S S' E. destruct H' as [k' v' w' s' w1' t' B' K' B1' T']. rewrite <- !app_assoc in E. cbn [app] in E.
    assert (E1 : s ++ w1 ++ 58 :: t ++ r = s' ++ w1' ++ 58 :: t' ++ r').
    { destruct K as (x & _ & ->), K' as (x' & _ & ->). refine (blank_unique w w' _ _ B B' _ _ E); cbn; unfold blank; cbn; lia. }
    destruct (string_unique _ _ _ _ _ _ K K' E1) as [-> E2]. apply blank_unique in E2; auto; try (cbn; unfold blank; cbn; lia). injection E2 as E2. destruct (IH _ _ _ _ T' S S' E2) as [-> ->]. auto.
Qed.

(** ** Theorems *)
(** json.dumps: the text stands for the value and, by the rules of JSON, for nothing
    else. *)
Theorem C102_dumps j : Plain j -> JText j (dumps j) /\ forall v, JText v (dumps j) -> v = j.
Proof.
  intros P. pose proof (val_text _ _ (dumps_reads j P)) as T. split; auto. intros v H. destruct unique as (_ & U & _).
  destruct (U _ _ H _ _ [] [] T) as [-> _]; cbn; auto.
Qed.
(** host.a.b.c(args): what the node reads is a request for the method a.b.c with these
    arguments and nothing else, whatever quotes or control characters they contain. *)
Definition dotted (names : list pystr) (s : pystr) : Prop :=
  match names with [] => False | n :: r => s = n ++ concat (map (fun m => 46 :: m) r) end.
Theorem C102_payload url n names args : Forall scalar (n ++ concat names) -> Forall Plain args ->
  let m := fold_left method_attr names (host_attr url n) in
  rpc_host m = url /\
  exists name, dotted (n :: names) name /\
  forall v, JText v (payload m args) <-> v = JObj [(str "method", JStr name); (str "params", JList args); (str "jsonrpc", JStr (str "2.0"))].
Proof.
  intros S A m. assert (M : rpc_host m = url /\ rpc_method m = n ++ concat (map (fun x => 46 :: x) names)).
  { subst m. clear S. unfold host_attr. change url with (rpc_host (mkRPC n url)) at 2. change (n ++ concat (map (fun x => 46 :: x) names)) with (rpc_method (mkRPC n url) ++ concat (map (fun x => 46 :: x) names)).
    generalize (mkRPC n url). induction names as [|x names IH]; intros m; cbn [fold_left map concat]; [rewrite app_nil_r; auto|]. destruct (IH (method_attr m x)) as [-> ->]. split; auto.
    cbn [method_attr rpc_method]. rewrite <- !app_assoc. reflexivity. }
  destruct M as [MH MM]. split; auto. exists (rpc_method m). split; [exact MM|].
  assert (P : Plain (JObj [(str "method", JStr (rpc_method m)); (str "params", JList args); (str "jsonrpc", JStr (str "2.0"))])).
  { assert (SC : forall c, 32 <= c <= 126 -> scalar c) by (unfold scalar, surrogate; intros; lia).
    constructor. repeat constructor; cbn [fst snd]; try (apply SC; cbn; lia); auto.
    rewrite MM. apply Forall_app in S as [S1 S2]. apply Forall_app. split; auto. clear -S2 SC. induction names as [|x names IH]; cbn [map concat] in *; [constructor|]. apply Forall_app in S2 as [S1 S2].
    constructor; [apply SC; lia|]. apply Forall_app. auto. }
  destruct (C102_dumps _ P) as [T U]. intros v. split; [apply U|intros ->; exact T].
Qed.
Print Assumptions C102_dumps.
Print Assumptions C102_payload.

(** An address that tries to be more than an address, with a control character, an
    accent and an emoji; the text is the one that Python writes. *)
Definition nasty : pystr := [49; 34; 44; 32; 48; 93; 44; 32; 34; 109; 101; 116; 104; 111; 100; 34; 58; 32; 34; 115; 116; 111; 112; 127; 9; 92; 233; 128512].
Example C102_text : payload (host_attr [] (str "getreceivedbyaddress")) [JStr nasty; JInt 0; JBool true; JNull; JList []; JObj []] =
  str "{""method"": ""getreceivedbyaddress"", ""params"": [""1\"", 0], \""method\"": \""stop\u007f\t\\\u00e9\ud83d\ude00"", 0, true, null, [], {}], ""jsonrpc"": ""2.0""}".
Proof. vm_compute. reflexivity. Qed.
Example C102_hypotheses : Forall scalar (str "getreceivedbyaddress" ++ concat [str "sub"]) /\ Forall Plain [JStr nasty; JInt 0; JBool true; JNull; JList []; JObj []].
Proof.
  assert (S : forall s, forallb (fun c => (0 <=? c) && (c <? 1114112) && negb ((55296 <=? c) && (c <? 57344))) s = true -> Forall scalar s).
  { intros s H. rewrite forallb_forall in H. apply Forall_forall. intros c I. apply H in I. unfold scalar, surrogate. lia. }
  split; [apply S; reflexivity|]. constructor; [constructor; apply S; reflexivity|]. repeat constructor.
Qed.
