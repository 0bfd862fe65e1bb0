(** C103: prepared transactions as texts. *)
From Coq Require Import String.
From Verif Require Import F_base F_utils F_hex F_decimal M_loads S_Hex S_Decimal S_Cli S_Json S_Prepared P_cli P_json.
From Coq Require Import List ZArith Lia Arith.
Import ListNotations.
Open Scope Z_scope.

(** ** Strings *)
Lemma hex4_reads a b t r : HexOf [a; b] t -> hex4 (t ++ r) = Some (256 * a + b, r).
Proof.
  intros H. inversion H as [|x c1 c2 v1 v2 b' h H1 H2 E H3]; subst. inversion H3 as [|x' d1 d2 w1 w2 b'' h' H1' H2' E' H3']; subst. inversion H3'; subst.
  cbn [app hex4]. apply hexdigit_val in H1, H2, H1', H2'. rewrite H1, H2, H1', H2'. do 2 f_equal. lia.
Qed.
Lemma escape_reads n t r : UEscape n t -> exists u, t = 92 :: 117 :: u /\ hex4 (u ++ r) = Some (n, r).
Proof. intros [a b u H]. exists u. split; auto. apply hex4_reads. auto. Qed.
Lemma char_parses c t r f : JChar c t -> scanstring (S f) (t ++ r) = with_char c (scanstring f r).
Proof.
  intros [c' P Q S|c' e I|c' x U N|h l x y U1 U2 Rh Rl].
  - cbn [app scanstring]. destruct (Z.eqb_spec c' 34); [contradiction|]. destruct (Z.eqb_spec c' 92); [contradiction|]. destruct (Z.ltb_spec c' 32); [lia|]. reflexivity.
  - cbn [app scanstring]. change (92 =? 34) with false. change (92 =? 92) with true. cbn iota. cbn [In] in I. repeat (destruct I as [I|I]; [injection I as <- <-; reflexivity|]). destruct I.
  - destruct (escape_reads _ _ r U) as (z & -> & HX). cbn [app scanstring]. change (92 =? 34) with false. change (92 =? 92) with true. change (117 =? 117) with true. cbn iota.
    unfold unicode_escape. rewrite HX. assert (HI : high c' = false) by (unfold high, surrogate in *; lia). rewrite HI. reflexivity.
  - destruct (escape_reads _ _ (y ++ r) U1) as (z & -> & HX). destruct (escape_reads _ _ r U2) as (z' & -> & HY). rewrite <- app_assoc. cbn [app scanstring].
    change (92 =? 34) with false. change (92 =? 92) with true. change (117 =? 117) with true. cbn iota. cbn [app] in HX.
    unfold unicode_escape. rewrite HX. assert (HI : high (55296 + h) = true) by (unfold high; lia). rewrite HI. rewrite HY. assert (LO : low (56320 + l) = true) by (unfold low; lia). change ((92 =? 92) && (117 =? 117)) with true. cbn iota. rewrite LO.
    do 2 f_equal; lia.
Qed.
Lemma chars_parse s u : JChars s u -> forall r f, (length u < f)%nat -> scanstring f (u ++ 34 :: r) = Some (s, r).
Proof.
  induction 1 as [|c s t u C H IH]; intros r f L.
  - destruct f; [inversion L|]. reflexivity.
  - rewrite <- app_assoc. destruct f as [|f]; [inversion L|]. rewrite (char_parses c) by auto. rewrite IH; [reflexivity|].
    destruct (char_head _ _ [] C) as (d & v & Q & _). rewrite app_nil_r in Q. subst t. cbn [app length] in L. rewrite app_length in L. lia.
Qed.
Lemma string_parses s t r : JString s t -> exists u, t ++ r = 34 :: u /\ read_string u = Some (s, r).
Proof.
  intros (u & H & ->). exists (u ++ 34 :: r). cbn [app]. rewrite <- app_assoc. split; auto. unfold read_string. apply chars_parse; auto. rewrite app_length. cbn. lia.
Qed.
(** ** White space *)
Lemma is_blank_iff c : is_blank c = true <-> blank c.
Proof. unfold is_blank, blank. cbn [In]. lia. Qed.
Lemma skip_blank w r : Blank w -> Starts (fun c => ~ blank c) r -> skip (w ++ r) = r.
Proof.
  intros B S. induction B as [|c w Hc B IH]; cbn [app skip].
  - destruct r as [|c r]; auto. cbn [skip]. destruct (is_blank c) eqn:E; auto. apply is_blank_iff in E. cbn in S. contradiction.
  - assert (E : is_blank c = true) by (apply is_blank_iff; exact Hc). rewrite E. exact IH.
Qed.
Lemma skip_none r : Starts (fun c => ~ blank c) r -> skip r = r.
Proof. apply (skip_blank [] r). constructor. Qed.

Section WithFloats.
Context {FL : Floats}.
(** ** Numbers *)
Lemma digits_chars n ds : Digits n ds -> forallb is_digit ds = true. Proof. apply Digits_chars. Qed.
Lemma is_digit_iff c : is_digit c = true <-> digit c. Proof. unfold is_digit, digit. lia. Qed.
(** The integer in front. *)
Definition unsigned (s : pystr) : pystr * pystr := match s with c :: r => if c =? 48 then ([48], r) else span_digits s | [] => ([], []) end.
Lemma unsigned_reads n ds r : Digits n ds -> (length ds = 1%nat \/ exists c r, ds = c :: r /\ c <> 48) -> Starts (fun c => ~ digit c) r -> unsigned (ds ++ r) = (ds, r).
Proof.
  intros D L S. pose proof (Digits_chars _ _ D) as F. assert (SP : span_digits (ds ++ r) = (ds, r)).
  { apply span_all; auto. intros c t ->. cbn in S. destruct (is_digit c) eqn:E; auto. apply is_digit_iff in E. contradiction. }
  destruct ds as [|c ds]; [destruct L as [L|(? & ? & L & _)]; discriminate|]. cbn [app unsigned]. destruct (Z.eqb_spec c 48) as [->|N]; [|exact SP].
  destruct L as [L|(? & ? & L & X)]; [|congruence]. destruct ds; [reflexivity|discriminate].
Qed.
Lemma no_fraction r : Starts (fun c => ~ numeric c) r -> fraction r = ([], r) /\ exponent r = ([], r).
Proof.
  destruct r as [|c r]; [auto|]. cbn [Starts fraction exponent]. unfold numeric. intros N. destruct (Z.eqb_spec c 46), (Z.eqb_spec c 101), (Z.eqb_spec c 69); cbn [orb]; auto; tauto.
Qed.
Lemma digits_nonempty ds : (length ds = 1%nat \/ exists (c : Z) r, ds = c :: r /\ c <> 48) -> exists d r, ds = d :: r.
Proof. intros [L|(d & r & -> & _)]; [|eauto]. destruct ds; [discriminate|eauto]. Qed.
Definition minus (s : pystr) : bool * pystr := match s with c :: r => if c =? 45 then (true, r) else (false, s) | [] => (false, s) end.
Lemma minus_digits ds r : forallb is_digit ds = true -> ds <> [] -> minus (ds ++ r) = (false, ds ++ r).
Proof. intros F NE. destruct ds as [|c d]; [contradiction|]. cbn [app minus]. destruct (Z.eqb_spec c 45) as [->|]; auto. cbn in F. discriminate. Qed.
Lemma read_number_eq s : read_number s =
  (let '(neg, s) := minus s in
   let '(i, s) := unsigned s in
   match i with
   | [] => None
   | _ => let '(f, s) := fraction s in let '(x, s) := exponent s in
          match f, x with [], [] => Some (JInt (if neg then - num i else num i), s) | _, _ => Some (float_of neg i f x, s) end
   end).
Proof. reflexivity. Qed.
Lemma int_parses n t r : WritesInt n t -> Starts (fun c => ~ numeric c) r -> read_number (t ++ r) = Some (JInt n, r).
Proof.
  intros (d & D & Sg & L) S. destruct (no_fraction r S) as [FR EX]. destruct (digits_nonempty _ L) as (c & d' & ED). rewrite read_number_eq.
  pose proof (unsigned_reads _ _ r D L (numeric_digit _ S)) as US. pose proof (Digits_num _ _ D) as N. pose proof (Digits_chars _ _ D) as F. destruct Sg as [[P ->]|[P ->]].
  - cbn [app]. change (45 =? 45) with true. cbn [minus]. change (45 =? 45) with true. cbv beta iota. rewrite US. cbv beta iota. rewrite FR. cbv beta iota. rewrite EX, N. subst d. do 3 f_equal. lia.
  - rewrite minus_digits by (auto; congruence). cbv beta iota. rewrite US. cbv beta iota. rewrite FR. cbv beta iota. rewrite EX, N. subst d. do 3 f_equal. lia.
Qed.
Lemma quarter_parses n t f m a e r : 0 <= n < 10 ^ 15 -> WritesInt n t -> In (f, m, a, e) quarters -> Starts (fun c => ~ numeric c) r ->
  read_number ((t ++ 46 :: f) ++ r) = Some (JFloat (t ++ 46 :: f) (Fin false (m * n + a) e), r).
Proof.
  intros R (d & D & Sg & L) Q S. destruct Sg as [[P _]|[P ->]]; [lia|]. rewrite Z.abs_eq in D by lia. destruct (no_fraction r S) as [FR EX]. destruct (digits_nonempty _ L) as (c & d' & ED). rewrite read_number_eq, <- app_assoc. cbn [app].
  pose proof (Digits_num _ _ D) as N. pose proof (Digits_chars _ _ D) as F.
  assert (US : unsigned (d ++ 46 :: f ++ r) = (d, 46 :: f ++ r)) by (eapply unsigned_reads; eauto; cbn; unfold digit; lia).
  assert (LEN : zlen d <= 15).
  { destruct L as [L|(c0 & r0 & E0 & N0)]; [unfold zlen; lia|]. pose proof D as D1. rewrite E0 in D1. pose proof (Digits_hd _ _ _ D1 N0) as LB. destruct (Z.le_gt_cases (zlen d) 15); auto.
    exfalso. assert (10 ^ 15 <= 10 ^ zlen r0) by (apply Z.pow_le_mono_r; [lia|]; subst d; unfold zlen in *; cbn [length] in *; lia). lia. }
  assert (FF : fraction (46 :: f ++ r) = (f, r) /\ f <> []).
  { assert (SP : forallb is_digit f = true /\ f <> []) by (cbn [quarters In] in Q; repeat (destruct Q as [Q|Q]; [injection Q as <- <- <- <-; split; [reflexivity|discriminate]|]); destruct Q).
    destruct SP as [SP NE]. split; auto. cbn [fraction]. change (46 =? 46) with true. cbn iota. rewrite span_all; auto.
    - destruct f; [contradiction|reflexivity].
    - intros x y ->. cbn in S. destruct (is_digit x) eqn:E; auto. apply is_digit_iff in E. unfold numeric in S. tauto. }
  destruct FF as [FF NE]. rewrite minus_digits by (auto; congruence). cbv beta iota. rewrite US. cbv beta iota. rewrite FF. cbv beta iota. rewrite EX. cbv beta iota. assert (G : forall A (x y : A), match d with [] => x | _ => y end = y) by (intros; subst d; reflexivity). rewrite G.
  assert (G2 : forall A (x y : A), match f with [] => x | _ :: _ => y end = y) by (intros; destruct f; [contradiction|reflexivity]). rewrite G2. do 2 f_equal. unfold float_of. rewrite G2, app_nil_r. cbn [app].
  rewrite (proj2 (Z.leb_le _ _) LEN).
  assert (NUM : forall fs k, Digits k fs -> num (d ++ fs) = n * 10 ^ zlen fs + k) by (intros fs k DF; apply Digits_num, Digits_app; auto).
  cbn [quarters In] in Q. repeat (destruct Q as [Q|Q]; [injection Q as <- <- <- <-|]); [..|destruct Q]; cbn [list_eqb str]; cbn -[num Z.mul Z.add].
  all: do 2 f_equal; rewrite ?N; unfold num in *; rewrite ?fold_left_app, ?N; cbn [fold_left]; lia.
Qed.
Lemma number_start t : (exists n, WritesInt n t) -> exists c u, t = c :: u /\ (digit c \/ c = 45 /\ exists d v, u = d :: v /\ digit d).
Proof.
  intros (n & d & D & Sg & L). destruct (digits_nonempty _ L) as (c & d' & ->). pose proof (Digits_chars _ _ D) as F. cbn in F. apply andb_true_iff in F as [F _]. apply is_digit_iff in F.
  destruct Sg as [[P ->]|[P ->]]; [exists 45, (c :: d')|exists c, d']; eauto 10.
Qed.
Lemma value_number t r k : (exists n, WritesInt n t) -> value (S k) (t ++ r) = read_number (t ++ r).
Proof.
  intros W. destruct (number_start t W) as (c & u & -> & H). cbn [app value].
  assert (Q : c =? 34 = false /\ c =? 123 = false /\ c =? 91 = false) by (unfold digit in H; lia). destruct Q as (-> & -> & ->).
  assert (FD : find (fun p => begins (fst p) (c :: u ++ r)) constants = None).
  { assert (G : forall l : list (pystr * json), (forall p, In p l -> begins (fst p) (c :: u ++ r) = false) -> find (fun p => begins (fst p) (c :: u ++ r)) l = None).
    { induction l as [|p l IH]; intros A; cbn [find]; auto. rewrite (A p) by (left; reflexivity). apply IH. intros q I. apply A. right. auto. }
    apply G. clear G. assert (B : forall a p, (a =? c) = false -> begins (a :: p) (c :: u ++ r) = false) by (intros a p E; cbn [begins]; rewrite E; reflexivity).
    intros p I. unfold constants in I. cbn [In] in I. repeat (destruct I as [<-|I]; [cbn [fst]; match goal with |- begins ?p _ = false => let q := eval vm_compute in p in change p with q end|]); [..|destruct I].
    6:{ destruct H as [H|(-> & d & v & -> & H)]; [apply B; unfold digit in H; lia|]. cbn [begins app]. unfold digit in H. replace (73 =? d) with false by lia. reflexivity. }
    all: apply B; unfold digit in H; lia. }
  rewrite FD. reflexivity.
Qed.

(** ** Values *)
Lemma value_S k s : value (S k) s =
      match s with
      | [] => None
      | c :: r =>
          if c =? 34 then match read_string r with Some (x, r) => Some (JStr x, r) | None => None end
          else if c =? 123
          then match skip r with
               | [] => None
               | d :: r2 => if d =? 125 then Some (JObj [], r2) else match members k (d :: r2) with Some (l, r) => Some (JObj l, r) | None => None end
               end
          else if c =? 91
          then match skip r with
               | [] => None
               | d :: r2 => if d =? 93 then Some (JList [], r2) else match elements k (d :: r2) with Some (l, r) => Some (JList l, r) | None => None end
               end
          else match find (fun p => begins (fst p) s) constants with
               | Some (t, j) => Some (j, skipn (length t) s)
               | None => read_number s
               end
      end.
Proof. reflexivity. Qed.
Lemma elements_S k s : elements (S k) s =
      match value k s with
      | None => None
      | Some (v, r) =>
          match skip r with
          | [] => None
          | c :: r =>
              if c =? 93 then Some ([v], r)
              else if c =? 44 then match elements k (skip r) with Some (l, r) => Some (v :: l, r) | None => None end
              else None
          end
      end.
Proof. reflexivity. Qed.
Lemma members_S k s : members (S k) s =
      match s with
      | [] => None
      | q :: r =>
          if negb (q =? 34) then None
          else match read_string r with
          | None => None
          | Some (key, r) =>
              match skip r with
              | [] => None
              | c :: r =>
                  if negb (c =? 58) then None
                  else match value k (skip r) with
                  | None => None
                  | Some (v, r) =>
                      match skip r with
                      | [] => None
                      | c :: r =>
                          if c =? 125 then Some ([(key, v)], r)
                          else if c =? 44 then match members k (skip r) with Some (l, r) => Some ((key, v) :: l, r) | None => None end
                          else None
                      end
                  end
              end
          end
      end.
Proof. reflexivity. Qed.
Lemma parses :
  (forall v t, JVal v t -> forall r f, Starts (fun c => ~ numeric c) r -> (2 * length t <= f)%nat -> value f (t ++ r) = Some (v, r)) /\
  (forall v t, JText v t -> forall r, Starts delim r -> exists r', skip r' = r /\ forall f, (2 * length t <= f)%nat -> value f (skip (t ++ r)) = Some (v, r')) /\
  (forall v l t, Elems v l t -> forall r f, (2 * length t + 1 <= f)%nat -> elements f (skip (t ++ 93 :: r)) = Some (v :: l, r)) /\
  (forall m l t, Members m l t -> forall r f, (2 * length t + 1 <= f)%nat -> members f (skip (t ++ 125 :: r)) = Some (m :: l, r)) /\
  (forall m t, Member m t -> forall r, Starts delim r -> exists u r1 r2 r', skip (t ++ r) = 34 :: u /\ read_string u = Some (fst m, r1) /\ skip r1 = 58 :: r2 /\
     (forall f, (2 * length t <= f)%nat -> value f (skip r2) = Some (snd m, r')) /\ skip r' = r).
Proof.
  apply json_mut.
  - intros r f S L. destruct f; [cbn in L; lia|]. reflexivity.
  - intros r f S L. destruct f; [cbn in L; lia|]. reflexivity.
  - intros r f S L. destruct f; [cbn in L; lia|]. reflexivity.
  - intros n t W r f S L. destruct f; [destruct (number_start t (ex_intro _ n W)) as (c & u & -> & _); cbn in L; lia|]. rewrite value_number by eauto. apply int_parses; auto.
  - intros n t f m a e R W Q r k S L. destruct k; [rewrite app_length in L; cbn in L; lia|]. rewrite <- app_assoc. rewrite value_number by eauto. rewrite app_assoc. apply quarter_parses; auto.
  - intros s t J r f S L. destruct (string_parses s t r J) as (u & E & RS). rewrite E. destruct f; [destruct J as (? & _ & ->); cbn in L; lia|]. rewrite value_S. change (34 =? 34) with true. cbv iota. rewrite RS. reflexivity.
  - intros w B r f S L. destruct f; [cbn in L; lia|]. cbn [app]. rewrite value_S. change (91 =? 34) with false. change (91 =? 123) with false. change (91 =? 91) with true. cbv iota. rewrite <- app_assoc.
    rewrite skip_blank by (auto; cbn; unfold blank; cbn; lia). reflexivity.
  - intros v l t E IH r f S L. destruct f; [cbn in L; lia|]. cbn [app]. rewrite value_S. change (91 =? 34) with false. change (91 =? 123) with false. change (91 =? 91) with true. cbv iota. rewrite <- app_assoc. cbn [app].
    cbn [length] in L. rewrite app_length in L. cbn [length] in L.
    destruct (elems_head _ _ _ (93 :: r) E) as (w & c & u & B & Q & NB & NC). specialize (IH r f ltac:(lia)). rewrite Q in *. rewrite skip_blank in * by auto. destruct (Z.eqb_spec c 93); [contradiction|]. rewrite IH. reflexivity.
  - intros w B r f S L. destruct f; [cbn in L; lia|]. cbn [app]. rewrite value_S. change (123 =? 34) with false. change (123 =? 123) with true. cbv iota. rewrite <- app_assoc.
    rewrite skip_blank by (auto; cbn; unfold blank; cbn; lia). reflexivity.
  - intros m l t E IH r f S L. destruct f; [cbn in L; lia|]. cbn [app]. rewrite value_S. change (123 =? 34) with false. change (123 =? 123) with true. cbv iota. rewrite <- app_assoc. cbn [app].
    cbn [length] in L. rewrite app_length in L. cbn [length] in L.
    destruct (members_head _ _ _ (125 :: r) E) as (w & u & B & Q). specialize (IH r f ltac:(lia)). rewrite Q in *. rewrite skip_blank in * by (auto; cbn; unfold blank; cbn; lia). change (34 =? 125) with false. cbv iota. rewrite IH. reflexivity.
  - intros v w t w' B V IH B' r S. destruct (val_head _ _ V) as (c & u & E & _ & NB & _). exists (w' ++ r). split; [apply skip_blank; auto using delim_blank|].
    rewrite <- !app_assoc. rewrite skip_blank by (auto; subst t; cbn; auto). intros f L. rewrite !app_length in L. rewrite IH by (auto using delim_digit; lia). reflexivity.
  - intros v t T IH r f L. destruct f; [lia|]. rewrite elements_S. destruct (IH (93 :: r)) as (r' & SK & V); [cbn; unfold delim; auto|]. rewrite V by lia. rewrite SK. reflexivity.
  - intros v v' l t u T IH E IH2 r f L. destruct f; [lia|]. rewrite elements_S. rewrite app_length in L. cbn [length] in L. rewrite <- app_assoc. cbn [app]. destruct (IH (44 :: u ++ 93 :: r)) as (r' & SK & V); [cbn; unfold delim; auto|]. rewrite V by lia. rewrite SK.
    change (44 =? 93) with false. change (44 =? 44) with true. cbv iota. rewrite IH2 by lia. reflexivity.
  - intros m t T IH r f L. destruct f; [lia|]. destruct (IH (125 :: r)) as (u & r1 & r2 & r' & -> & RS & SK & V & SK'); [cbn; unfold delim; auto|]. rewrite members_S. change (negb (34 =? 34)) with false. cbv iota. rewrite RS, SK. change (negb (58 =? 58)) with false. cbv iota.
    rewrite V by lia. rewrite SK'. change (125 =? 125) with true. cbv iota. destruct m. reflexivity.
  - intros m m' l t u T IH E IH2 r f L. destruct f; [lia|]. rewrite app_length in L. cbn [length] in L. rewrite <- app_assoc. cbn [app]. destruct (IH (44 :: u ++ 125 :: r)) as (u' & r1 & r2 & r' & -> & RS & SK & V & SK'); [cbn; unfold delim; auto|].
    rewrite members_S. change (negb (34 =? 34)) with false. cbv iota. rewrite RS, SK. change (negb (58 =? 58)) with false. cbv iota. rewrite V by lia. rewrite SK'. change (44 =? 125) with false. change (44 =? 44) with true. cbv iota. rewrite IH2 by lia. destruct m. reflexivity.
  - intros k v w s w' t B J B' T IH r S. rewrite <- !app_assoc. cbn [app]. rewrite <- ?app_assoc.
    destruct (string_parses k s (w' ++ (58 :: t ++ r)) J) as (u & E & RS). exists u, (w' ++ (58 :: t ++ r)), (t ++ r).
    destruct (IH r S) as (r' & SK' & V). exists r'. cbn [fst snd]. assert (NB : Starts (fun c => ~ blank c) (s ++ w' ++ 58 :: t ++ r)) by (rewrite E; cbn; unfold blank; cbn; lia).
    rewrite (skip_blank w) by auto. split; auto. split; auto. split; [apply skip_blank; auto; cbn; unfold blank; cbn; lia|]. split; auto. intros f L. apply V. rewrite !app_length in L. cbn [length] in L. lia.
Qed.
(** Every text that stands for a value is read as this value. *)
Lemma text_parses v t : JText v t -> parse t = Some v.
Proof.
  intros T. destruct parses as (_ & P & _). destruct (P v t T [] I) as (r' & SK & V). rewrite app_nil_r in V. unfold parse. rewrite V by lia. rewrite SK. reflexivity.
Qed.
(** ** Names that come once *)
Lemma set_item_new k v d : ~ In k (map fst d) -> set_item k v d = d ++ [(k, v)].
Proof.
  induction d as [|(k' & v') d IH]; cbn [set_item map fst In app]; intros N; auto. destruct (list_eqb k' k) eqn:E; [apply list_eqb_eq in E; tauto|]. rewrite IH by tauto. auto.
Qed.
Lemma pairs_dict l : forall d, NoDup (map fst (d ++ l)) -> fold_left (fun d (p : pystr * json) => set_item (fst p) (snd p) d) l d = d ++ l.
Proof.
  induction l as [|(k & v) l IH]; intros d N; cbn [fold_left fst snd]; [rewrite app_nil_r; auto|].
  assert (NI : ~ In k (map fst d)). { rewrite map_app in N. cbn [map fst] in N. apply NoDup_remove_2 in N. rewrite in_app_iff in N. tauto. }
  rewrite set_item_new by auto. rewrite IH; rewrite <- app_assoc; auto.
Qed.
Lemma as_dicts_id j : Unrepeated j -> as_dicts j = j.
Proof.
  induction j as [|b|n|r d|s|l IH|fs IH] using json_ind'; intros U; auto.
  - inversion U as [| | | | |? F|]; subst. cbn [as_dicts]. f_equal. induction IH as [|a l Ha IH IHl]; auto. inversion F; subst. cbn [map]. rewrite Ha, IHl by (auto; constructor; auto). auto.
  - inversion U as [| | | | | |? N F]; subst. cbn [as_dicts]. f_equal.
    assert (E : map (fun p => (fst p, as_dicts (snd p))) fs = fs). { clear N U. induction IH as [|(k & v) l Ha IH IHl]; auto. inversion F; subst. cbn [map fst snd] in *. rewrite Ha, IHl by auto. auto. }
    rewrite E. rewrite pairs_dict; auto.
Qed.
(** json.loads gives the value that a text stands for. *)
Theorem C103_loads v t : JText v t -> Unrepeated v -> loads t = Ok v.
Proof. intros T U. unfold loads. rewrite (text_parses v t T), as_dicts_id by auto. reflexivity. Qed.

(** ** Texts without spaces *)
Lemma compact_reads j : Plain j -> JVal j (compact j).
Proof.
  induction j as [|b|n|r d|s|l IH|fs IH] using json_ind'; intros P; try (apply dumps_reads; auto; fail); inversion P; subst.
  - destruct l as [|a l]; [apply (V_none []), blank_nil|]. cbn [compact map]. inversion H0 as [|? ? PA PL]; subst. inversion IH as [|? ? IA IL]; subst.
    apply V_list. clear H0 IH P. revert a PA PL IA IL. induction l as [|b l IHl]; intros a PA PL IA IL; cbn [map join].
    + apply E_one, val_text; auto.
    + inversion PL as [|? ? PB PL']; subst. inversion IL as [|? ? IB IL']; subst. apply E_more; [apply val_text; auto|]. apply IHl; auto.
  - destruct fs as [|a l]; [apply (V_empty []), blank_nil|]. cbn [compact map]. inversion H0 as [|? ? PA PL]; subst. inversion IH as [|? ? IA IL]; subst. set (f := fun p : pystr * json => _). change (json_str (fst a) ++ 58 :: compact (snd a)) with (f a).
    assert (W : forall a, JVal (snd a) (compact (snd a)) -> Forall scalar (fst a) -> Member a (f a)).
    { intros [k v] R K. unfold f. cbn [fst snd] in *. change (json_str k ++ 58 :: compact v) with ([] ++ json_str k ++ [] ++ 58 :: compact v). apply M_field; auto using blank_nil, str_reads, val_text. }
    apply V_obj. clearbody f. clear H0 IH P. revert a PA PL IA IL. induction l as [|b l IHl]; intros a PA PL IA IL; cbn [map join].
    + apply M_one, W; tauto.
    + inversion PL as [|? ? PB PL']; subst. inversion IL as [|? ? IB IL']; subst. apply M_more; [apply W; tauto|]. apply IHl; auto.
Qed.
(** ** Sizes *)
Lemma vsize_cases b v (P : json -> Prop) : 0 <= v < 4 * 10 ^ 15 ->
  P (JInt (v / 4)) \/ v mod 4 <> 0 \/ b = true ->
  (forall n f m a e q, 0 <= n < 10 ^ 15 -> In (f, m, a, e) quarters -> v = 4 * n + q -> 4 * (m * n + a) = (4 * n + q) * 10 ^ (- e) -> e <= 0 -> P (JFloat (str_of_int n ++ 46 :: f) (Fin false (m * n + a) e))) ->
  P (vsize_json b v).
Proof.
  intros R H Q. unfold vsize_json. pose proof (Z.mod_pos_bound v 4 ltac:(lia)) as M. pose proof (Z.div_mod v 4 ltac:(lia)) as D.
  assert (RN : 0 <= v / 4 < 10 ^ 15) by (split; [apply Z.div_pos; lia|apply Z.div_lt_upper_bound; lia]).
  assert (C : v mod 4 = 0 \/ v mod 4 = 1 \/ v mod 4 = 2 \/ v mod 4 = 3) by lia. set (n := v / 4) in *. clearbody n.
  destruct C as [E|[E|[E|E]]]; rewrite E in *; cbv iota.
  - destruct b; [|destruct H as [H|[H|H]]; auto; congruence]. replace n with (1 * n + 0) at 2 by lia. apply (Q n (str "0") 1 0 0 0); auto; try lia. cbn; auto.
  - apply (Q n (str "25") 100 25 (-2) 1); auto; try lia. cbn; auto.
  - apply (Q n (str "5") 10 5 (-1) 2); auto; try lia. cbn; auto.
  - apply (Q n (str "75") 100 75 (-2) 3); auto; try lia. cbn; auto.
Qed.
Lemma vsize_plain b v : 0 <= v < 4 * 10 ^ 15 -> Plain (vsize_json b v).
Proof. intros R. apply vsize_cases; auto; [left; constructor|]. intros. apply P_quarter; auto using writes_int. Qed.
Lemma vsize_unrepeated b v : Unrepeated (vsize_json b v).
Proof. unfold vsize_json. destruct (v mod 4) as [|[[]|[]|]|]; try destruct b; constructor. Qed.
Lemma vsize_reads b v : 0 <= v < 4 * 10 ^ 15 -> read_vsize (vsize_json b v) = Ok v.
Proof.
  intros R. destruct (Z.eq_dec (v mod 4) 0) as [E|E]; [destruct b eqn:B|].
  3: rename E into NE.
  2:{ unfold vsize_json. rewrite E. cbn [read_vsize]. pose proof (Z.div_mod v 4 ltac:(lia)). f_equal. lia. }
  all: apply (vsize_cases _ v (fun j => read_vsize j = Ok v)); auto; intros n f m a e q RN I EV EQ EE; cbn [read_vsize]; rewrite EQ; assert (P10 : 0 < 10 ^ (- e)) by (apply Z.pow_pos_nonneg; lia); rewrite Z.mod_mul, Z.div_mul by lia; rewrite (proj2 (Z.leb_le _ _) EE); cbn [andb Z.eqb]; f_equal; lia.
Qed.
(** ** The whole *)
Definition prepared_json (floats : list bool) (us : list udict) (outs : list (pystr * Z)) : json :=
  JObj [(str "unspents", JList (map udict_json (combine floats us))); (str "outputs", JList (map (fun o => JList [JStr (fst o); JInt (snd o)]) outs))].
Lemma ascii_scalar s : forallb (fun c => (32 <=? c) && (c <=? 126)) s = true -> Forall scalar s.
Proof. intros H. rewrite forallb_forall in H. apply Forall_forall. intros c I. apply H in I. unfold scalar, surrogate. lia. Qed.
Lemma forall_map {A B} (P : B -> Prop) (f : A -> B) l : Forall (fun x => P (f x)) l -> Forall P (map f l).
Proof. induction 1; constructor; auto. Qed.
Lemma prepared_plain floats us outs : Forall WritableDict us -> Forall (fun o => Forall scalar (fst o)) outs -> Plain (prepared_json floats us outs).
Proof.
  intros HU HO. apply P_obj. apply Forall_cons; [|apply Forall_cons; [|apply Forall_nil]]; cbn [fst snd]; (split; [apply ascii_scalar; reflexivity|]).
  - apply P_list. apply forall_map. apply Forall_forall. intros (b & d) I. apply in_combine_r in I. rewrite Forall_forall in HU. destruct (HU _ I) as (S1 & S2 & S3 & V). unfold udict_json. cbn [snd fst]. apply P_obj.
    repeat (apply Forall_cons; [cbn [fst snd]; split; [apply ascii_scalar; reflexivity|]|]); try apply Forall_nil; try constructor; auto using vsize_plain.
    destruct (d_segwit d); constructor.
  - apply P_list. apply forall_map. revert HO. apply Forall_impl. intros (a & n) H. cbn [fst snd] in *. apply P_list. apply Forall_cons; [apply P_str; exact H|]. apply Forall_cons; [apply P_int|apply Forall_nil].
Qed.
Lemma prepared_unrepeated floats us outs : Unrepeated (prepared_json floats us outs).
Proof.
  assert (ND : forall l : list pystr, (fix nodup (l : list pystr) : bool := match l with [] => true | a :: r => negb (existsb (list_eqb a) r) && nodup r end) l = true -> NoDup l).
  { induction l as [|a l IH]; intros H; constructor; apply andb_true_iff in H as [H1 H2]; auto. intros I. apply negb_true_iff in H1. assert (X : existsb (list_eqb a) l = true) by (apply existsb_exists; exists a; split; auto; apply list_eqb_eq; auto). congruence. }
  constructor; [apply ND; reflexivity|]. repeat (apply Forall_cons; [cbn [snd]|]); try apply Forall_nil; constructor; apply forall_map; apply Forall_forall.
  - intros (b & d) _. unfold udict_json. cbn [fst snd]. constructor; [apply ND; reflexivity|]. repeat (apply Forall_cons; [cbn [snd]|]); try apply Forall_nil; try constructor; try apply vsize_unrepeated. destruct (d_segwit d); constructor.
  - intros (a & n) _. repeat constructor.
Qed.
Lemma prepared_loads floats us outs : Forall WritableDict us -> Forall (fun o => Forall scalar (fst o)) outs -> loads (prepared_text floats us outs) = Ok (prepared_json floats us outs).
Proof. intros HU HO. apply C103_loads; [|apply prepared_unrepeated]. apply val_text, compact_reads. apply prepared_plain; auto. Qed.
Lemma read_udicts floats us : Forall WritableDict us -> length floats = length us -> mapM read_udict (map udict_json (combine floats us)) = Ok us.
Proof.
  intros H. revert floats. induction H as [|d us (S1 & S2 & S3 & V) H IH]; intros [|b floats] L; try discriminate; [reflexivity|]. injection L as L. cbn [combine map mapM].
  assert (E : read_udict (udict_json (b, d)) = Ok d).
  { unfold read_udict, udict_json. cbn [fst snd]. 
    cbn -[vsize_json read_vsize]. rewrite vsize_reads by auto. cbn [bind]. destruct d as [? ? ? ? ? ? ? [|] ?]; reflexivity. }
  rewrite E, IH by auto. reflexivity.
Qed.
Lemma read_outputs outs : mapM read_output (map (fun o => JList [JStr (fst o); JInt (snd o)]) outs) = Ok (map (fun '(a, n) => (Addr a, n)) outs).
Proof. induction outs as [|(a & n) outs IH]; [reflexivity|]. cbn [map mapM fst snd read_output bind]. rewrite IH. reflexivity. Qed.
End WithFloats.
