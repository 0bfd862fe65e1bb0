(** C105: integers and bytes as hexadecimal texts. *)
From Coq Require Import String.
From Verif Require Import F_base F_utils F_hex M_hexint M_decimal S_Hex S_Numeral S_HexInt P_numeral.
From Coq Require Import List ZArith Lia.
Import ListNotations.
Open Scope Z_scope.

Definition hexy (c : Z) : bool := match hex_val c with Some _ => true | None => false end.
Lemma hexy_range c : hexy c = true <-> 48 <= c <= 57 \/ 97 <= c <= 102 \/ 65 <= c <= 70.
Proof.
  unfold hexy, hex_val. destruct (Z.leb_spec 48 c), (Z.leb_spec c 57), (Z.leb_spec 97 c), (Z.leb_spec c 102), (Z.leb_spec 65 c), (Z.leb_spec c 70); cbn; split; intros; (reflexivity || discriminate || lia).
Qed.
Lemma hd_chars n t : HexDigits n t -> forallb hexy t = true.
Proof.
  induction 1 as [|n t c v H IH D]; [reflexivity|]. rewrite forallb_app, IH. cbn. unfold hexy. apply hexdigit_val in D. rewrite D. reflexivity.
Qed.
Lemma hd_value n t : HexDigits n t -> hex_to_int_acc t 0 = Ok n.
Proof.
  induction 1 as [|n t c v H IH D]; [reflexivity|]. rewrite hex_to_int_acc_app, IH. cbn [bind hex_to_int_acc]. apply hexdigit_val in D. rewrite D. f_equal. lia.
Qed.
Lemma hd_exists t : forallb hexy t = true -> exists n, HexDigits n t.
Proof.
  induction t as [|c t IH] using rev_ind; intros F; [exists 0; constructor|]. rewrite forallb_app in F. apply andb_true_iff in F as [F G]. destruct (IH F) as (n & H).
  cbn in G. rewrite andb_true_r in G. unfold hexy in G. destruct (hex_val c) as [v|] eqn:E; [|discriminate]. exists (16 * n + v). constructor; auto. apply hexdigit_val. exact E.
Qed.
Lemma hex_grouped_eq c b r : hex_grouped b (c :: r) = if hexy c then option_map (cons c) (hex_grouped true r) else if b && (c =? 95) then hex_grouped false r else None.
Proof. cbn [hex_grouped]. unfold hexy. destruct (hex_val c); reflexivity. Qed.
Lemma hgrouped_cons c s t : hexy c = true -> HexGrouped s t -> HexGrouped (c :: s) (c :: t).
Proof.
  intros D G. destruct G as [n t H NE|n d s t H NE G].
  - destruct (hd_exists (c :: t)) as (m & Hm); [cbn; rewrite D; eapply hd_chars; eauto|]. eapply HG_one; [exact Hm|discriminate].
  - destruct (hd_exists (c :: d)) as (m & Hm); [cbn; rewrite D; eapply hd_chars; eauto|]. eapply (HG_more m (c :: d)); [exact Hm|discriminate|exact G].
Qed.
Lemma hgrouped_sound s : forall b t, hex_grouped b s = Some t -> HexGrouped s t \/ b = true /\ (s = [] /\ t = [] \/ exists s', s = 95 :: s' /\ HexGrouped s' t).
Proof.
  induction s as [|c s IH]; intros b t; [cbn; destruct b; [intros H; injection H as <-; auto|discriminate]|]. rewrite hex_grouped_eq.
  destruct (hexy c) eqn:D.
  - destruct (hex_grouped true s) as [t'|] eqn:G; [|discriminate]. intros H. injection H as <-. left. destruct (hd_exists [c]) as (m & Hm); [cbn; rewrite D; reflexivity|].
    destruct (IH _ _ G) as [Q|(_ & [(-> & ->)|(s' & -> & Q)])]; [apply hgrouped_cons; auto| |].
    + eapply HG_one; [exact Hm|discriminate].
    + eapply (HG_more _ [c]); [exact Hm|discriminate|exact Q].
  - destruct b; [|discriminate]. cbn [andb]. destruct (Z.eqb_spec c 95) as [->|]; [|discriminate]. intros G. right. split; auto. right. exists s. split; auto.
    destruct (IH _ _ G) as [Q|(Q & _)]; [exact Q|discriminate].
Qed.
Lemma hgrouped_digits d : forall b s, forallb hexy d = true -> d <> [] -> hex_grouped b (d ++ s) = option_map (app d) (hex_grouped true s).
Proof.
  induction d as [|c d IH]; intros b s F NE; [congruence|]. cbn in F. apply andb_true_iff in F as [D F]. cbn [app]. rewrite hex_grouped_eq, D. destruct d as [|c' d]; [reflexivity|].
  rewrite IH by (auto; discriminate). destruct (hex_grouped true s); reflexivity.
Qed.
Lemma hgrouped_complete s t : HexGrouped s t -> hex_grouped false s = Some t.
Proof.
  induction 1 as [n t D NE|n d s t D NE G IH].
  - rewrite <- (app_nil_r t) at 1. rewrite hgrouped_digits by (auto; eapply hd_chars; eauto). cbn. rewrite app_nil_r. reflexivity.
  - rewrite hgrouped_digits by (auto; eapply hd_chars; eauto). rewrite hex_grouped_eq. change (hexy 95) with false. cbn [andb Z.eqb Pos.eqb]. rewrite IH. reflexivity.
Qed.
Lemma hgrouped_chars s t : HexGrouped s t -> Forall (fun c => hexy c = true \/ c = 95) s /\ forallb hexy t = true /\ t <> [] /\ exists c r, s = c :: r /\ hexy c = true.
Proof.
  assert (DG : forall n l, HexDigits n l -> Forall (fun c => hexy c = true \/ c = 95) l).
  { intros n l D. apply hd_chars in D. rewrite forallb_forall in D. apply Forall_forall. auto. }
  assert (HD : forall n l x, HexDigits n l -> l <> [] -> exists c r, l ++ x = c :: r /\ hexy c = true).
  { intros n l x D NE. destruct l as [|c l]; [congruence|]. exists c, (l ++ x). split; [reflexivity|]. apply hd_chars in D. cbn in D. apply andb_true_iff in D as [D _]. exact D. }
  induction 1 as [n t D NE|n d s t D NE G IH].
  - split; [eauto|]. split; [eapply hd_chars; eauto|]. split; [auto|]. destruct (HD n t [] D NE) as (c & r & E0 & H). rewrite app_nil_r in E0. eauto.
  - destruct IH as (F & T & _). split; [apply Forall_app; split; eauto|]. split; [rewrite forallb_app, T, (hd_chars _ _ D); reflexivity|]. split; [intros Q; apply app_eq_nil in Q as [Q _]; exact (NE Q)|eauto].
Qed.
Definition prefixes : list pystr := map str [""; "0x"; "0X"; "0x_"; "0X_"]%string.
Lemma after_0x_split s : exists pre, s = pre ++ after_0x s /\ In pre prefixes.
Proof.
  assert (N : exists pre, s = pre ++ s /\ In pre prefixes) by (exists []; split; [reflexivity|left; reflexivity]).
  destruct s as [|z [|x r]]; auto. unfold after_0x. destruct (Z.eqb_spec z 48) as [->|]; cbn [andb]; auto.
  destruct (Z.eqb_spec x 120) as [->|]; cbn [orb]; [|destruct (Z.eqb_spec x 88) as [->|]; auto].
  - destruct r as [|u r]; [exists (str "0x"); split; [reflexivity|cbn; auto]|]. destruct (Z.eqb_spec u 95) as [->|]; [exists (str "0x_")|exists (str "0x")]; (split; [reflexivity|cbn; auto]).
  - destruct r as [|u r]; [exists (str "0X"); split; [reflexivity|cbn; auto]|]. destruct (Z.eqb_spec u 95) as [->|]; [exists (str "0X_")|exists (str "0X")]; (split; [reflexivity|cbn; auto 6]).
Qed.
Lemma after_0x_join pre m t : In pre prefixes -> HexGrouped m t -> after_0x (pre ++ m) = m.
Proof.
  intros I G. destruct (hgrouped_chars _ _ G) as (F & _ & _ & c & r & -> & HC). apply hexy_range in HC.
  cbn in I. destruct I as [<-|[<-|[<-|[<-|[<-|[]]]]]]; cbn [app after_0x]; try (cbn; destruct (Z.eqb_spec c 95); [lia|reflexivity]).
  - destruct r as [|x r]; [reflexivity|]. inversion F as [|? ? _ F2]; subst. inversion F2 as [|? ? FX _]; subst.
    destruct (Z.eqb_spec x 120) as [->|]; [destruct FX as [FX|FX]; discriminate|]. destruct (Z.eqb_spec x 88) as [->|]; [destruct FX as [FX|FX]; discriminate|]. rewrite andb_false_r. reflexivity.
Qed.

(** ** Reading *)
Theorem C105_reads s z : int16 s = Ok z <-> ReadsHex z s.
Proof.
  unfold int16. split.
  - destruct (sign_of (strip s)) as [neg ds] eqn:ES. apply sign_split in ES as (sg & ES & SG). destruct (hex_grouped false (after_0x ds)) as [t|] eqn:G; [|discriminate].
    destruct (hgrouped_sound _ _ _ G) as [Q|(Q & _)]; [|discriminate]. destruct (hgrouped_chars _ _ Q) as (_ & HT & NE & _). destruct (hd_exists _ HT) as (n & HN).
    intros H. assert (V : hex_to_int t = Ok n) by (unfold hex_to_int; destruct t; [congruence|apply hd_value; exact HN]). rewrite V in H. cbn [bind] in H. injection H as <-.
    destruct (strip_split s) as (a & b & E & A & B). destruct (after_0x_split ds) as (pre & EP & IP). exists a, sg, pre, (after_0x ds), b, t, neg, n.
    rewrite ES, EP, <- !app_assoc in E. repeat (split; [assumption|]). reflexivity.
  - intros (a & sg & pre & m & b & t & neg & n & -> & A & B & SG & IP & G & D & ->). destruct (hgrouped_chars _ _ G) as (F & _ & NE & c & r & EM & HC).
    replace (a ++ sg ++ pre ++ m ++ b) with (a ++ (sg ++ pre ++ m) ++ b) by (rewrite <- !app_assoc; reflexivity). rewrite strip_around; auto.
    + apply hexy_range in HC. rewrite (sign_join _ _ _ SG). 2:{ intros c' r' E. rewrite EM in E. cbn in IP. destruct IP as [<-|[<-|[<-|[<-|[<-|[]]]]]]; injection E as <- _; lia. }
      rewrite (after_0x_join pre m t IP G), (hgrouped_complete _ _ G). unfold hex_to_int. destruct t; [congruence|]. rewrite (hd_value _ _ D). reflexivity.
    + subst m. destruct sg, pre; discriminate.
    + assert (FS : forallb (fun c => negb (is_space c)) m = true).
      { apply forallb_forall. rewrite Forall_forall in F. intros x Hx. specialize (F x Hx). destruct (is_space x) eqn:S0; [|reflexivity]. apply space_white in S0. rewrite hexy_range in F. unfold white in S0. cbn in S0. lia. }
      rewrite !forallb_app, FS, andb_true_r. apply andb_true_iff. split; [destruct SG; reflexivity|]. cbn in IP. destruct IP as [<-|[<-|[<-|[<-|[<-|[]]]]]]; reflexivity.
Qed.
Theorem C105_refuses s : (forall z, ~ ReadsHex z s) -> int16 s = Raise ValueError.
Proof.
  intros N. destruct (int16 s) as [z|x] eqn:E; [destruct (N z); apply C105_reads; exact E|]. unfold int16 in E.
  destruct (sign_of (strip s)) as (neg & t). destruct (hex_grouped false (after_0x t)) as [ds|] eqn:G; [|congruence].
  exfalso. destruct (hgrouped_sound _ _ _ G) as [Q|(Q & _)]; [|discriminate]. destruct (hgrouped_chars _ _ Q) as (_ & HT & NE & _). destruct (hd_exists _ HT) as (n & HN).
  unfold hex_to_int in E. destruct ds; [congruence|]. rewrite (hd_value _ _ HN) in E. discriminate.
Qed.

(** ** Bytes as texts: what hex_to_bytes takes (C02) *)
Lemma blank_space c : M_utils.is_space c = true <-> In c [9; 10; 11; 12; 13; 32].
Proof. unfold M_utils.is_space. cbn. rewrite orb_true_iff, andb_true_iff, !Z.leb_le, Z.eqb_eq. lia. Qed.
Lemma fromhex_spaced h : forall b, fromhex h = Ok b <-> SpacedHex b h.
Proof.
  assert (G : forall n h, (length h <= n)%nat -> forall b, fromhex h = Ok b <-> SpacedHex b h).
  { induction n as [|n IH]; intros [|c r] HL b; cbn in HL; try lia; try (split; [intros [= <-]; constructor|inversion 1; reflexivity]). cbn [fromhex].
    destruct (M_utils.is_space c) eqn:ES.
    - pose proof ES as I. rewrite blank_space in I. rewrite (IH r ltac:(lia) b). split; [intros H; constructor; auto|]. inversion 1 as [| |c1 c2 v1 v2 b' h' D1]; subst; auto.
      apply hexdigit_val in D1. apply hex_val_range in D1 as (_ & D1 & _). congruence.
    - assert (NB : ~ In c [9; 10; 11; 12; 13; 32]) by (rewrite <- blank_space; congruence). destruct (hex_val c) as [v1|] eqn:E1.
      + destruct r as [|d r']; [split; [discriminate|inversion 1; contradiction]|]. destruct (hex_val d) as [v2|] eqn:E2.
        * split.
          { intros H. apply rmap_ok in H as (b1 & H & ->). constructor; [apply hexdigit_val; exact E1|apply hexdigit_val; exact E2|]. apply IH; [cbn in HL; lia|exact H]. }
          { inversion 1 as [| |c1 c2 w1 w2 b' h' D1 D2 H']; subst; [contradiction|]. apply hexdigit_val in D1, D2. rewrite E1 in D1. rewrite E2 in D2. injection D1 as <-. injection D2 as <-.
            apply IH in H'; [|cbn in HL; lia]. rewrite H'. reflexivity. }
        * split; [discriminate|]. inversion 1 as [| |c1 c2 w1 w2 b' h' D1 D2 H']; subst; [contradiction|]. apply hexdigit_val in D2. congruence.
      + split; [discriminate|]. inversion 1 as [| |c1 c2 w1 w2 b' h' D1 D2 H']; subst; [contradiction|]. apply hexdigit_val in D1. congruence. }
  intros b. apply (G (length h) h). lia.
Qed.
Theorem C02_exactly h b : hex_to_bytes h = Ok b <-> SpacedHex b (if Nat.odd (length h) then str "0" ++ h else h).
Proof. unfold hex_to_bytes. rewrite <- fromhex_spaced. destruct (Nat.odd (length h)); reflexivity. Qed.
Theorem C02_otherwise h : (forall b, ~ SpacedHex b (if Nat.odd (length h) then str "0" ++ h else h)) -> hex_to_bytes h = Raise ValueError.
Proof.
  intros N. destruct (hex_to_bytes h) as [b|x] eqn:E; [destruct (N b); apply C02_exactly; exact E|]. f_equal. unfold hex_to_bytes in E.
  assert (G : forall n l, (length l <= n)%nat -> fromhex l = Raise x -> x = ValueError).
  { clear. induction n as [|n IH]; intros [|c r] HL; cbn in HL; try lia; try discriminate. cbn [fromhex]. destruct (M_utils.is_space c); [apply IH; lia|].
    destruct (hex_val c); [|congruence]. destruct r as [|d r']; [congruence|]. destruct (hex_val d); [|congruence]. destruct (fromhex r') eqn:E; [discriminate|]. intros [= <-]. apply (IH r'); [cbn in HL; lia|exact E]. }
  exact (G _ _ (le_n _) E).
Qed.

(** ** Writing *)
Lemma upper_digit c v : hexdigit c v -> hexdigit (if (97 <=? c) && (c <=? 122) then c - 32 else c) v.
Proof.
  rewrite !hexdigit_val. unfold hex_val. intros H.
  destruct (Z.leb_spec 48 c), (Z.leb_spec c 57), (Z.leb_spec 97 c), (Z.leb_spec c 102), (Z.leb_spec 65 c), (Z.leb_spec c 70), (Z.leb_spec c 122); cbn in H |- *; try discriminate; try lia; injection H as <-;
    repeat match goal with |- context [?a <=? ?b] => destruct (Z.leb_spec a b); try lia end; cbn; f_equal; lia.
Qed.
Lemma upper_length s : length (upper s) = length s.
Proof. apply map_length. Qed.
Lemma upper_app a b : upper (a ++ b) = upper a ++ upper b.
Proof. apply map_app. Qed.
Lemma upper_hd n t : HexDigits n t -> HexDigits n (upper t).
Proof. induction 1 as [|n t c v H IH D]; [constructor|]. rewrite upper_app. constructor; auto. apply upper_digit. exact D. Qed.
Lemma hd_bound n t : HexDigits n t -> 0 <= n < 16 ^ zlen t.
Proof.
  induction 1 as [|n t c v H IH [D D']]; [cbn; lia|]. unfold zlen in *. rewrite app_length. cbn [length]. rewrite Nat2Z.inj_add. change (Z.of_nat 1) with 1. rewrite Z.pow_add_r by lia. change (16 ^ 1) with 16.
  assert (v < 16); [|lia]. apply (conj D) in D'. apply hexdigit_val in D'. unfold hex_val in D'. repeat match type of D' with context [if ?b then _ else _] => destruct b eqn:? end; try discriminate; injection D' as <-; lia.
Qed.
Lemma digits_hd fuel n : 0 <= n < 2 ^ Z.of_nat fuel -> HexDigits n (hex_digits_fuel fuel n []).
Proof.
  revert n; induction fuel as [|k IH]; intros n Hn.
  - cbn in *. replace n with 0 by lia. constructor.
  - cbn [hex_digits_fuel]. destruct (n =? 0) eqn:E; [replace n with 0 by lia; constructor|].
    rewrite hex_digits_fuel_app. rewrite Nat2Z.inj_succ, Z.pow_succ_r in Hn by lia. rewrite (Z.div_mod n 16) at 1 by lia.
    constructor; [apply IH; zdm; nia|]. apply hexdigit_val, hex_val_digit. zdm; lia.
Qed.
Lemma digits_shortest fuel n : 0 <= n < 2 ^ Z.of_nat fuel -> forall t, HexDigits n t -> (length (hex_digits_fuel fuel n []) <= length t)%nat.
Proof.
  revert n; induction fuel as [|k IH]; intros n Hn t H; [cbn; lia|].
  cbn [hex_digits_fuel]. destruct (n =? 0) eqn:E; [cbn; lia|]. rewrite hex_digits_fuel_app, app_length. cbn [length].
  rewrite Nat2Z.inj_succ, Z.pow_succ_r in Hn by lia. destruct H as [|m t c v H D]; [lia|]. rewrite app_length. cbn [length].
  assert (V : 0 <= v < 16). { pose proof (hd_bound _ _ (HD_snoc 0 [] c v HD_nil D)) as B. cbn in B. lia. }
  assert (Q : (16 * m + v) / 16 = m) by (symmetry; apply (Z.div_unique _ _ _ v); lia). rewrite Q in *.
  assert (Hm : 0 <= m) by (apply hd_bound in H; lia).
  specialize (IH m ltac:(nia) t H). lia.
Qed.
(** The shortest row of digits, in the case asked for. *)
Theorem C105_writes up n : 0 <= n -> HexDigits n (int_to_hex_case up n) /\
  (forall t, HexDigits n t -> t <> [] -> (length (int_to_hex_case up n) <= length t)%nat) /\
  Forall (fun c => In c (if up then HEXDIGITS else hexdigits)) (int_to_hex_case up n).
Proof.
  intros Hn. assert (P : HexDigits n (int_to_hex n) /\ (forall t, HexDigits n t -> t <> [] -> (length (int_to_hex n) <= length t)%nat) /\ Forall (fun c => In c hexdigits) (int_to_hex n)).
  { unfold int_to_hex, hex_digits. replace (n <? 0) with false by lia. destruct (n =? 0) eqn:E.
    - apply Z.eqb_eq in E as ->. split; [|split].
      + apply (HD_snoc 0 [] 48 0); [constructor|apply hexdigit_val; reflexivity].
      + intros [|c t] _ NE; [congruence|cbn; lia].
      + constructor; [cbn; auto|constructor].
    - assert (B : 0 <= n < 2 ^ Z.of_nat (S (Z.to_nat (Z.log2 n)))).
      { pose proof (Z.log2_spec n ltac:(lia)). pose proof (Z.log2_nonneg n). rewrite Nat2Z.inj_succ, Z2Nat.id by lia. lia. }
      split; [apply digits_hd; auto|]. split; [intros t H _; apply digits_shortest; auto|].
      generalize (S (Z.to_nat (Z.log2 n))). intros k. assert (G : forall k n acc, Forall (fun c => In c hexdigits) acc -> Forall (fun c => In c hexdigits) (hex_digits_fuel k n acc)).
      { clear. induction k as [|k IH]; intros n acc H; [exact H|]. cbn [hex_digits_fuel]. destruct (n =? 0); auto. apply IH. constructor; auto.
        pose proof (Z.mod_pos_bound n 16 ltac:(lia)) as M. assert (C : In (n mod 16) [0;1;2;3;4;5;6;7;8;9;10;11;12;13;14;15]) by (cbn; lia). generalize dependent (n mod 16). intros x _ C.
        cbn [In] in C. repeat (destruct C as [<-|C]; [cbn; tauto|]). destruct C. }
      apply G. constructor. }
  destruct P as (P1 & P2 & P3). destruct up; [|auto]. change (int_to_hex_case true n) with (upper (int_to_hex n)). split; [apply upper_hd; auto|]. split.
  - intros t H NE. rewrite upper_length. auto.
  - unfold upper. rewrite Forall_forall in *. intros c I. apply in_map_iff in I as (x & <- & I). apply P3 in I. change hexdigits with [48;49;50;51;52;53;54;55;56;57;97;98;99;100;101;102] in I.
    cbn [In] in I. repeat (destruct I as [<-|I]; [cbn; tauto|]). destruct I.
Qed.
Theorem C105_back up n : 0 <= n -> int16 (int_to_hex_case up n) = Ok n.
Proof.
  intros Hn. destruct (C105_writes up n Hn) as (H & _ & _). apply C105_reads. assert (NE : int_to_hex_case up n <> []).
  { intros E. pose proof (hex_to_int_of_int n Hn) as B. destruct up; cbn [int_to_hex_case] in E; [unfold upper in E; apply map_eq_nil in E|]; rewrite E in B; discriminate. }
  exists [], [], [], (int_to_hex_case up n), [], (int_to_hex_case up n), false, n. rewrite app_nil_r. repeat split; auto; try constructor; [reflexivity|eapply HG_one; eauto].
Qed.
(** Of a negative number the sign is lost and the x of 0x kept, so that the text cannot be
    read back. *)
Theorem C105_negative_refuted up n : n < 0 ->
  int_to_hex_case up n = (if up then 88 else 120) :: int_to_hex_case up (- n) /\ int16 (int_to_hex_case up n) = Raise ValueError.
Proof.
  intros Hn. assert (E : int_to_hex_case up n = (if up then 88 else 120) :: int_to_hex_case up (- n)).
  { unfold int_to_hex_case, int_to_hex. replace (n <? 0) with true by lia. replace (- n <? 0) with false by lia. destruct up; reflexivity. }
  split; [exact E|]. rewrite E. apply C105_refuses. intros z (a & sg & pre & m & b & t & neg & k & Q & A & B & SG & IP & G & _). clear E.
  destruct (hgrouped_chars _ _ G) as (_ & _ & _ & c & r & -> & HC). apply hexy_range in HC.
  destruct a as [|w a]; [|injection Q as <- _; inversion A as [|? ? WA _]; subst; unfold white in WA; cbn in WA; destruct up; lia].
  destruct SG; cbn [app] in Q; [|injection Q as Q _; destruct up; discriminate|injection Q as Q _; destruct up; discriminate].
  cbn in IP. destruct IP as [<-|[<-|[<-|[<-|[<-|[]]]]]]; injection Q as Q _; destruct up; lia || discriminate.
Qed.
(** M_utils.hex_to_int, for plain digits only, agrees. *)
Theorem C105_plain s n : hex_to_int s = Ok n -> int16 s = Ok n.
Proof.
  intros H. assert (NE : s <> []) by (intros ->; discriminate). assert (F : forallb hexy s = true).
  { unfold hex_to_int in H. destruct s as [|c s]; [discriminate|]. revert H. generalize 0 as acc. generalize (c :: s) as l. induction l as [|x l IH]; intros acc H; [reflexivity|].
    cbn in H |- *. unfold hexy at 1. destruct (hex_val x); [|discriminate]. cbn. eapply IH; eauto. }
  destruct (hd_exists _ F) as (m & D). assert (m = n) as -> by (unfold hex_to_int in H; destruct s; [congruence|]; rewrite (hd_value _ _ D) in H; congruence).
  apply C105_reads. exists [], [], [], s, [], s, false, n. rewrite app_nil_r. repeat split; auto; try constructor; [reflexivity|eapply HG_one; eauto].
Qed.
(** Bytes in either case are read back. *)
Lemma upper_hex b h : HexOf b h -> HexOf b (upper h).
Proof. induction 1 as [|x c1 c2 v1 v2 b h H1 H2 E H IH]; [constructor|]. cbn [upper map]. econstructor; eauto; apply upper_digit; auto. Qed.
Theorem C105_bytes up b : bytes_ok b = true -> HexOf b (bytes_to_hex_case up b) /\ hex_to_bytes (bytes_to_hex_case up b) = Ok b /\
  Forall (fun c => In c (if up then HEXDIGITS else hexdigits)) (bytes_to_hex_case up b).
Proof.
  intros HB. assert (H : HexOf b (bytes_to_hex_case up b)) by (destruct up; [apply upper_hex|]; apply bytes_to_hex_HexOf; exact HB).
  split; [exact H|]. split; [apply HexOf_hex_to_bytes; exact H|].
  assert (D : forall x, 0 <= x < 16 -> In (hex_digit x) hexdigits /\ In (if (97 <=? hex_digit x) && (hex_digit x <=? 122) then hex_digit x - 32 else hex_digit x) HEXDIGITS).
  { intros x Hx. assert (C : In x [0;1;2;3;4;5;6;7;8;9;10;11;12;13;14;15]) by (cbn; lia). clear Hx. cbn [In] in C. repeat (destruct C as [<-|C]; [vm_compute; tauto|]). destruct C. }
  clear H. apply Forall_forall. intros c I. unfold bytes_ok in HB. rewrite forallb_forall in HB.
  assert (Q : exists x, 0 <= x < 16 /\ c = if up then (if (97 <=? hex_digit x) && (hex_digit x <=? 122) then hex_digit x - 32 else hex_digit x) else hex_digit x).
  { assert (Q0 : forall y, In y (bytes_to_hex b) -> exists x, 0 <= x < 16 /\ y = hex_digit x).
    { intros y J. unfold bytes_to_hex in J. apply in_flat_map in J as (w & J & K). apply HB, is_byte_iff in J. destruct K as [<-|[<-|[]]]; eexists; (split; [|reflexivity]); zdm; lia. }
    destruct up; cbn [bytes_to_hex_case] in I; [|auto]. unfold upper in I. apply in_map_iff in I as (y & <- & J). destruct (Q0 y J) as (x & Hx & ->). exists x. auto. }
  destruct Q as (x & Hx & ->). destruct (D x Hx). destruct up; assumption.
Qed.
Print Assumptions C02_exactly.
Print Assumptions C02_otherwise.
Print Assumptions C105_reads.
Print Assumptions C105_refuses.
Print Assumptions C105_writes.
Print Assumptions C105_back.
Print Assumptions C105_negative_refuted.
Print Assumptions C105_plain.
Print Assumptions C105_bytes.

(** ** Cases *)
Example C105_case : int16 (str " -0x_Ff_01 ") = Ok (- 65281) /\ int16 (str "ff__01") = Raise ValueError /\ int16 (str "0x") = Raise ValueError /\ int16 (str "+ 1") = Raise ValueError /\
  int_to_hex_case true 65281 = str "FF01" /\ int_to_hex_case true (-26) = str "X1A" /\ bytes_to_hex_case true [255; 1] = str "FF01".
Proof. vm_compute. repeat split; reflexivity. Qed.
Example C105_refuses_hypotheses : forall z, ~ ReadsHex z (str "0xg").
Proof. intros z H. apply C105_reads in H. vm_compute in H. discriminate. Qed.
Example C02_exactly_case : SpacedHex [10; 255] [48; 97; 9; 32; 70; 102] /\ hex_to_bytes [48; 97; 9; 32; 70; 102] = Ok [10; 255] /\
  hex_to_bytes (str "0 a1") = Raise ValueError /\ hex_to_bytes (str "a 1") = Raise ValueError /\ hex_to_bytes (str "ab ") = Raise ValueError.
Proof. split; [apply fromhex_spaced; reflexivity|]. repeat split; reflexivity. Qed.
