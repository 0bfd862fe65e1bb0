(** The model's utf8 meets the specification. *)
From Verif Require Export S_Utf8 M_wallet F_base.

Definition is_char (c : Z) : Prop := 0 <= c <= 0x10ffff.
Definition is_surrogate (c : Z) : Prop := 0xd800 <= c <= 0xdfff.

Lemma utf8_char_ok c : is_char c -> ~ is_surrogate c -> exists b, utf8_char c = Ok b /\ Utf8Char c b.
Proof.
  unfold is_char, is_surrogate, utf8_char. intros H N.
  destruct (Z.ltb_spec c 0x80). { eexists. split; [reflexivity|]. constructor. lia. }
  destruct (Z.ltb_spec c 0x800). { eexists. split; [reflexivity|]. constructor; [lia| |]; pose proof (Z.div_mod c 64); pose proof (Z.mod_pos_bound c 64); lia. }
  replace ((0xd800 <=? c) && (c <? 0xe000)) with false by lia.
  assert (D : c / 4096 = (c / 64) / 64) by (rewrite Z.div_div by lia; reflexivity).
  assert (D2 : c / 262144 = (c / 4096) / 64) by (rewrite Z.div_div by lia; reflexivity).
  pose proof (Z.div_mod c 64). pose proof (Z.mod_pos_bound c 64).
  pose proof (Z.div_mod (c / 64) 64). pose proof (Z.mod_pos_bound (c / 64) 64).
  pose proof (Z.div_mod (c / 4096) 64). pose proof (Z.mod_pos_bound (c / 4096) 64).
  destruct (Z.ltb_spec c 0x10000); (eexists; split; [reflexivity|]); constructor; lia.
Qed.
Lemma utf8_char_raise c : is_surrogate c -> utf8_char c = Raise UnicodeEncodeError.
Proof.
  unfold is_surrogate, utf8_char. intros H. replace (c <? 0x80) with false by lia. replace (c <? 0x800) with false by lia.
  replace ((0xd800 <=? c) && (c <? 0xe000)) with true by lia. reflexivity.
Qed.
Lemma utf8_char_fun c b b' : Utf8Char c b -> Utf8Char c b' -> b = b'.
Proof.
  assert (CI : forall (x y : Z) l m, x = y -> l = m -> x :: l = y :: m) by (intros; congruence).
  intros H H'. destruct H, H'; try (exfalso; lia); repeat apply CI; try reflexivity; lia.
Qed.

Lemma utf8_ok s : Forall is_char s -> Forall (fun c => ~ is_surrogate c) s -> exists b, utf8 s = Ok b /\ Utf8 s b.
Proof.
  unfold utf8. induction s as [|c s IH]; intros H N; [exists []; split; [reflexivity|constructor]|].
  apply Forall_cons_iff in H as [H1 H2], N as [N1 N2]. destruct (utf8_char_ok c H1 N1) as (b & E & U).
  destruct (IH H2 N2) as (t & Et & Ut). cbn [mapM]. rewrite E. cbn [bind]. destruct (mapM utf8_char s) as [l|]; [|discriminate].
  cbn [bind rmap concat] in *. injection Et as <-. eexists. split; [reflexivity|]. constructor; auto.
Qed.
Lemma utf8_raise s : Forall is_char s -> Exists is_surrogate s -> utf8 s = Raise UnicodeEncodeError.
Proof.
  unfold utf8. induction s as [|c s IH]; intros H X; [inversion X|]. apply Forall_cons_iff in H as [H1 H2]. cbn [mapM].
  assert (D : is_surrogate c \/ ~ is_surrogate c) by (unfold is_surrogate; lia). destruct D as [D|D].
  - rewrite utf8_char_raise by auto. reflexivity.
  - destruct (utf8_char_ok c H1 D) as (b & -> & _). cbn [bind]. inversion X; subst; [contradiction|].
    specialize (IH H2 H0). destruct (mapM utf8_char s); cbn in *; [discriminate|congruence].
Qed.

(** The bytes determine the text. *)
Lemma Utf8Char_prefix c c' b b' t t' : Utf8Char c b -> Utf8Char c' b' -> b ++ t = b' ++ t' -> c = c' /\ t = t'.
Proof.
  assert (CI : forall (x y : Z) l m, x :: l = y :: m -> x = y /\ l = m) by (intros; split; congruence).
  intros H H' E. destruct H, H'; cbn [app] in E; repeat (apply CI in E as [? E]); try (exfalso; lia); (split; [lia|exact E]).
Qed.
Lemma Utf8_inj s : forall s' b, Utf8 s b -> Utf8 s' b -> s = s'.
Proof.
  assert (NE : forall c b, Utf8Char c b -> b <> []) by (intros c b []; discriminate).
  induction s as [|c s IH]; intros s' b H H'; inversion H; subst; inversion H'; subst; auto.
  - match goal with E : _ ++ _ = [] |- _ => apply app_eq_nil in E as [E _]; subst end. exfalso. eapply NE; eauto.
  - match goal with E : [] = _ ++ _ |- _ => symmetry in E; apply app_eq_nil in E as [E _]; subst end. exfalso. eapply NE; eauto.
  - match goal with A : Utf8Char _ ?x, B : Utf8Char _ ?y, E : ?x ++ _ = ?y ++ _ |- _ => destruct (Utf8Char_prefix _ _ _ _ _ _ A B E) as [-> ->]
    | A : Utf8Char _ ?x, B : Utf8Char _ ?y, E : ?y ++ _ = ?x ++ _ |- _ => destruct (Utf8Char_prefix _ _ _ _ _ _ B A E) as [-> ->] end.
    f_equal. eapply IH; eauto.
Qed.
Lemma Utf8_fun s : forall b b', Utf8 s b -> Utf8 s b' -> b = b'.
Proof.
  induction s as [|c s IH]; intros b b' H H'; inversion H; subst; inversion H'; subst; auto. f_equal; [eapply utf8_char_fun; eauto|eauto].
Qed.
Lemma Utf8_chars s b : Utf8 s b -> Forall is_char s /\ Forall (fun c => ~ is_surrogate c) s /\ Forall (fun x => 0 <= x < 256) b.
Proof.
  unfold is_char, is_surrogate. induction 1 as [|c s b t H U (I1 & I2 & I3)]; [repeat split; constructor|].
  assert (0 <= c <= 0x10ffff /\ ~ 0xd800 <= c <= 0xdfff /\ Forall (fun x => 0 <= x < 256) b) as (A & B & C).
  { destruct H; repeat split; try lia; repeat constructor; lia. }
  repeat split; try (constructor; auto). apply Forall_app. auto.
Qed.
Lemma utf8_sound s b : Forall is_char s -> utf8 s = Ok b -> Utf8 s b.
Proof.
  intros H E. assert (D : Exists is_surrogate s \/ Forall (fun c => ~ is_surrogate c) s).
  { clear -s. induction s as [|c s IH]; [right; constructor|]. assert (D : is_surrogate c \/ ~ is_surrogate c) by (unfold is_surrogate; lia).
    destruct D; [left; constructor; auto|]. destruct IH; [left; apply Exists_cons_tl; auto|right; constructor; auto]. }
  destruct D as [D|D]; [rewrite utf8_raise in E by auto; discriminate|]. destruct (utf8_ok s H D) as (b' & E' & U). congruence.
Qed.
