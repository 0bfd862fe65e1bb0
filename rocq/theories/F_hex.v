(** The hexadecimal helpers against the specification. *)
From Coq Require Import String.
From Verif Require Export F_utils S_Hex.

Lemma hexdigit_val c v : hexdigit c v <-> hex_val c = Some v.
Proof.
  split.
  - intros [H0 H].
    assert (v < 16).
    { destruct H as [H|H]; assert (L : nth_error hexdigits (Z.to_nat v) <> None \/ nth_error HEXDIGITS (Z.to_nat v) <> None)
        by (rewrite H; (left; discriminate) || (right; discriminate));
      destruct L as [L|L]; apply nth_error_Some in L;
      change (length hexdigits) with 16%nat in L || change (length HEXDIGITS) with 16%nat in L; lia. }
    assert (Hv : In v [0;1;2;3;4;5;6;7;8;9;10;11;12;13;14;15]) by (simpl; lia).
    simpl in Hv. repeat destruct Hv as [<-|Hv]; try contradiction;
      destruct H as [H|H]; vm_compute in H; inv H; reflexivity.
  - intros H. pose proof (hex_val_range c v H) as (Hr & _).
    split; [lia|]. revert H. unfold hex_val.
    destruct ((48 <=? c) && (c <=? 57)) eqn:E1.
    { intros H. inv H. left. assert (Hc : In c [48;49;50;51;52;53;54;55;56;57]) by (simpl; lia).
      simpl in Hc. repeat destruct Hc as [<-|Hc]; try contradiction; reflexivity. }
    destruct ((97 <=? c) && (c <=? 102)) eqn:E2.
    { intros H. inv H. left. assert (Hc : In c [97;98;99;100;101;102]) by (simpl; lia).
      simpl in Hc. repeat destruct Hc as [<-|Hc]; try contradiction; reflexivity. }
    destruct ((65 <=? c) && (c <=? 70)) eqn:E3; [|discriminate].
    intros H. inv H. right. assert (Hc : In c [65;66;67;68;69;70]) by (simpl; lia).
    simpl in Hc. repeat destruct Hc as [<-|Hc]; try contradiction; reflexivity.
Qed.

Lemma bytes_to_hex_HexOf b : bytes_ok b = true -> HexOf b (bytes_to_hex b).
Proof.
  induction b as [|x b IH]; intros H; [constructor|].
  rewrite bytes_ok_cons in H. apply andb_prop in H as [Hx Hb]. apply is_byte_iff in Hx.
  unfold bytes_to_hex. cbn [flat_map app]. econstructor; [| | |apply IH; auto].
  - apply hexdigit_val. apply hex_val_digit. zdm; lia.
  - apply hexdigit_val. apply hex_val_digit. zdm; lia.
  - zdm; lia.
Qed.

Lemma HexOf_fromhex b h : HexOf b h -> fromhex h = Ok b.
Proof.
  induction 1 as [|x c1 c2 v1 v2 b h H1 H2 Hx Hb IH]; [reflexivity|].
  apply hexdigit_val in H1, H2. cbn [fromhex].
  pose proof (hex_val_range _ _ H1) as (_ & Hs & _). rewrite Hs, H1, H2, IH. subst. reflexivity.
Qed.

Lemma HexOf_length b h : HexOf b h -> length h = (2 * length b)%nat.
Proof. induction 1; simpl; lia. Qed.

Lemma HexOf_hex_to_bytes b h : HexOf b h -> hex_to_bytes h = Ok b.
Proof.
  intros H. unfold hex_to_bytes. rewrite (HexOf_length _ _ H).
  replace (Nat.odd (2 * length b)) with false.
  - apply HexOf_fromhex; auto.
  - symmetry. rewrite <- Nat.negb_even. apply negb_false_iff. apply Nat.even_spec. exists (length b). lia.
Qed.

Lemma HexOf_exists h : Nat.even (length h) = true -> forallb is_hex h = true -> exists b, HexOf b h.
Proof.
  intros He Hh. revert h He Hh. apply (list_ind2 (fun h => Nat.even (length h) = true -> forallb is_hex h = true -> exists b, HexOf b h)).
  - intros. exists []. constructor.
  - intros a H. discriminate.
  - intros a b l IH He Hh. simpl in Hh. apply andb_prop in Hh as [Ha Hh]. apply andb_prop in Hh as [Hb Hh].
    destruct (IH He Hh) as (bs & Hbs). unfold is_hex in Ha, Hb.
    destruct (hex_val a) as [va|] eqn:Ea; [|discriminate].
    destruct (hex_val b) as [vb|] eqn:Eb; [|discriminate].
    exists (16 * va + vb :: bs). econstructor; eauto; apply hexdigit_val; auto.
Qed.

Lemma is_hex_digit c : is_hex c = true <-> exists v, hexdigit c v.
Proof.
  unfold is_hex. split.
  - destruct (hex_val c) as [v|] eqn:E; [|discriminate]. intros _. exists v. apply hexdigit_val; auto.
  - intros (v & H). apply hexdigit_val in H. rewrite H. reflexivity.
Qed.

Lemma forallb_is_hex h : forallb is_hex h = true <-> Forall (fun c => exists v, hexdigit c v) h.
Proof.
  rewrite forallb_forall, Forall_forall. split; intros H c Hc; apply is_hex_digit; auto.
Qed.

Lemma hexdigit_none c : (forall v, ~ hexdigit c v) -> hex_val c = None.
Proof.
  intros H. destruct (hex_val c) as [v|] eqn:E; auto. exfalso. apply (H v). apply hexdigit_val; auto.
Qed.

Lemma flip_HexOf b h : bytes_ok b = true -> HexOf b h -> flip_hex_byte_order h = Ok (bytes_to_hex (rev b)).
Proof. intros Hb H. unfold flip_hex_byte_order. rewrite (HexOf_hex_to_bytes _ _ H). reflexivity. Qed.
