(** GF(32) and the Bech32 checksum. *)
From Coq Require Import String.
From Verif Require Export F_base M_base32.
From Verif Require Export S_Bech32.

(** ** Finite checks *)
Definition all32 : list Z :=
  [0;1;2;3;4;5;6;7;8;9;10;11;12;13;14;15;16;17;18;19;20;21;22;23;24;25;26;27;28;29;30;31].

Lemma gf_in x : gf x <-> In x all32.
Proof. unfold gf. simpl. lia. Qed.

Definition gft : list (list Z) := Eval vm_compute in map (fun a => map (gf_mul a) all32) all32.
Definition mulT (a b : Z) : Z := nth (Z.to_nat b) (nth (Z.to_nat a) gft []) 0.

Lemma forall32 (P : Z -> bool) : forallb P all32 = true -> forall x, gf x -> P x = true.
Proof. intros H x Hx. rewrite forallb_forall in H. apply H, gf_in, Hx. Qed.

Lemma mulT_ok a b : gf a -> gf b -> gf_mul a b = mulT a b.
Proof.
  intros Ha Hb.
  assert (H : forallb (fun a => forallb (fun b => gf_mul a b =? mulT a b) all32) all32 = true)
    by (vm_compute; reflexivity).
  apply Z.eqb_eq. apply (forall32 (fun b => gf_mul a b =? mulT a b)); auto.
  apply (forall32 (fun a => forallb (fun b => gf_mul a b =? mulT a b) all32)); auto.
Qed.

Definition is_gf (x : Z) : bool := (0 <=? x) && (x <? 32).
Lemma is_gf_iff x : is_gf x = true <-> gf x.
Proof. unfold is_gf, gf. lia. Qed.

Lemma gf_mul_gf a b : gf a -> gf b -> gf (gf_mul a b).
Proof.
  intros Ha Hb. rewrite mulT_ok by auto. apply is_gf_iff.
  assert (H : forallb (fun a => forallb (fun b => is_gf (mulT a b)) all32) all32 = true)
    by (vm_compute; reflexivity).
  exact (forall32 _ (forall32 _ H a Ha) b Hb).
Qed.

Lemma gf_xor a b : gf a -> gf b -> gf (Z.lxor a b).
Proof.
  intros Ha Hb. apply is_gf_iff.
  assert (H : forallb (fun a => forallb (fun b => is_gf (Z.lxor a b)) all32) all32 = true)
    by (vm_compute; reflexivity).
  exact (forall32 _ (forall32 _ H a Ha) b Hb).
Qed.

Lemma gf_mul_comm a b : gf a -> gf b -> gf_mul a b = gf_mul b a.
Proof.
  intros Ha Hb. rewrite !mulT_ok by auto. apply Z.eqb_eq.
  assert (H : forallb (fun a => forallb (fun b => mulT a b =? mulT b a) all32) all32 = true)
    by (vm_compute; reflexivity).
  exact (forall32 _ (forall32 _ H a Ha) b Hb).
Qed.

Lemma gf_mul_assoc a b c : gf a -> gf b -> gf c -> gf_mul a (gf_mul b c) = gf_mul (gf_mul a b) c.
Proof.
  intros Ha Hb Hc. rewrite !mulT_ok by (auto; rewrite <- ?mulT_ok by auto; apply gf_mul_gf; auto).
  apply Z.eqb_eq.
  assert (H : forallb (fun a => forallb (fun b => forallb (fun c => mulT a (mulT b c) =? mulT (mulT a b) c) all32) all32) all32 = true)
    by (vm_compute; reflexivity).
  exact (forall32 _ (forall32 _ (forall32 _ H a Ha) b Hb) c Hc).
Qed.

Lemma gf_mul_xor_r a b c : gf a -> gf b -> gf c -> gf_mul a (Z.lxor b c) = Z.lxor (gf_mul a b) (gf_mul a c).
Proof.
  intros Ha Hb Hc. rewrite !mulT_ok by (auto; apply gf_xor; auto).
  apply Z.eqb_eq.
  assert (H : forallb (fun a => forallb (fun b => forallb (fun c => mulT a (Z.lxor b c) =? Z.lxor (mulT a b) (mulT a c)) all32) all32) all32 = true)
    by (vm_compute; reflexivity).
  exact (forall32 _ (forall32 _ (forall32 _ H a Ha) b Hb) c Hc).
Qed.

Lemma gf_mul_xor_l a b c : gf a -> gf b -> gf c -> gf_mul (Z.lxor a b) c = Z.lxor (gf_mul a c) (gf_mul b c).
Proof.
  intros Ha Hb Hc. rewrite gf_mul_comm by (auto; apply gf_xor; auto).
  rewrite gf_mul_xor_r by auto. rewrite (gf_mul_comm c a), (gf_mul_comm c b) by auto. reflexivity.
Qed.

Lemma gf_mul_0_r a : gf a -> gf_mul a 0 = 0.
Proof. intros _. unfold gf_mul. cbn. reflexivity. Qed.

Lemma gf_mul_0_l b : gf b -> gf_mul 0 b = 0.
Proof. intros H. rewrite gf_mul_comm by (auto; unfold gf; lia). apply gf_mul_0_r; auto. Qed.

Lemma gf_mul_1_r a : gf a -> gf_mul a 1 = a.
Proof. intros H. unfold gf_mul. cbn. reflexivity. Qed.

Lemma gf_0 : gf 0. Proof. unfold gf; lia. Qed.
Lemma gf_1 : gf 1. Proof. unfold gf; lia. Qed.

Lemma gf_mul_eq_0 a b : gf a -> gf b -> gf_mul a b = 0 -> a = 0 \/ b = 0.
Proof.
  intros Ha Hb. rewrite mulT_ok by auto. intros E.
  assert (H : forallb (fun a => forallb (fun b => negb (mulT a b =? 0) || (a =? 0) || (b =? 0)) all32) all32 = true)
    by (vm_compute; reflexivity).
  pose proof (forall32 _ (forall32 (fun a => forallb (fun b => negb (mulT a b =? 0) || (a =? 0) || (b =? 0)) all32) H a Ha) b Hb) as G.
  cbv beta in G. rewrite E in G. simpl in G. lia.
Qed.

Definition gf_inv (a : Z) : Z := nth (Z.to_nat a)
  [0;1;20;24;10;8;12;29;5;11;4;9;6;28;26;31;22;18;17;23;2;25;16;19;3;21;14;30;13;7;27;15] 0.

Lemma gf_inv_ok a : gf a -> gf (gf_inv a) /\ (a <> 0 -> gf_mul (gf_inv a) a = 1).
Proof.
  intros Ha.
  assert (H : forallb (fun a => is_gf (gf_inv a) && ((a =? 0) || (gf_mul (gf_inv a) a =? 1))) all32 = true)
    by (vm_compute; reflexivity).
  pose proof (forall32 _ H a Ha) as G. cbv beta in G. apply andb_prop in G as [G1 G2].
  apply is_gf_iff in G1. split; auto. intros N. lia.
Qed.
