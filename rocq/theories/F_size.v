(** Lengths of encodings. *)
From Verif Require Export F_base S_Wire S_Tx S_Script S_Fee S_Size.

Definition csz (n : Z) : Z := if n <? 0xfd then 1 else if n <? 0x10000 then 3 else if n <? 0x100000000 then 5 else 9.
Lemma cs_len v b : CompactSize v b -> zlen b = csz v.
Proof. unfold csz. intros H; inversion H; subst; repeat (match goal with |- context [?a <? ?c] => destruct (Z.ltb_spec a c) end); try reflexivity; lia. Qed.
Lemma csz_small n : n <= 252 -> csz n = 1.
Proof. intros H. unfold csz. destruct (Z.ltb_spec n 0xfd); lia. Qed.
Lemma csz_ge n : 1 <= csz n.
Proof. unfold csz. repeat (match goal with |- context [?a <? ?c] => destruct (a <? c) end); lia. Qed.
Lemma csz_mono a b : a <= b -> csz a <= csz b.
Proof. intros H. unfold csz. repeat (match goal with |- context [?a <? ?c] => destruct (Z.ltb_spec a c) end); lia. Qed.

Lemma le_len n v b : LEnum n v b -> zlen b = Z.of_nat n.
Proof. induction 1; auto. unfold zlen in *. cbn [length]. lia. Qed.
Lemma zlen_app' {A} (a b : list A) : zlen (a ++ b) = zlen a + zlen b.
Proof. unfold zlen. rewrite app_length. lia. Qed.

Definition vb_len (s : bytes) : Z := csz (zlen s) + zlen s.
Lemma vb_len_ok s b : VarBytes s b -> zlen b = vb_len s.
Proof. intros (n & C & ->). rewrite zlen_app', (cs_len _ _ C). reflexivity. Qed.
Definition in_len (i : tin) : Z := 40 + vb_len (i_script i).
Lemma in_len_ok i b : EncIn i b -> zlen b = in_len i.
Proof.
  intros (vo & sc & sq & L & A & B & C & ->). rewrite !zlen_app', (le_len _ _ _ A), (le_len _ _ _ C), (vb_len_ok _ _ B). unfold zlen at 1. rewrite L. unfold in_len. lia.
Qed.
Definition out_len (o : tout) : Z := 8 + vb_len (o_script o).
Lemma out_len_ok o b : EncOut o b -> zlen b = out_len o.
Proof. intros (v & sc & A & B & ->). rewrite !zlen_app', (le_len _ _ _ A), (vb_len_ok _ _ B). unfold out_len. lia. Qed.

Lemma seq_len {A} (E : A -> bytes -> Prop) (f : A -> Z) l b : (forall a c, E a c -> zlen c = f a) -> EncSeq E l b -> zlen b = total (map f l).
Proof. intros H. induction 1 as [|a l b c Ha Hl IH]; auto. rewrite zlen_app', (H _ _ Ha), IH. reflexivity. Qed.
Lemma vec_len {A} (E : A -> bytes -> Prop) (f : A -> Z) l b : (forall a c, E a c -> zlen c = f a) -> EncVec E l b -> zlen b = csz (zlen l) + total (map f l).
Proof. intros H (n & c & C & S & ->). rewrite zlen_app', (cs_len _ _ C), (seq_len E f l c H S). reflexivity. Qed.
Definition wit_len (w : list bytes) : Z := csz (zlen w) + total (map vb_len w).
Lemma wit_len_ok w b : EncStack w b -> zlen b = wit_len w.
Proof. apply vec_len. apply vb_len_ok. Qed.

Definition base_len (x : tx) : Z := 8 + csz (zlen (t_ins x)) + total (map in_len (t_ins x)) + csz (zlen (t_outs x)) + total (map out_len (t_outs x)).
Lemma legacy_len x b : EncLegacy x b -> zlen b = base_len x.
Proof.
  intros (v & i & o & l & A & B & C & D & ->). rewrite !zlen_app', (le_len _ _ _ A), (le_len _ _ _ D), (vec_len _ in_len _ _ in_len_ok B), (vec_len _ out_len _ _ out_len_ok C).
  unfold base_len. lia.
Qed.
Lemma segwit_len x b : EncSegwit x b -> zlen b = base_len x + 2 + total (map (fun i => wit_len (i_wit i)) (t_ins x)).
Proof.
  intros (v & i & o & w & l & A & B & C & S & D & ->).
  rewrite !zlen_app', (le_len _ _ _ A), (le_len _ _ _ D), (vec_len _ in_len _ _ in_len_ok B), (vec_len _ out_len _ _ out_len_ok C), (seq_len _ wit_len _ _ wit_len_ok S), map_map.
  unfold base_len, zlen. cbn [length]. lia.
Qed.

(** Units per input. *)
Definition in_weight (seg : bool) (i : tin) : Z := 4 * in_len i + if seg then wit_len (i_wit i) else 0.
Lemma total_scale {A} (f g : A -> Z) l : total (map (fun i => 4 * f i + g i) l) = 4 * total (map f l) + total (map g l).
Proof. induction l as [|a l IH]; cbn [map total]; lia. Qed.
Lemma total_const {A} (l : list A) : total (map (fun _ => 0) l) = 0.
Proof. induction l as [|a l IH]; cbn [map total]; lia. Qed.
Lemma weight_eq (seg : bool) x b w : (if seg then EncSegwit x b else EncLegacy x b) -> Weight x b w ->
  w = total (map (in_weight seg) (t_ins x)) + 4 * (8 + csz (zlen (t_ins x)) + csz (zlen (t_outs x)) + total (map out_len (t_outs x))) + if seg then 2 else 0.
Proof.
  intros E (base & B & ->). rewrite (legacy_len _ _ B). unfold in_weight. destruct seg.
  - rewrite (segwit_len _ _ E), total_scale. unfold base_len. lia.
  - rewrite (legacy_len _ _ E), total_scale, total_const. unfold base_len. lia.
Qed.
Lemma weight_exists (seg : bool) x b : (if seg then EncSegwit x b else EncLegacy x b) -> exists w, Weight x b w.
Proof.
  intros E. destruct seg.
  - destruct E as (v & i & o & w & l & A & B & C & S & D & ->). eexists. exists (v ++ i ++ o ++ l). split; [|reflexivity]. exists v, i, o, l. auto.
  - eexists. exists b. auto.
Qed.
