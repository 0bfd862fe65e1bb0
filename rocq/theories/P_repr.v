(** C101: how transactions and coins are shown. *)
From Coq Require Import String.
From Verif Require Import F_base F_utils F_hex F_tx F_decimal M_repr M_objects S_Hex S_Decimal S_Wire S_Tx S_Cli S_Repr P_cli P_tx P_objects.
From Coq Require Import List ZArith Lia.
Import ListNotations.
Open Scope Z_scope.

Lemma hex_one c : 0 <= c < 256 -> HexOf [c] (bytes_to_hex [c]).
Proof. intros H. apply bytes_to_hex_HexOf. cbn. unfold is_byte. destruct (Z.leb_spec 0 c), (Z.ltb_spec c 256); auto; lia. Qed.
Lemma escaped_reads wide q c : (q = 39 \/ q = 34) -> 0 <= c -> (wide = true \/ c < 256) -> Char q c (escaped wide q c).
Proof.
  intros Q P W. unfold escaped. destruct (Z.eqb_spec c q) as [->|N1]; [|destruct (Z.eqb_spec c 92) as [->|N2]]; cbn [orb].
  - apply C_letter. destruct Q as [-> | ->]; cbn; auto 10.
  - apply C_letter. cbn; auto.
  - destruct (Z.eqb_spec c 9) as [->|N3]; [apply C_letter; cbn; auto 10|]. destruct (Z.eqb_spec c 10) as [->|N4]; [apply C_letter; cbn; auto 10|].
    destruct (Z.eqb_spec c 13) as [->|N5]; [apply C_letter; cbn; auto 10|].
    destruct ((c <? 32) || _)%bool eqn:B; [apply C_hex, hex_one|apply C_plain; auto]. split; auto.
    destruct (Z.ltb_spec c 32); [lia|]. cbn [orb] in B. apply andb_prop in B as [_ B]. destruct W as [->|W]; [|lia]. destruct (Z.ltb_spec 127 c); [discriminate|lia].
Qed.
Lemma quote_q s : quote s = 39 \/ quote s = 34.
Proof. unfold quote. destruct (_ && _); auto. Qed.
Lemma quoted_reads wide s : Forall (fun c => 0 <= c) s -> (wide = true \/ Forall (fun c => c < 256) s) -> Quoted s (quoted wide s).
Proof.
  intros F W. exists (quote s), (flat_map (escaped wide (quote s)) s). split; [apply quote_q|]. split; [|reflexivity]. generalize (quote_q s). generalize (quote s). intros q Q.
  induction s as [|c s IH]; [constructor|]. cbn [flat_map]. inversion F; subst. constructor.
  - apply escaped_reads; auto. destruct W as [W|W]; auto. inversion W; auto.
  - apply IH; auto. destruct W as [W|W]; auto. inversion W; auto.
Qed.
Lemma bytes_range b : bytes_ok b = true -> Forall (fun c => 0 <= c) b /\ Forall (fun c => c < 256) b.
Proof. intros H. apply bytes_ok_Forall in H. split; eapply Forall_impl; [|exact H| |exact H]; cbn; intros; lia. Qed.
Lemma ascii_digit c v : S_Hex.hexdigit c v -> c < 128.
Proof.
  intros (_ & [H|H]); apply nth_error_In in H; [assert (F : Forall (fun c => c < 128) hexdigits) by (repeat constructor)|assert (F : Forall (fun c => c < 128) HEXDIGITS) by (repeat constructor)];
    rewrite Forall_forall in F; auto.
Qed.
Lemma narrow q c : (q = 39 \/ q = 34) -> 0 <= c < 256 -> Forall (fun d => d < 128) (escaped false q c).
Proof.
  intros Q P. unfold escaped. destruct ((c =? q) || (c =? 92))%bool eqn:B1.
  - apply orb_prop in B1. destruct B1 as [B|B]; apply Z.eqb_eq in B; subst; repeat constructor; lia.
  - repeat (match goal with |- context [if ?b then _ else _] => destruct b eqn:? end; try (repeat constructor; lia)).
    constructor; [lia|]. constructor; [lia|]. pose proof (hex_one c P) as H. inversion H as [|x c1 c2 v1 v2 b0 h H1 H2 H3 H4 H5]. inversion H4; subst. constructor; [eapply ascii_digit; eauto|]. constructor; [eapply ascii_digit; eauto|constructor].
Qed.
Lemma bytes_reads b : bytes_ok b = true -> Reads (VBytes b) (repr_bytes b).
Proof.
  intros H. destruct (bytes_range b H) as [A B]. apply R_bytes; [apply quoted_reads; auto|]. unfold quoted. pose proof (quote_q b) as Q. constructor; [lia|]. apply Forall_app. split; [|repeat constructor; lia].
  revert Q. generalize (quote b). intros q Q. clear H. induction b as [|c b IH]; [constructor|]. inversion A; inversion B; subst. cbn [flat_map]. apply Forall_app. split; auto. apply narrow; auto.
Qed.

(** ** Texts are told apart *)
Lemma escaped_inj q c c' x x' : (q = 39 \/ q = 34) -> 0 <= c < 256 -> 0 <= c' < 256 -> escaped false q c ++ x = escaped false q c' ++ x' -> c = c' /\ x = x'.
Proof.
  intros Q P P' E.
  assert (H2 : forall c, 0 <= c < 256 -> exists a b, bytes_to_hex [c] = [a; b]).
  { clear. intros c P. pose proof (hex_one c P) as H. remember (bytes_to_hex [c]) as t. remember [c] as l. destruct H as [|x c1 c2 v1 v2 b0 h H1 H3 H5 H4]; [discriminate|]. injection Heql as -> ->. inversion H4. eauto. }
  assert (V : forall c, 0 <= c < 256 -> (escaped false q c = [92; c] /\ (c = q \/ c = 92)) \/ (exists e, escaped false q c = [92; e] /\ In (e, c) [(116, 9); (110, 10); (114, 13)]) \/
    (exists a b, escaped false q c = [92; 120; a; b] /\ bytes_to_hex [c] = [a; b]) \/ (escaped false q c = [c] /\ c <> 92)).
  { clear -H2. intros c P. unfold escaped. destruct (Z.eqb_spec c q) as [->|N1]; [left; auto|]. destruct (Z.eqb_spec c 92) as [->|N2]; [left; auto|]. cbn [orb].
    destruct (Z.eqb_spec c 9) as [->|N3]; [right; left; exists 116; cbn; auto|]. destruct (Z.eqb_spec c 10) as [->|N4]; [right; left; exists 110; cbn; auto|].
    destruct (Z.eqb_spec c 13) as [->|N5]; [right; left; exists 114; cbn; auto|]. right. right. destruct (_ || _)%bool; [left|right]; auto.
    destruct (H2 c P) as (a & b & A). exists a, b. rewrite A. auto. }
  destruct (V c P) as [(R & K)|[(e & R & K)|[(a & b & R & K)|(R & K)]]], (V c' P') as [(R' & K')|[(e' & R' & K')|[(a' & b' & R' & K')|(R' & K')]]]; rewrite R, R' in E; cbn [app] in E.
  - injection E as -> ->. auto.
  - exfalso. injection E as E1 E2. cbn in K'. repeat destruct K' as [K'|K']; try injection K' as <- <-; try destruct K'; destruct Q as [-> | ->]; lia.
  - exfalso. injection E as E1 E2. destruct Q as [-> | ->]; lia.
  - exfalso. injection E as E1 E2. congruence.
  - exfalso. injection E as E1 E2. cbn in K. repeat destruct K as [K|K]; try injection K as <- <-; try destruct K; destruct Q as [-> | ->]; lia.
  - injection E as E1 E2. subst e'. cbn in K, K'. split; auto. repeat destruct K as [K|K]; try injection K as <- <-; try destruct K; repeat destruct K' as [K'|K']; try discriminate; try injection K' as <-; try destruct K'; auto.
  - exfalso. injection E as E1 E2. cbn in K. repeat destruct K as [K|K]; try injection K as <- <-; try destruct K; discriminate.
  - exfalso. injection E as E1 E2. congruence.
  - exfalso. injection E as E1 E2. destruct Q as [-> | ->]; lia.
  - exfalso. injection E as E1 E2. cbn in K'. repeat destruct K' as [K'|K']; try injection K' as <- <-; try destruct K'; discriminate.
  - injection E as E1 E2 E3. subst a' b'. split; auto. assert (G : [c] = [c']); [|congruence]. apply bytes_to_hex_inj; [cbn; unfold is_byte; lia|cbn; unfold is_byte; lia|congruence].
  - exfalso. injection E as E1 E2. congruence.
  - exfalso. injection E as E1 E2. congruence.
  - exfalso. injection E as E1 E2. congruence.
  - exfalso. injection E as E1 E2. congruence.
  - injection E as -> ->. auto.
Qed.

(** [f a] can be read off any text that begins with it, for the [a] of a kind. *)
Definition Delimits {A} (K : A -> Prop) (f : A -> pystr) : Prop := forall a b r r', K a -> K b -> f a ++ r = f b ++ r' -> a = b /\ r = r'.
Lemma chars_inj q b : forall b' r r', (q = 39 \/ q = 34) -> bytes_ok b = true -> bytes_ok b' = true ->
  (flat_map (escaped false q) b ++ [q]) ++ r = (flat_map (escaped false q) b' ++ [q]) ++ r' -> b = b' /\ r = r'.
Proof.
  assert (D : forall c x y, (q = 39 \/ q = 34) -> escaped false q c ++ x <> q :: y).
  { intros c x y Q. unfold escaped. destruct (Z.eqb_spec c q) as [->|N]; cbn [orb app]; [destruct Q; intros [= E]; lia|].
    repeat (match goal with |- context [if ?b then _ else _] => destruct b end; cbn [app]; try (destruct Q; intros [= E]; lia)). }
  induction b as [|c b IH]; intros [|c' b'] r r' Q B B' E; cbn [flat_map] in E; rewrite <- ?app_assoc in E; cbn [app] in E.
  - injection E as E. auto.
  - symmetry in E. apply D in E; auto; contradiction.
  - apply D in E; auto; contradiction.
  - cbn [bytes_ok forallb] in B, B'. apply andb_prop in B as [B1 B2]. apply andb_prop in B' as [B1' B2']. unfold is_byte in B1, B1'.
    apply escaped_inj in E as [<- E]; auto; try lia. destruct (IH b' r r' Q B2 B2') as [-> ->]; auto. rewrite <- !app_assoc. exact E.
Qed.
Lemma bytes_delimits : Delimits (fun b => bytes_ok b = true) repr_bytes.
Proof.
  intros b b' r r' B B' E. unfold repr_bytes, quoted in E. cbn [app] in E. assert (Q : quote b = quote b') by congruence. rewrite Q in E. injection E as E.
  apply (chars_inj (quote b')); auto. apply quote_q.
Qed.
Definition InOk (i : TxIn) : Prop := bytes_ok (script_sig i) = true /\ bytes_ok (script_sig_len i) = true /\ bytes_ok (txid i) = true /\ bytes_ok (txindex i) = true /\
  bytes_ok (witness i) = true /\ bytes_ok (sequence i) = true /\ amount i = None /\ segwit_input i = false.
Definition OutOk (o : TxOut) : Prop := bytes_ok (out_amount o) = true /\ bytes_ok (script_pubkey o) = true /\ bytes_ok (script_pubkey_len o) = true.
Lemma out_delimits : Delimits OutOk out_repr.
Proof.
  intros [a s l] [a' s' l'] r r' (A & B & C) (A' & B' & C') E. unfold out_repr in E. cbn [out_amount script_pubkey script_pubkey_len commas] in *. repeat (rewrite <- app_assoc in E).
  apply app_inv_head in E. apply bytes_delimits in E as [<- E]; auto. repeat (rewrite <- app_assoc in E). apply app_inv_head in E. apply bytes_delimits in E as [<- E]; auto.
  repeat (rewrite <- app_assoc in E). apply app_inv_head in E. apply bytes_delimits in E as [<- E]; auto. apply app_inv_head in E. auto.
Qed.
Lemma in_delimits : Delimits InOk in_repr.
Proof.
  intros [a b c d w am q sw] [a' b' c' d' w' am' q' sw'] r r' (A & B & C & D & W & Q & H1 & H2) (A' & B' & C' & D' & W' & Q' & H1' & H2') E. unfold in_repr, in_is_segwit in E.
  cbn [script_sig script_sig_len txid txindex witness amount sequence segwit_input] in *. subst am am' sw sw'. cbn [orb] in E.
  assert (ST : forall s s' x x', bytes_ok s = true -> bytes_ok s' = true -> repr_bytes s ++ str ", " ++ x = repr_bytes s' ++ str ", " ++ x' -> s = s' /\ x = x').
  { intros s s' x x' S1 S2 EE. apply bytes_delimits in EE as [-> EE]; auto. apply app_inv_head in EE. auto. }
  destruct w as [|w0 w], w' as [|w0' w']; cbn [commas list_eqb negb] in E; repeat (rewrite <- app_assoc in E); apply app_inv_head in E;
    do 4 (apply ST in E as [<- E]; auto; repeat (rewrite <- app_assoc in E)).
  - apply bytes_delimits in E as [<- E]; auto. apply app_inv_head in E. auto.
  - exfalso. apply bytes_delimits in E as [_ E]; auto. discriminate.
  - exfalso. apply bytes_delimits in E as [_ E]; auto. discriminate.
  - apply ST in E as [<- E]; auto. apply app_inv_head in E. apply app_inv_head in E. apply bytes_delimits in E as [<- E]; auto. apply app_inv_head in E. auto.
Qed.
Lemma list_delimits {A} (K : A -> Prop) f : Delimits K f -> (forall a, hd 0 (f a) = 84) ->
  Delimits (Forall K) (fun l => str "[" ++ commas (map f l) ++ str "]").
Proof.
  intros D T. assert (T' : forall a x y, f a ++ x <> 93 :: y) by (intros a x y E; specialize (T a); destruct (f a); cbn in *; [discriminate|congruence]).
  intros l l' r r' F F' E. cbn [app] in E. change (str "[") with [91] in E. cbn [app] in E. injection E as E. change (str "]") with [93] in E. rewrite <- !app_assoc in E. cbn [app] in E.
  revert l' F' E. induction F as [|a l Ka F IH]; intros l' F' E.
  - destruct l' as [|a' l']; [cbn in E; injection E as ->; auto|]. exfalso. symmetry in E. cbn [map commas] in E. destruct (map f l') eqn:M; rewrite <- ?app_assoc in E; apply T' in E; auto.
  - destruct l' as [|a' l']; [exfalso; cbn [map commas] in E; destruct (map f l) eqn:M; rewrite <- ?app_assoc in E; apply T' in E; auto|]. inversion F' as [|? ? Ka' F'']; subst.
    destruct l as [|b l], l' as [|b' l']; cbn [map commas] in E.
    + apply D in E as [-> E]; auto. injection E as ->. auto.
    + exfalso. rewrite <- !app_assoc in E. apply D in E as [_ E]; auto. discriminate.
    + exfalso. rewrite <- !app_assoc in E. apply D in E as [_ E]; auto. discriminate.
    + rewrite <- !app_assoc in E. apply D in E as [-> E]; auto. apply app_inv_head in E. destruct (IH (b' :: l') F'' E) as [Q ->]. split; auto. congruence.
Qed.
Definition TxOk (t : TxObj) : Prop := bytes_ok (version t) = true /\ Forall InOk (TxIns t) /\ Forall OutOk (TxOuts t) /\ bytes_ok (locktime t) = true.
Lemma tx_repr_inj t u : TxOk t -> TxOk u -> tx_repr t = tx_repr u -> t = u.
Proof.
  intros (V & I & O & L) (V' & I' & O' & L') E. destruct t as [v is os l], u as [v' is' os' l']. cbn [version TxIns TxOuts locktime] in *.
  unfold tx_repr in E. cbn [version TxIns TxOuts locktime commas] in E. rewrite <- (app_assoc (repr_bytes v)), <- (app_assoc (repr_bytes v')) in E. apply app_inv_head in E.
  apply bytes_delimits in E as [<- E]; auto. rewrite <- !app_assoc in E. apply app_inv_head in E.
  pose proof (list_delimits InOk in_repr in_delimits) as DI. assert (HT : forall i, hd 0 (in_repr i) = 84) by (intros i; unfold in_repr; destruct (in_is_segwit i); reflexivity).
  pose proof (list_delimits OutOk out_repr out_delimits (fun _ => eq_refl)) as DO.
  edestruct (DI HT is is') as [<- E2]; [exact I|exact I'|cbv beta; rewrite <- !app_assoc; exact E|]. apply app_inv_head in E2.
  edestruct (DO os os') as [<- E3]; [exact O|exact O'|cbv beta; rewrite <- !app_assoc; exact E2|]. apply app_inv_head in E3. apply bytes_delimits in E3 as [<- _]; auto.
Qed.

(** What is read from bytes consists of bytes. *)
Definition Keeps {A} (K : A -> Prop) (f : bytes -> result (A * bytes)) : Prop := forall s a r, bytes_ok s = true -> f s = Ok (a, r) -> K a /\ bytes_ok r = true.
Lemma take_ok n s : bytes_ok s = true -> bytes_ok (fst (read_bytes s n)) = true /\ bytes_ok (snd (read_bytes s n)) = true.
Proof. intros H. split; [apply F_base.bytes_ok_firstn|apply F_base.bytes_ok_skipn]; auto. Qed.
Lemma read_n_keeps {A} (K : A -> Prop) f n : Keeps K f -> Keeps (Forall K) (read_n f n).
Proof.
  intros F. induction n as [|n IH]; intros s l r B E; cbn [read_n] in E; [injection E as <- <-; auto|].
  apply bind_ok in E as ((a & s1) & E1 & E). apply bind_ok in E as ((l1 & s2) & E2 & E). injection E as <- <-. apply F in E1 as [K1 B1]; auto. apply IH in E2 as [K2 B2]; auto.
Qed.
Lemma var_int_keeps : Keeps (fun _ => True) read_var_int.
Proof.
  intros [|v s] a r B E; [discriminate|]. rewrite F_base.bytes_ok_cons in B. apply andb_prop in B as [_ B]. cbn [read_var_int] in E. destruct (v <? 253); [injection E as <- <-; auto|].
  unfold read_as_int in E. pose proof (take_ok (2 ^ (v - 252)) s B) as [_ T]. cbn [snd read_bytes] in T. destruct (ztake _ s) as [|w0 w]; [discriminate|]. injection E as _ <-. auto.
Qed.
Lemma var_string_keeps : Keeps (fun b => bytes_ok b = true) read_var_string.
Proof.
  intros s a r B E. unfold read_var_string in E. apply bind_ok in E as ((n & s1) & E1 & E). apply var_int_keeps in E1 as [_ B1]; auto. injection E as <- <-. apply (take_ok n s1 B1).
Qed.
Lemma read_in_keeps : Keeps InOk read_in.
Proof.
  intros s i r B E. unfold read_in in E. pose proof (take_ok 32 s B) as [T1 B1]. destruct (read_bytes s 32) as [x s1]. cbn [fst snd] in *.
  pose proof (take_ok 4 s1 B1) as [T2 B2]. destruct (read_bytes s1 4) as [y s2]. cbn [fst snd] in *. apply bind_ok in E as ((sc & s3) & E3 & E). apply var_string_keeps in E3 as [T3 B3]; auto.
  pose proof (take_ok 4 s3 B3) as [T4 B4]. destruct (read_bytes s3 4) as [z s4]. cbn [fst snd] in *. apply bind_ok in E as (j & N & E). injection E as <- <-.
  unfold new_in in N. apply bind_ok in N as (l & L & N). injection N as <-. apply varint_bytes_ok in L. unfold InOk. cbn. auto 10.
Qed.
Lemma read_out_keeps : Keeps OutOk read_out.
Proof.
  intros s i r B E. unfold read_out in E. pose proof (take_ok 8 s B) as [T1 B1]. destruct (read_bytes s 8) as [x s1]. cbn [fst snd] in *.
  apply bind_ok in E as ((sc & s3) & E3 & E). apply var_string_keeps in E3 as [T3 B3]; auto. apply bind_ok in E as (j & N & E). injection E as <- <-.
  unfold new_out in N. apply bind_ok in N as (l & L & N). injection N as <-. apply varint_bytes_ok in L. unfold OutOk. cbn. auto 10.
Qed.
Lemma segwit_string_keeps : Keeps (fun b => bytes_ok b = true) read_segwit_string.
Proof.
  intros s a r B E. unfold read_segwit_string in E. apply bind_ok in E as ((n & s1) & E1 & E). apply var_int_keeps in E1 as [_ B1]; auto.
  pose proof (take_ok n s1 B1) as [T2 B2]. destruct (read_bytes s1 n) as [y s2]. cbn [fst snd] in *. apply bind_ok in E as (l & L & E). injection E as <- <-. apply varint_bytes_ok in L.
  rewrite bytes_ok_app, L. auto.
Qed.
Lemma witness_keeps : Keeps (fun b => bytes_ok b = true) read_witness.
Proof.
  intros s a r B E. unfold read_witness in E. apply bind_ok in E as ((n & s1) & E1 & E). apply var_int_keeps in E1 as [_ B1]; auto. apply bind_ok in E as (l & L & E). apply varint_bytes_ok in L.
  apply bind_ok in E as ((ws & s2) & E2 & E). injection E as <- <-. apply (read_n_keeps _ _ _ segwit_string_keeps) in E2 as [F B2]; auto. split; auto. rewrite bytes_ok_app, L. cbn [andb].
  clear -F. induction F; auto. cbn [concat]. rewrite bytes_ok_app, H. auto.
Qed.
Lemma deserialize_ok b t : bytes_ok b = true -> deserialize b = Ok t -> TxOk t.
Proof.
  intros B E. unfold deserialize in E. set (sw := is_segwit_bytes b) in *. pose proof (take_ok 4 b B) as [V B1]. destruct (read_bytes b 4) as [v s]. cbn [fst snd] in *.
  set (s0 := if sw then _ else s) in E. assert (B0 : bytes_ok s0 = true) by (subst s0; destruct sw; auto; apply take_ok, take_ok; auto). clearbody s0 sw.
  apply bind_ok in E as ((ni & s1) & E1 & E). apply var_int_keeps in E1 as [_ B2]; auto. apply bind_ok in E as ((ins & s2) & E1 & E). apply (read_n_keeps _ _ _ read_in_keeps) in E1 as [I B3]; auto.
  apply bind_ok in E as ((no & s3) & E1 & E). apply var_int_keeps in E1 as [_ B4]; auto. apply bind_ok in E as ((outs & s4) & E1 & E). apply (read_n_keeps _ _ _ read_out_keeps) in E1 as [O B5]; auto.
  apply bind_ok in E as ((ins' & s5) & E2 & E).
  assert (H : Forall InOk ins' /\ bytes_ok s5 = true).
  { destruct sw; [|injection E2 as <- <-; auto]. apply bind_ok in E2 as ((ws & s7) & E3 & E2). injection E2 as <- <-. apply (read_n_keeps _ _ _ witness_keeps) in E3 as [W B6]; auto. split; auto.
    apply Forall_forall. intros i Hi. apply in_map_iff in Hi as ((j & w) & <- & Hj). pose proof (in_combine_l _ _ _ _ Hj) as H1. pose proof (in_combine_r _ _ _ _ Hj) as H2.
    rewrite Forall_forall in I, W. apply I in H1. apply W in H2. unfold InOk in *. cbn. tauto. }
  destruct H as [I' B6]. pose proof (take_ok 4 s5 B6) as [L _]. destruct (read_bytes s5 4) as [lt s6]. cbn [fst snd] in L. injection E as <-. unfold TxOk, new_tx. cbn [version TxIns TxOuts locktime].
  repeat split; auto. destruct (existsb _ ins'); auto. apply Forall_forall. intros i Hi. apply in_map_iff in Hi as (j & <- & Hj). rewrite Forall_forall in I'. apply I' in Hj. unfold InOk in *. cbn.
  destruct (witness j); tauto.
Qed.

(** Of transactions read from their encodings, two are shown alike exactly if the
    encodings are the same: what repr() writes tells all of a transaction. *)
Theorem C101_tells_apart x y a b t u : t_ins x <> [] -> t_ins y <> [] -> bytes_ok a = true -> bytes_ok b = true ->
  EncSegwit x a \/ EncLegacy x a -> EncSegwit y b \/ EncLegacy y b ->
  deserialize_hex (bytes_to_hex a) = Ok t -> deserialize_hex (bytes_to_hex b) = Ok u ->
  (tx_repr t = tx_repr u <-> a = b).
Proof.
  intros NX NY BA BB EA EB Da Db. split; [|congruence]. intros R. apply (C84_read_iff x y a b t u); auto. apply C84_equal_iff.
  rewrite deserialize_hex_bytes in Da, Db by auto. apply deserialize_ok in Da, Db; auto. apply tx_repr_inj; auto.
Qed.

(** What repr() writes is an expression: a call with these arguments. *)
Definition unnamed (l : list value) : list (pystr * value) := map (fun v => ([], v)) l.
Definition in_value (i : TxIn) : value :=
  VCall (str "TxIn") (unnamed ([VBytes (script_sig i); VBytes (script_sig_len i); VBytes (txid i); VBytes (txindex i)] ++
    (if segwit_input i || negb (list_eqb (witness i) []) then [VBytes (witness i); match amount i with Some a => VBytes a | None => VNone end] else []) ++ [VBytes (sequence i)])).
Definition out_value (o : TxOut) : value := VCall (str "TxOut") (unnamed [VBytes (out_amount o); VBytes (script_pubkey o); VBytes (script_pubkey_len o)]).
Definition tx_value (t : TxObj) : value :=
  VCall (str "TxObj") (unnamed [VBytes (version t); VList (map in_value (TxIns t)); VList (map out_value (TxOuts t)); VBytes (locktime t)]).
Definition BytesIn (i : TxIn) : Prop := bytes_ok (script_sig i) = true /\ bytes_ok (script_sig_len i) = true /\ bytes_ok (txid i) = true /\ bytes_ok (txindex i) = true /\
  bytes_ok (witness i) = true /\ bytes_ok (sequence i) = true /\ (forall a, amount i = Some a -> bytes_ok a = true).
Definition BytesOut (o : TxOut) : Prop := bytes_ok (out_amount o) = true /\ bytes_ok (script_pubkey o) = true /\ bytes_ok (script_pubkey_len o) = true.

Lemma args_read l : Forall (fun p => Reads (fst p) (snd p)) l -> l <> [] -> ReadsArgs (unnamed (map fst l)) (commas (map snd l)).
Proof.
  intros F. induction F as [|(v & t) l R F IH]; [contradiction|]. intros _. destruct l as [|(w & u) l].
  - apply (A_one _ _ t); auto. constructor.
  - cbn [map unnamed fst snd]. change (commas (t :: u :: map snd l)) with (t ++ 44 :: 32 :: commas (u :: map snd l)). apply (A_more _ _ _ _ t); auto; [constructor|]. apply IH. discriminate.
Qed.
Lemma list_read {A} (f : A -> value) (g : A -> pystr) l : Forall (fun a => Reads (f a) (g a)) l -> Reads (VList (map f l)) (str "[" ++ commas (map g l) ++ str "]").
Proof.
  intros F. apply R_list. induction F as [|a l R F IH]; [constructor|]. destruct l as [|b l]; [constructor; auto|].
  cbn [map]. change (commas (g a :: g b :: map g l)) with (g a ++ 44 :: 32 :: commas (g b :: map g l)). apply L_more; auto.
Qed.
Theorem C101_shows_in i : BytesIn i -> Reads (in_value i) (in_repr i).
Proof.
  intros (A & B & C & D & E & F & G). unfold in_value, in_repr, in_is_segwit. destruct (_ || _).
  - apply (R_call (str "TxIn")). apply (args_read [(_, _); (_, _); (_, _); (_, _); (_, _); (_, _); (_, _)]); [|discriminate].
    repeat (constructor; [cbn [fst snd]; try (apply bytes_reads; assumption)|]); auto. destruct (amount i) as [a|]; [apply bytes_reads; auto|constructor].
  - apply (R_call (str "TxIn")). apply (args_read [(_, _); (_, _); (_, _); (_, _); (_, _)]); [|discriminate]. repeat (constructor; [apply bytes_reads; assumption|]); auto.
Qed.
Theorem C101_shows_out o : BytesOut o -> Reads (out_value o) (out_repr o).
Proof.
  intros (A & B & C). apply (R_call (str "TxOut")). apply (args_read [(_, _); (_, _); (_, _)]); [|discriminate]. repeat (constructor; [apply bytes_reads; assumption|]); auto.
Qed.
Theorem C101_shows t : bytes_ok (version t) = true -> Forall BytesIn (TxIns t) -> Forall BytesOut (TxOuts t) -> bytes_ok (locktime t) = true -> Reads (tx_value t) (tx_repr t).
Proof.
  intros V I O L. apply (R_call (str "TxObj")). apply (args_read [(_, _); (_, _); (_, _); (_, _)]); [|discriminate].
  constructor; [apply bytes_reads; auto|]. constructor; [apply list_read; eapply Forall_impl; [apply C101_shows_in|auto]|]. constructor; [apply list_read; eapply Forall_impl; [apply C101_shows_out|auto]|].
  constructor; [apply bytes_reads; auto|constructor].
Qed.

(** Coins. *)
Definition coin_args (u : Unspent) : list (pystr * value) :=
  [(str "amount", VInt (u_amount u)); (str "confirmations", VInt (u_confirmations u)); (str "script", VStr (u_script u)); (str "txid", VStr (u_txid u)); (str "txindex", VInt (u_txindex u));
   (str "segwit", match u_segwit u with None => VNone | Some b => VBool b end); (str "sequence", VInt (u_sequence u))].
Theorem C101_shows_coin u : Forall (fun c => 0 <= c) (u_script u) -> Forall (fun c => 0 <= c) (u_txid u) -> Reads (VCall (str "Unspent") (coin_args u)) (unspent_repr u).
Proof.
  intros S T.
  assert (AM : forall k v w l t r, Reads v t -> k <> [] -> ReadsArgs (w :: l) r -> ReadsArgs ((k, v) :: w :: l) (k ++ 61 :: t ++ 44 :: 32 :: r)).
  { intros k v w l t r R N H. pose proof (A_more k v w l t (k ++ 61 :: t) r R (N_name k t N) H) as G. rewrite <- app_assoc in G. exact G. }
  assert (AO : forall k v t, Reads v t -> k <> [] -> ReadsArgs [(k, v)] (k ++ 61 :: t)) by (intros k v t R N; apply (A_one k v t); auto; constructor; auto).
  assert (I : forall z, Reads (VInt z) (str_of_int z)) by (intros z; apply R_int, writes_int).
  assert (ST : forall s, Forall (fun c => 0 <= c) s -> Reads (VStr s) (repr_str s)) by (intros s F; apply R_str, quoted_reads; auto).
  assert (SW : Reads (match u_segwit u with None => VNone | Some b => VBool b end) (repr_bool (u_segwit u))) by (destruct (u_segwit u) as [[]|]; constructor).
  eassert (A : ReadsArgs (coin_args u) _) by (unfold coin_args; repeat (apply AM; [first [apply I|apply ST; assumption|exact SW]|discriminate|]); apply AO; [apply I|discriminate]).
  apply (R_call (str "Unspent")) in A. match type of A with Reads _ ?t => replace (unspent_repr u) with t; auto end.
  unfold unspent_repr. repeat (rewrite <- app_assoc; cbn [app]). reflexivity.
Qed.
(** The parameters of the constructors, bit/network/meta.py:30-31 and
    bit/transaction.py:57, 106. *)
Definition coin_params : list pystr := map str ["amount"; "confirmations"; "script"; "txid"; "txindex"; "type"; "vsize"; "segwit"; "sequence"]%string.
Definition in_params : list pystr := map str ["script_sig"; "txid"; "txindex"; "witness"; "amount"; "sequence"; "segwit_input"]%string.
Definition out_params : list pystr := map str ["amount"; "script_pubkey"]%string.
Lemma given_named args p v : p <> [] -> Given coin_params args p v -> Forall (fun a => fst a <> []) args -> In (p, v) args.
Proof.
  intros N [(i & _ & H)|[_ H]] F; auto. apply nth_error_In in H. rewrite Forall_forall in F. apply F in H. cbn in H. contradiction.
Qed.
Ltac pick H := cbn [In coin_args] in H; repeat (destruct H as [H|H]; [first [discriminate H | let E := fresh in pose proof (f_equal snd H) as E; cbn [snd] in E; try (injection E as <-); clear H]|]); try contradiction.
(** [e] is what the call makes: no type and no vsize given. *)
Definition Makes (args : list (pystr * value)) (e : Unspent) : Prop :=
  let G p v := Given coin_params args (str p) v in
  exists a c s t x sw q, G "amount"%string (VInt a) /\ G "confirmations"%string (VInt c) /\ G "script"%string (VStr s) /\ G "txid"%string (VStr t) /\ G "txindex"%string (VInt x) /\
    G "segwit"%string (match sw with None => VNone | Some b => VBool b end) /\ G "sequence"%string (VInt q) /\ (forall v, ~ G "type"%string v) /\ (forall v, ~ G "vsize"%string v) /\
    e = new_unspent a c s t x (str "p2pkh") None sw q.
Lemma named_args u : Forall (fun a => fst a <> []) (coin_args u).
Proof. repeat constructor; discriminate. Qed.
Lemma makes_new u e : Makes (coin_args u) e <-> e = new_unspent (u_amount u) (u_confirmations u) (u_script u) (u_txid u) (u_txindex u) (str "p2pkh") None (u_segwit u) (u_sequence u).
Proof.
  split.
  - intros (a & c & s & t & x & sw & q & A & C & S & T & X & W & Q & _ & _ & ->). pose proof (named_args u) as F. apply given_named in A, C, S, T, X, Q; auto; try discriminate.
    pick A. pick C. pick S. pick T. pick X. pick Q. unfold new_unspent. reflexivity.
  - intros ->. exists (u_amount u), (u_confirmations u), (u_script u), (u_txid u), (u_txindex u), (u_segwit u), (u_sequence u).
    repeat match goal with |- _ /\ _ => split end; try reflexivity; try (right; split; [discriminate|]; cbn [In coin_args]; auto 10; fail);
      (intros v H; apply given_named in H; [cbn [In coin_args] in H; repeat (destruct H as [H|H]; [discriminate H|]); contradiction|discriminate|apply named_args]).
Qed.
(** What is shown of a coin evaluates to a coin; it equals the one shown exactly if
    that is known not to be segwit. *)
Theorem C101_coin u : exists e, Makes (coin_args u) e /\ (unspent_eqb e u = true <-> u_segwit u = Some false).
Proof.
  eexists. split; [apply makes_new; reflexivity|]. unfold unspent_eqb. cbn [u_amount u_script u_txid u_txindex u_segwit u_sequence new_unspent]. rewrite !Z.eqb_refl, !list_eqb_refl. cbn [andb].
  rewrite andb_true_r. change (type_segwit _) with (Some false). destruct (u_segwit u) as [[]|]; cbn; split; congruence.
Qed.
(** A user may expect repr() of any coin to evaluate to it.  That of a segwit coin
    says segwit=True, but evaluates to a coin which is not segwit: the constructor
    ignores the argument. *)
Theorem C101_coin_refuted u e : u_segwit u = Some true -> Makes (coin_args u) e -> In (str "segwit", VBool true) (coin_args u) /\ u_segwit e = Some false /\ unspent_eqb e u = false.
Proof.
  intros S H. apply makes_new in H as ->. split; [unfold coin_args; rewrite S; cbn; auto 10|]. split; [reflexivity|]. unfold unspent_eqb. cbn [u_segwit new_unspent]. rewrite S.
  change (segwit_eqb (type_segwit (type_of_name (str "p2pkh"))) (Some true)) with false. rewrite andb_false_r. reflexivity.
Qed.

Lemma given_at params args n p v : NoDup params -> nth_error params n = Some p -> Forall (fun a => fst a = []) args -> Given params args p v -> nth_error args n = Some ([], v).
Proof.
  intros D N F [(i & P & A)|[NE H]].
  - enough (i = n) by (subst; auto). eapply NoDup_nth_error; eauto; [apply nth_error_Some; congruence|congruence].
  - rewrite Forall_forall in F. apply F in H. cbn in H. contradiction.
Qed.
Lemma unnamed_all l : Forall (fun a => fst a = []) (unnamed l).
Proof. induction l; constructor; auto. Qed.
Lemma in_params_once : NoDup in_params.
Proof. repeat constructor; cbn; intuition discriminate. Qed.
(** The same with an input: the length of its script is shown where the constructor
    takes the id of the transaction.  An input which is not segwit is shown as a call
    that makes another one. *)
Definition in_args (i : TxIn) : list (pystr * value) := match in_value i with VCall _ l => l | _ => [] end.
Theorem C101_in_refuted i sc d x w j : length (txid i) = 32%nat -> int_to_varint (zlen (script_sig i)) = Ok (script_sig_len i) -> segwit_input i = false -> witness i = [] ->
  let G p v := Given in_params (in_args i) (str p) v in
  G "script_sig"%string (VBytes sc) -> G "txid"%string (VBytes d) -> G "txindex"%string (VBytes x) -> G "witness"%string (VBytes w) ->
  new_in sc d x w None SEQUENCE false = Ok j -> d = script_sig_len i /\ x = txid i /\ w = txindex i /\ in_eqb j i = false /\ sequence j = [255; 255; 255; 255].
Proof.
  intros L V S W G. subst G. cbv beta. unfold in_args, in_value. rewrite S, W. cbn [orb list_eqb negb app].
  intros A D X Z N.
  apply (given_at _ _ 0) in A; auto using in_params_once, unnamed_all. apply (given_at _ _ 1) in D; auto using in_params_once, unnamed_all.
  apply (given_at _ _ 2) in X; auto using in_params_once, unnamed_all. apply (given_at _ _ 3) in Z; auto using in_params_once, unnamed_all.
  cbn in A, D, X, Z. injection A as <-. injection D as <-. injection X as <-. injection Z as <-. unfold new_in in N. apply bind_ok in N as (l & _ & N). injection N as <-.
  split; [reflexivity|]. split; [reflexivity|]. split; [reflexivity|]. split; [|reflexivity].
  destruct (in_eqb _ i) eqn:E; [|reflexivity]. exfalso. apply in_eqb_eq in E. apply (f_equal txid) in E. cbn [txid] in E. apply varint_length in V. rewrite E, L in V. repeat match type of V with context [if ?b then _ else _] => destruct b end; discriminate.
Qed.
(** The call shown for an output has an argument more than the constructor takes. *)
Definition out_args (o : TxOut) : list (pystr * value) := match out_value o with VCall _ l => l | _ => [] end.
Theorem C101_out_refuted o : TooMany out_params (out_args o).
Proof. unfold TooMany. cbn. lia. Qed.
Print Assumptions C101_tells_apart.
Print Assumptions C101_shows.
Print Assumptions C101_shows_in.
Print Assumptions C101_shows_out.
Print Assumptions C101_shows_coin.
Print Assumptions C101_coin.
Print Assumptions C101_coin_refuted.
Print Assumptions C101_in_refuted.
Print Assumptions C101_out_refuted.

(** Bytes as CPython writes them, and a coin. *)
Example C101_bytes : repr_bytes [0; 9; 10; 13; 31; 32; 34; 65; 92; 126; 127; 255] = str "b'\x00\t\n\r\x1f ""A\\~\x7f\xff'" /\ repr_bytes [39; 65] = str "b""'A""" /\ repr_bytes [39; 34] = str "b'\'""'".
Proof. repeat split. Qed.
Example C101_coin_text : unspent_repr (new_unspent 83727960 15 (str "76a91492461bde6283b461ece7ddf4dbf1e0a48bd113d888ac") (str "ab") 1 (str "np2wkh") None None 4294967295) =
  str "Unspent(amount=83727960, confirmations=15, script='76a91492461bde6283b461ece7ddf4dbf1e0a48bd113d888ac', txid='ab', txindex=1, segwit=True, sequence=4294967295)".
Proof. vm_compute. reflexivity. Qed.
Example C101_coin_hypotheses : exists u e, u_segwit u = Some true /\ Makes (coin_args u) e /\ Forall (fun c => 0 <= c) (u_script u) /\ Forall (fun c => 0 <= c) (u_txid u).
Proof.
  exists (new_unspent 83727960 15 (str "76a91492461bde6283b461ece7ddf4dbf1e0a48bd113d888ac") (str "ab") 1 (str "np2wkh") None None 4294967295). eexists.
  split; [reflexivity|]. split; [apply makes_new; reflexivity|]. split; vm_compute; repeat (apply Forall_cons; [intros X; discriminate X|]); apply Forall_nil.
Qed.
(** An input as C101_in_refuted asks for, from a transaction that was read; its
    encoding is as C101_tells_apart asks for by C24_any_hypotheses (P_wire). *)
Definition one_input : pystr := str "010000000105060708090a0b0c0d0e0f101112131415161718191a1b1c1d1e1f202122232401000000025151ffffffff01e803000000000000015100000000".
Example C101_in_hypotheses : exists t i, deserialize_hex one_input = Ok t /\ In i (TxIns t) /\ length (txid i) = 32%nat /\ int_to_varint (zlen (script_sig i)) = Ok (script_sig_len i) /\
  segwit_input i = false /\ witness i = [] /\ BytesIn i /\
  exists sc d x w, let G p v := Given in_params (in_args i) (str p) v in
    G "script_sig"%string (VBytes sc) /\ G "txid"%string (VBytes d) /\ G "txindex"%string (VBytes x) /\ G "witness"%string (VBytes w) /\ exists j, new_in sc d x w None SEQUENCE false = Ok j.
Proof.
  assert (G : match deserialize_hex one_input with Ok t => match TxIns t with i :: _ => (length (txid i) =? 32)%nat && negb (segwit_input i) && list_eqb (witness i) [] &&
      match int_to_varint (zlen (script_sig i)) with Ok l => list_eqb l (script_sig_len i) | _ => false end && bytes_ok (script_sig i) && bytes_ok (script_sig_len i) && bytes_ok (txid i) && bytes_ok (txindex i) && bytes_ok (sequence i) &&
      match amount i with None => true | _ => false end | _ => false end | _ => false end = true) by (vm_compute; reflexivity).
  destruct (deserialize_hex one_input) as [t|]; [|discriminate]. destruct (TxIns t) as [|i l] eqn:T; [discriminate|]. rewrite !andb_true_iff in G. destruct G as (((((((((G1 & G2) & G3) & G4) & G5) & G6) & G7) & G8) & G9) & G10).
  destruct (int_to_varint _) as [n|] eqn:V; [|discriminate]. apply list_eqb_eq in G4, G3. subst n. apply Nat.eqb_eq in G1. exists t, i. split; auto. rewrite T. split; [left; auto|]. split; auto. split; auto.
  assert (S : segwit_input i = false) by (destruct (segwit_input i); auto; discriminate). split; auto. split; auto. split; [unfold BytesIn; rewrite G3; destruct (amount i); [discriminate|]; repeat split; auto; discriminate|].
  exists (script_sig i), (script_sig_len i), (txid i), (txindex i). cbv zeta beta. unfold in_args, in_value. rewrite S, G3. cbn [orb list_eqb negb app].
  repeat split; [left; exists 0%nat; split; reflexivity|left; exists 1%nat; split; reflexivity|left; exists 2%nat; split; reflexivity|left; exists 3%nat; split; reflexivity|].
  unfold new_in. rewrite V. eexists. reflexivity.
Qed.
Example C101_tx_text : rmap tx_repr (deserialize_hex one_input) = Ok (str "TxObj(b'\x01\x00\x00\x00', [TxIn(b'QQ', b'\x02', b'\x05\x06\x07\x08\t\n\x0b\x0c\r\x0e\x0f\x10\x11\x12\x13\x14\x15\x16\x17\x18\x19\x1a\x1b\x1c\x1d\x1e\x1f !""#$', b'\x01\x00\x00\x00', b'\xff\xff\xff\xff')], [TxOut(b'\xe8\x03\x00\x00\x00\x00\x00\x00', b'Q', b'\x01')], b'\x00\x00\x00\x00')").
Proof. vm_compute. reflexivity. Qed.
