(** Multisig inputs: reading signatures back, and one signing step. *)
From Verif Require Export F_spend.

Section WithCrypto.
Context {CR : Crypto}.

(** ** get_signatures_from_script *)
Definition scan (s : bytes) : result (list bytes) := get_sigs_loop (length s) s.

Lemma read_var_int_shorter s v r : read_var_int s = Ok (v, r) -> (length r < length s)%nat.
Proof.
  unfold read_var_int. destruct s as [|b s]; [discriminate|]. destruct (b <? 253).
  - intros E. injection E as _ <-. cbn. lia.
  - unfold read_as_int. destruct (ztake _ s) as [|c l] eqn:Q; [discriminate|]. intros E. injection E as _ <-.
    unfold zdrop. rewrite skipn_length. cbn. lia.
Qed.

(** Running out of fuel cannot happen. *)
Lemma get_sigs_fuel s : forall f g, (length s <= f)%nat -> (length s <= g)%nat -> get_sigs_loop f s = get_sigs_loop g s.
Proof.
  induction s as [s IH] using (induction_ltof1 _ (@length Z)). intros f g Hf Hg.
  destruct s as [|b s0]; [destruct f, g; reflexivity|]. destruct f as [|f], g as [|g]; try (cbn in *; lia). cbn [get_sigs_loop].
  destruct (read_var_int (b :: s0)) as [[v r]|e] eqn:E; [|reflexivity]. cbn [bind]. apply read_var_int_shorter in E.
  cbn [read_bytes]. unfold read_bytes. assert (L : (length (zdrop v r) <= length r)%nat) by (unfold zdrop; rewrite skipn_length; lia).
  rewrite (IH (zdrop v r)) with (f := f) (g := g); [reflexivity| | |]; unfold ltof; cbn [length] in *; lia.
Qed.
Lemma scan_fuel f s : (length s <= f)%nat -> get_sigs_loop f s = scan s.
Proof. intros H. apply get_sigs_fuel; auto. Qed.
Lemma get_signatures_scan script : get_signatures_from_script script = scan (tl script).
Proof. unfold get_signatures_from_script. apply scan_fuel. destruct script; cbn; lia. Qed.

Lemma scan_nil : scan [] = Ok [].
Proof. reflexivity. Qed.
Lemma scan_step s v r : s <> [] -> read_var_int s = Ok (v, r) ->
  scan s = bind (scan (zdrop v r)) (fun rest => Ok (if der_ok (drop_last 1 (ztake v r)) then ztake v r :: rest else rest)).
Proof.
  intros NE E. unfold scan at 1. destruct s as [|b s0]; [contradiction|]. cbn [length get_sigs_loop]. rewrite E. cbn [bind]. unfold read_bytes.
  rewrite scan_fuel; [reflexivity|]. apply read_var_int_shorter in E. unfold zdrop. rewrite skipn_length. cbn in E. lia.
Qed.
Lemma scan_item g n r : CompactSize (zlen g) n ->
  scan (n ++ g ++ r) = bind (scan r) (fun rest => Ok (if der_ok (drop_last 1 g) then g :: rest else rest)).
Proof.
  intros C. assert (NE : n ++ g ++ r <> []) by (inversion C; discriminate).
  rewrite (scan_step _ _ _ NE (read_var_cs _ _ (g ++ r) C)).
  assert (RB : read_bytes (g ++ r) (zlen g) = (g, r)) by (apply read_bytes_app; auto). unfold read_bytes in RB. injection RB as -> ->. reflexivity.
Qed.

(** A byte string that ends in OP_CHECKMULTISIG is always read to the end, and
    what is found are parts of it. *)
Lemma scan_garbage whole s : (exists a, whole = a ++ s) -> (s <> [] -> exists a, s = a ++ [0xae]) ->
  exists l, scan s = Ok l /\ Forall (fun g => der_ok (drop_last 1 g) = true /\ exists a b, whole = a ++ g ++ b) l.
Proof.
  induction s as [s IH] using (induction_ltof1 _ (@length Z)). intros (pre & W) E.
  destruct s as [|b s0]; [exists []; split; [reflexivity|constructor]|].
  specialize (E ltac:(discriminate)). destruct E as (a & E).
  assert (exists v r, read_var_int (b :: s0) = Ok (v, r)) as (v & r & R).
  { unfold read_var_int. destruct (b <? 253) eqn:B; [eauto|]. unfold read_as_int. destruct s0 as [|c s1].
    - exfalso. destruct a as [|a0 a]; [|destruct a; discriminate]. cbn in E. injection E as ->. discriminate.
    - destruct (ztake (2 ^ (b - 252)) (c :: s1)) as [|d l] eqn:Q; [|eauto]. exfalso. rewrite ztake_firstn in Q.
      assert (0 < 2 ^ (b - 252)) by (apply Z.pow_pos_nonneg; lia). destruct (Z.to_nat (2 ^ (b - 252))) eqn:QQ; [lia|discriminate]. }
  assert (SUF : exists c, b :: s0 = c ++ r).
  { unfold read_var_int in R. destruct (b <? 253); [injection R as _ <-; exists [b]; reflexivity|].
    unfold read_as_int in R. destruct (ztake _ s0) eqn:Q; [discriminate|]. injection R as _ <-.
    exists (b :: ztake (2 ^ (b - 252)) s0). cbn [app]. rewrite take_drop_z. reflexivity. }
  pose proof (read_var_int_shorter _ _ _ R) as Lr.
  assert (NB : b :: s0 <> []) by discriminate. rewrite (scan_step _ _ _ NB R). destruct SUF as (c & Q).
  assert (QR : r = ztake v r ++ zdrop v r) by (symmetry; apply take_drop_z).
  destruct (IH (zdrop v r)) as (l & S & F).
  - unfold ltof. unfold zdrop. rewrite skipn_length. lia.
  - exists (pre ++ c ++ ztake v r). rewrite W, Q. rewrite QR at 1. rewrite <- !app_assoc. reflexivity.
  - intros NE. rewrite E in Q. rewrite QR, app_assoc in Q. destruct (exists_last NE) as (q & y & Qy). rewrite Qy in Q.
    rewrite app_assoc in Q. apply app_inj_tail in Q as [_ <-]. exists q. auto.
  - rewrite S. cbn [bind]. eexists. split; [reflexivity|]. destruct (der_ok _) eqn:D; auto. constructor; auto. split; auto.
    exists (pre ++ c), (zdrop v r). rewrite W, Q. rewrite QR at 1. rewrite <- !app_assoc. reflexivity.
Qed.

(** ** Tables of signatures by public key *)
Definition sigmap := bytes -> option bytes.
Definition sigs_of (s : sigmap) (pubs : list bytes) : list bytes :=
  flat_map (fun p => match s p with Some g => [g] | None => [] end) pubs.
Definition sset (s : sigmap) (p g : bytes) : sigmap := fun q => if list_eqb p q then Some g else s q.

Lemma dict_get_set {A} k v (d : list (bytes * A)) q : dict_get q (dict_set k v d) = if list_eqb k q then Some v else dict_get q d.
Proof.
  induction d as [|[k' v'] d IH]; cbn [dict_set dict_get]; auto. destruct (list_eqb k' k) eqn:E; cbn [dict_get].
  - apply list_eqb_eq in E. subst k'. destruct (list_eqb k q); auto.
  - rewrite IH. destruct (list_eqb k' q) eqn:E'; auto. destruct (list_eqb k q) eqn:E''; auto.
    apply list_eqb_eq in E', E''. subst. rewrite list_eqb_refl in E. discriminate.
Qed.
Lemma dict_set_len {A} k v (d : list (bytes * A)) : dict_get k d = None -> length (dict_set k v d) = S (length d).
Proof.
  induction d as [|[k' v'] d IH]; cbn [dict_set dict_get length]; auto. destruct (list_eqb k' k); [discriminate|]. intros H. cbn [length]. auto.
Qed.
Lemma dict_set_idem {A} k v (d : list (bytes * A)) : dict_set k v (dict_set k v d) = dict_set k v d.
Proof.
  induction d as [|[k' v'] d IH]; cbn [dict_set]; [rewrite list_eqb_refl; auto|]. destruct (list_eqb k' k) eqn:E; cbn [dict_set].
  - rewrite list_eqb_refl. reflexivity.
  - rewrite E, IH. reflexivity.
Qed.

Definition VerifiesOnly (g hash p : bytes) (pubs : list bytes) : Prop :=
  forall q, In q pubs -> ec_verify (drop_last 1 g) hash q = Ok (list_eqb p q).
Definition VerifiesNone (g hash : bytes) (pubs : list bytes) : Prop :=
  forall q, In q pubs -> ec_verify (drop_last 1 g) hash q = Ok false.

Lemma match_keys_none g hash pubs d : VerifiesNone g hash pubs -> match_keys g hash pubs d = Ok d.
Proof.
  intros V. induction pubs as [|q pubs IH]; cbn [match_keys]; auto. rewrite V by (left; auto). cbn [bind]. apply IH.
  intros r Hr. apply V. right. auto.
Qed.
Lemma match_keys_only g hash p pubs d : VerifiesOnly g hash p pubs -> In p pubs -> match_keys g hash pubs d = Ok (dict_set p g d).
Proof.
  assert (W : forall l d, VerifiesOnly g hash p l -> match_keys g hash l (dict_set p g d) = Ok (dict_set p g d)).
  { induction l as [|q l IH]; intros d0 V; cbn [match_keys]; auto. rewrite V by (left; auto). cbn [bind].
    assert (VL : VerifiesOnly g hash p l) by (intros r Hr; apply V; right; auto).
    destruct (list_eqb p q) eqn:E; auto. apply list_eqb_eq in E. subst q. rewrite dict_set_idem. auto. }
  intros V I. induction pubs as [|q pubs IH]; [destruct I|]. cbn [match_keys]. rewrite V by (left; auto). cbn [bind].
  assert (VL : VerifiesOnly g hash p pubs) by (intros r Hr; apply V; right; auto).
  destruct (list_eqb p q) eqn:E.
  - apply list_eqb_eq in E. subst q. auto.
  - apply IH; auto. destruct I as [<-|I]; auto. rewrite list_eqb_refl in E. discriminate.
Qed.

Lemma match_sigs_app l1 l2 hash pubs d : match_sigs (l1 ++ l2) hash pubs d = bind (match_sigs l1 hash pubs d) (match_sigs l2 hash pubs).
Proof.
  revert d. induction l1 as [|g l1 IH]; intros d; cbn [app match_sigs bind]; auto.
  destruct (match_keys g hash pubs d); cbn [bind]; auto.
Qed.
Lemma match_sigs_none l hash pubs d : Forall (fun g => VerifiesNone g hash pubs) l -> match_sigs l hash pubs d = Ok d.
Proof.
  revert d. induction l as [|g l IH]; intros d F; cbn [match_sigs]; auto. apply Forall_cons_iff in F as [F1 F2].
  rewrite match_keys_none by auto. cbn [bind]. auto.
Qed.

Lemma match_sigs_map (s : sigmap) hash pubs : (forall p g, In p pubs -> s p = Some g -> VerifiesOnly g hash p pubs) ->
  forall l d, incl l pubs -> NoDup l -> (forall p, In p l -> dict_get p d = None) ->
  exists d', match_sigs (sigs_of s l) hash pubs d = Ok d' /\ length d' = (length d + length (sigs_of s l))%nat /\
    (forall q, dict_get q d' = match dict_get q d with Some v => Some v | None => if existsb (fun p => list_eqb p q) l then s q else None end).
Proof.
  intros V. induction l as [|p l IH]; intros d I ND H; cbn [sigs_of flat_map].
  - exists d. cbn. split; auto. split; [lia|]. intros q. destruct (dict_get q d); auto.
  - apply NoDup_cons_iff in ND as [NI ND]. fold (sigs_of s l). assert (I' : incl l pubs) by (intros q Hq; apply I; right; auto).
    destruct (s p) as [g|] eqn:Sp.
    + cbn [app match_sigs length]. rewrite (match_keys_only g hash p) by (try apply (V p g); auto; apply I; left; auto). cbn [bind].
      destruct (IH (dict_set p g d) I' ND) as (d' & E & L & G).
      { intros q Hq. rewrite dict_get_set. destruct (list_eqb p q) eqn:Q; [apply list_eqb_eq in Q; subst; contradiction|]. apply H. right. auto. }
      exists d'. split; auto. split; [rewrite L, dict_set_len by (apply H; left; auto); lia|].
      intros q. rewrite G, dict_get_set. cbn [existsb]. destruct (list_eqb p q) eqn:Q; cbn [orb]; auto.
      apply list_eqb_eq in Q. subst q. rewrite (H p (or_introl eq_refl)). auto.
    + cbn [app length]. destruct (IH d I' ND) as (d' & E & L & G); [intros q Hq; apply H; right; auto|].
      exists d'. split; auto. split; auto. intros q. rewrite G. cbn [existsb]. destruct (dict_get q d); auto.
      destruct (list_eqb p q) eqn:Q; cbn [orb]; auto. apply list_eqb_eq in Q. subst q. rewrite Sp. destruct (existsb (fun x => list_eqb x p) l); auto.
Qed.

(** ** Writing signatures *)
Definition lenbytes (g : bytes) : bytes := zlen g :: g.
Lemma write_sigs_ok seg pubs d (s : sigmap) : (forall p, In p pubs -> dict_get p d = s p) ->
  (forall p g, In p pubs -> s p = Some g -> (length g <= 75)%nat) ->
  write_sigs seg pubs d = Ok (concat (map lenbytes (sigs_of s pubs))).
Proof.
  intros H L. induction pubs as [|p pubs IH]; cbn [write_sigs sigs_of flat_map]; auto. fold (sigs_of s pubs).
  assert (IH' : write_sigs seg pubs d = Ok (concat (map lenbytes (sigs_of s pubs)))).
  { apply IH; intros; [apply H|eapply L]; eauto; right; auto. }
  rewrite H by (left; auto). destruct (s p) as [g|] eqn:E; cbn [app]; auto.
  specialize (L p g (or_introl eq_refl) E).
  assert (Q : (if seg : bool then int_to_varint (zlen g) else script_push (zlen g)) = Ok [zlen g]).
  { destruct seg; [apply varint_spec; constructor; unfold zlen; lia|apply script_push_small; unfold zlen; lia]. }
  rewrite Q. cbn [bind]. rewrite IH'. cbn [bind map concat lenbytes]. reflexivity.
Qed.

Lemma sigs_of_ext (s s' : sigmap) pubs : (forall p, In p pubs -> s p = s' p) -> sigs_of s pubs = sigs_of s' pubs.
Proof.
  induction pubs as [|p pubs IH]; intros H; auto. cbn [sigs_of flat_map]. rewrite (H p (or_introl eq_refl)). f_equal.
  apply IH. intros q Hq. apply H. right. auto.
Qed.
Lemma sigs_of_in (s : sigmap) pubs g : In g (sigs_of s pubs) -> exists p, In p pubs /\ s p = Some g.
Proof.
  intros H. apply in_flat_map in H as (p & Hp & H). destruct (s p) as [h|] eqn:E; [|destruct H]. destruct H as [->|[]]. eauto.
Qed.
Lemma sigs_of_none (s : sigmap) pubs : (forall p, In p pubs -> s p = None) -> sigs_of s pubs = [].
Proof. intros H. rewrite (sigs_of_ext s (fun _ => None)) by auto. induction pubs; auto. apply IHpubs. intros. apply H. right. auto. Qed.
Lemma sigs_of_set_new (s : sigmap) p g pubs : NoDup pubs -> In p pubs -> s p = None -> length (sigs_of (sset s p g) pubs) = S (length (sigs_of s pubs)).
Proof.
  induction pubs as [|q pubs IH]; intros ND I N; [destruct I|]. apply NoDup_cons_iff in ND as [NI ND]. cbn [sigs_of flat_map].
  fold (sigs_of s pubs). fold (sigs_of (sset s p g) pubs). rewrite !app_length. unfold sset at 1. destruct (list_eqb p q) eqn:E.
  - apply list_eqb_eq in E. subst q. rewrite N. cbn [length]. rewrite (sigs_of_ext (sset s p g) s); [lia|].
    intros q Hq. unfold sset. destruct (list_eqb p q) eqn:E; auto. apply list_eqb_eq in E. subst. contradiction.
  - destruct I as [->|I]; [rewrite list_eqb_refl in E; discriminate|]. rewrite IH by auto. lia.
Qed.
Lemma sigs_of_set_old (s : sigmap) p g g' pubs : s p = Some g' -> length (sigs_of (sset s p g) pubs) = length (sigs_of s pubs).
Proof.
  intros N. induction pubs as [|q pubs IH]; auto. cbn [sigs_of flat_map].
  fold (sigs_of s pubs). fold (sigs_of (sset s p g) pubs). rewrite !app_length, IH. f_equal. unfold sset. destruct (list_eqb p q) eqn:E; auto.
  apply list_eqb_eq in E. subst q. rewrite N. reflexivity.
Qed.

End WithCrypto.
