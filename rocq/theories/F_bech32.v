(** Bech32 strings and segwit addresses. *)
From Coq Require Import String.
From Verif Require Export F_bcherr F_convert.

(** ** Characters *)
Lemma bech_char_ok d : gf d ->
  index_of (bech_char d) CHARSET = Some d /\ py_index CHARSET d = Ok (bech_char d) /\
  bech_char d <> 49 /\ 33 <= bech_char d <= 126 /\ lower_char (bech_char d) = bech_char d /\
  lower_char (upper_char (bech_char d)) = bech_char d.
Proof.
  intros H.
  assert (C : forallb (fun d =>
     match index_of (bech_char d) CHARSET with Some i => i =? d | None => false end &&
     match py_index CHARSET d with Ok c => c =? bech_char d | _ => false end &&
     negb (bech_char d =? 49) && (33 <=? bech_char d) && (bech_char d <=? 126) &&
     (lower_char (bech_char d) =? bech_char d) &&
     (lower_char (upper_char (bech_char d)) =? bech_char d)) all32 = true) by (vm_compute; reflexivity).
  pose proof (forall32 _ C d H) as G. cbv beta in G.
  repeat (apply andb_prop in G as [G ?]).
  destruct (index_of (bech_char d) CHARSET) as [i|]; [|discriminate].
  destruct (py_index CHARSET d) as [c|]; [|discriminate].
  repeat split; try lia; f_equal; lia.
Qed.

Lemma index_CHARSET x i : index_of x CHARSET = Some i -> gf i /\ x = bech_char i.
Proof.
  intros H. apply index_of_Some in H as [H1 H2]. change (zlen CHARSET) with 32 in H1.
  split; [unfold gf; lia|]. unfold bech_char. symmetry. apply nth_error_nth. exact H2.
Qed.

Lemma bech_char_inj a b : gf a -> gf b -> bech_char a = bech_char b -> a = b.
Proof.
  intros Ha Hb E. destruct (bech_char_ok a Ha) as (H1 & _). destruct (bech_char_ok b Hb) as (H2 & _). congruence.
Qed.

Lemma mapM_CHARSET ds : Forall gf ds -> mapM (py_index CHARSET) ds = Ok (map bech_char ds).
Proof.
  intros H. apply mapM_ok. induction H; simpl; constructor; auto. apply bech_char_ok; auto.
Qed.

Lemma not_in_bech ds : Forall gf ds -> ~ In 49 (map bech_char ds).
Proof.
  intros H C. apply in_map_iff in C as (d & E & Hd). rewrite Forall_forall in H.
  destruct (bech_char_ok d (H d Hd)) as (_ & _ & N & _). auto.
Qed.

Lemma lower_bech ds : Forall gf ds -> lower (map bech_char ds) = map bech_char ds.
Proof.
  unfold lower. induction 1 as [|d ds Hd H IH]; simpl; auto. f_equal; auto. apply bech_char_ok; auto.
Qed.

(** ** Case *)
Definition printable (s : pystr) : Prop := Forall (fun x => 33 <= x <= 126) s.

Lemma lower_app a b : lower (a ++ b) = lower a ++ lower b.
Proof. apply map_app. Qed.
Lemma lower_lower_char c : lower_char (lower_char c) = lower_char c.
Proof. unfold lower_char. destruct ((65 <=? c) && (c <=? 90)) eqn:E; dif E2; lia. Qed.
Lemma lower_lower s : lower (lower s) = lower s.
Proof. unfold lower. rewrite map_map. apply map_ext. apply lower_lower_char. Qed.
Lemma upper_upper s : upper (upper s) = upper s.
Proof.
  unfold upper. rewrite map_map. apply map_ext. intros c. unfold upper_char.
  destruct ((97 <=? c) && (c <=? 122)) eqn:E; dif E2; lia.
Qed.
Lemma lower_upper s : lower (upper s) = lower s.
Proof.
  unfold lower, upper. rewrite map_map. apply map_ext. intros c. unfold upper_char, lower_char.
  destruct ((97 <=? c) && (c <=? 122)) eqn:E; destruct ((65 <=? c) && (c <=? 90)) eqn:E1;
    try (dif E2); lia.
Qed.
Lemma printable_upper s : printable s -> printable (upper s).
Proof.
  intros H. unfold printable, upper in *. apply Forall_map. eapply Forall_impl; [|exact H].
  intros c Hc. cbv beta in Hc. unfold upper_char. dif E; lia.
Qed.
Lemma lower_length s : length (lower s) = length s.
Proof. apply map_length. Qed.
Lemma upper_length s : length (upper s) = length s.
Proof. apply map_length. Qed.

(** ** The separator *)
Lemma index_of_app_notin (x : Z) a b : ~ In x a -> index_of x (a ++ x :: b) = Some (zlen a).
Proof.
  induction a as [|y a IH]; intros H; cbn [app index_of].
  - rewrite Z.eqb_refl. reflexivity.
  - replace (x =? y) with false by (symmetry; apply Z.eqb_neq; intros ->; apply H; left; auto).
    rewrite IH by (intros C; apply H; right; auto). rewrite zlen_cons. reflexivity.
Qed.

Lemma rfind_last x a t : ~ In x t -> rfind x (a ++ [x] ++ t) = Some (zlen a).
Proof.
  intros H. unfold rfind. rewrite !rev_app_distr. cbn [rev app]. rewrite <- app_assoc. cbn [app].
  rewrite index_of_app_notin by (rewrite <- in_rev; auto).
  f_equal. rewrite !zlen_app. unfold zlen. rewrite rev_length. simpl length. lia.
Qed.

Lemma rfind_None x s : ~ In x s -> rfind x s = None.
Proof.
  intros H. unfold rfind. replace (index_of x (rev s)) with (@None Z); auto.
  symmetry. apply index_of_None. rewrite <- in_rev. auto.
Qed.

Lemma last_split (x : Z) s : In x s -> exists a t, s = a ++ [x] ++ t /\ ~ In x t.
Proof.
  induction s as [|y s IH]; intros H; [contradiction|].
  destruct (In_dec Z.eq_dec x s) as [Hs|Hs].
  - destruct (IH Hs) as (a & t & -> & Ht). exists (y :: a), t. auto.
  - destruct H as [->|H]; [|contradiction]. exists [], s. auto.
Qed.

Lemma last_split_unique (x : Z) a t a' t' :
  ~ In x t -> ~ In x t' -> a ++ [x] ++ t = a' ++ [x] ++ t' -> a = a' /\ t = t'.
Proof.
  intros H H' E. pose proof (rfind_last x a t H) as R1. pose proof (rfind_last x a' t' H') as R2.
  rewrite E, R2 in R1. inv R1. unfold zlen in H1.
  apply app_inj_len in E as [-> E]; [|lia]. injection E as ->. auto.
Qed.

(** ** Decoding *)

Lemma tail_symbols tail :
  forallb (fun x => match index_of x CHARSET with Some _ => true | None => false end) tail = true ->
  Forall gf (map (fun x => match index_of x CHARSET with Some i => i | None => -1 end) tail) /\
  map bech_char (map (fun x => match index_of x CHARSET with Some i => i | None => -1 end) tail) = tail.
Proof.
  induction tail as [|x tail IH]; cbn [forallb map]; intros H; [split; constructor|].
  apply andb_prop in H as [H1 H2]. destruct (IH H2) as [I1 I2].
  destruct (index_of x CHARSET) as [i|] eqn:E; [|discriminate].
  apply index_CHARSET in E as [G ->]. split; [constructor; auto|]. f_equal; auto.
Qed.

Lemma symbols_tail ds : Forall gf ds ->
  forallb (fun x => match index_of x CHARSET with Some _ => true | None => false end) (map bech_char ds) = true /\
  map (fun x => match index_of x CHARSET with Some i => i | None => -1 end) (map bech_char ds) = ds.
Proof.
  induction 1 as [|d ds Hd H [IH1 IH2]]; cbn [map forallb]; [auto|].
  destruct (bech_char_ok d Hd) as (E & _). rewrite E, IH1, IH2. auto.
Qed.

Lemma hrp_ok_lower s a t : printable s -> lower s = a ++ t -> hrp_ok a.
Proof.
  intros H E. assert (G : hrp_ok (lower s)).
  { unfold hrp_ok, lower. apply Forall_map. eapply Forall_impl; [|exact H]. intros c Hc.
    unfold lower_char. cbv beta in *. dif E2; lia. }
  rewrite E in G. apply Forall_app in G. tauto.
Qed.

Lemma bech32_decode_iff s hrp data : bech32_decode s = Some (hrp, data) <-> BechString s hrp data.
Proof.
  unfold bech32_decode, BechString. split.
  - destruct (existsb _ s || _) eqn:E; [discriminate|]. apply orb_false_elim in E as [E1 E2].
    assert (Hp : printable s).
    { apply Forall_forall. intros x Hx.
      destruct ((x <? 33) || (126 <? x)) eqn:E; [|lia]. 
      assert (existsb (fun x => (x <? 33) || (126 <? x)) s = true); [|congruence].
      apply existsb_exists. eauto. }
    assert (Hcase : lower s = s \/ upper s = s).
    { destruct (list_eqb (lower s) s) eqn:L; [left; apply list_eqb_eq; auto|].
      destruct (list_eqb (upper s) s) eqn:U; [right; apply list_eqb_eq; auto|discriminate]. }
    destruct (In_dec Z.eq_dec 49 (lower s)) as [Hin|Hin]; [|rewrite rfind_None by auto; discriminate].
    destruct (last_split _ _ Hin) as (a & t & Es & Ht). rewrite Es, rfind_last by auto.
    destruct ((zlen a <? 1) || _ || _) eqn:B; [discriminate|].
    assert (Ef : firstn (Z.to_nat (zlen a)) (a ++ [49] ++ t) = a).
    { rewrite <- ztake_firstn. apply ztake_app. auto. }
    assert (Ek : skipn (Z.to_nat (zlen a + 1)) (a ++ [49] ++ t) = t).
    { rewrite <- zdrop_skipn, app_assoc. apply zdrop_app. rewrite zlen_app. reflexivity. }
    rewrite Ef, Ek.
    destruct (forallb _ t) eqn:F; [|discriminate]. cbn [negb]. apply tail_symbols in F as [F1 F2].
    set (ds := map _ t) in *.
    destruct (bech32_verify_checksum a ds) eqn:V; [|discriminate]. cbn [negb].
    intros H. injection H as <- <-.
    apply verify_spec in V; auto; [|eapply hrp_ok_lower; eauto].
    exists (take_last 6 ds).
    assert (Ld : length ds = length t) by apply map_length.
    assert (L6 : (6 <= length ds)%nat).
    { rewrite !zlen_app in B. unfold zlen in B. simpl length in B. lia. }
    rewrite drop_take_last, F2.
    split; auto. split; [rewrite <- Es; auto|]. split; [|split; [|split; [|split; [|split; [|split; auto]]]]].
    + rewrite <- lower_length, Es. rewrite !zlen_app in B. unfold zlen in B. rewrite !app_length. simpl length in *. lia.
    + intros ->. unfold zlen in B. simpl in B. lia.
    + apply Forall_forall. intros x Hx. rewrite Forall_forall in F1. apply F1.
      rewrite <- (drop_take_last 6 ds). apply in_or_app. auto.
    + apply Forall_forall. intros x Hx. rewrite Forall_forall in F1. apply F1.
      rewrite <- (drop_take_last 6 ds). apply in_or_app. auto.
    + rewrite take_last_length. lia.
  - intros (chk & Hp & Hc & Hl & Hh & Gd & Gc & Lc & Es & Ck).
    assert (G : Forall gf (data ++ chk)) by (apply Forall_app; auto).
    assert (E1 : existsb (fun x => (x <? 33) || (126 <? x)) s = false).
    { apply not_true_is_false. intros E. apply existsb_exists in E as (x & Hx & E).
      unfold printable in Hp. rewrite Forall_forall in Hp. specialize (Hp x Hx). cbv beta in Hp. lia. }
    rewrite E1. cbn [orb].
    assert (E2 : negb (list_eqb (lower s) s) && negb (list_eqb (upper s) s) = false).
    { destruct Hc as [-> | ->]; rewrite list_eqb_refl; simpl; auto. apply andb_false_r. }
    rewrite E2, Es, rfind_last by (apply not_in_bech; auto).
    assert (Hz : 1 <= zlen hrp).
    { destruct hrp; [contradiction|]. unfold zlen. simpl length. lia. }
    assert (Ls : length s = (length hrp + (1 + length (data ++ chk)))%nat).
    { rewrite <- lower_length, Es, !app_length, map_length, app_length. simpl. lia. }
    rewrite app_length in Ls.
    replace ((zlen hrp <? 1) || _ || _) with false.
    2:{ symmetry. rewrite !zlen_app. unfold zlen in *. rewrite map_length, app_length. simpl length. lia. }
    assert (Ef : firstn (Z.to_nat (zlen hrp)) (hrp ++ [49] ++ map bech_char (data ++ chk)) = hrp).
    { rewrite <- ztake_firstn. apply ztake_app. auto. }
    assert (Ek : skipn (Z.to_nat (zlen hrp + 1)) (hrp ++ [49] ++ map bech_char (data ++ chk)) = map bech_char (data ++ chk)).
    { rewrite <- zdrop_skipn, app_assoc. apply zdrop_app. rewrite zlen_app. reflexivity. }
    rewrite Ef, Ek. destruct (symbols_tail _ G) as [T1 T2]. rewrite T1, T2. cbn [negb].
    replace (bech32_verify_checksum hrp (data ++ chk)) with true.
    2:{ symmetry. apply verify_spec; auto. eapply hrp_ok_lower; eauto. }
    cbn [negb]. rewrite drop_last_app by auto. reflexivity.
Qed.

Lemma bech32_decode_upper s : lower s = s -> bech32_decode (upper s) = bech32_decode s.
Proof.
  intros Hs.
  assert (A : forall hrp d, bech32_decode (upper s) = Some (hrp, d) <-> bech32_decode s = Some (hrp, d)).
  { intros hrp d. rewrite !bech32_decode_iff. unfold BechString.
    split; intros (chk & Hp & Hc & Hl & Hr); exists chk.
    - rewrite lower_upper, upper_length in *. repeat split; try tauto.
      apply Forall_forall. intros x Hx. unfold printable in Hp. rewrite Forall_forall in Hp.
      assert (In (upper_char x) (upper s)) as Hu by (apply in_map; auto).
      specialize (Hp _ Hu). unfold upper_char in Hp.
      destruct ((97 <=? x) && (x <=? 122)) eqn:E; lia.
    - rewrite lower_upper, upper_length. repeat split; try tauto; [apply printable_upper; auto|].
      right. apply upper_upper. }
  destruct (bech32_decode (upper s)) as [[h d]|] eqn:E1.
  - symmetry. apply A. reflexivity.
  - destruct (bech32_decode s) as [[h d]|] eqn:E2; auto. apply A in E2 || (assert (X1 := proj2 (A h d) eq_refl)). discriminate.
Qed.

(** ** Encoding *)
Lemma create_length hrp d : length (bech32_create_checksum hrp d) = 6%nat.
Proof. reflexivity. Qed.
Lemma create_gf hrp d : Forall gf (bech32_create_checksum hrp d).
Proof. rewrite create_syms6. apply syms6_gf. Qed.

Lemma bech32_encode_ok hrp d : Forall gf d ->
  bech32_encode hrp d = Ok (hrp ++ [49] ++ map bech_char (d ++ bech32_create_checksum hrp d)).
Proof.
  intros H. unfold bech32_encode. rewrite mapM_CHARSET; auto.
  apply Forall_app. split; auto. apply create_gf.
Qed.

Definition known_hrp (hrp : pystr) : Prop := hrp = str "bc" \/ hrp = str "tb" \/ hrp = str "bcrt".

Lemma known_hrp_in hrp : in_listb hrp BECH32_VERSION_SET = true <-> known_hrp hrp.
Proof. rewrite in_listb_In. unfold BECH32_VERSION_SET, known_hrp. simpl. intuition auto. Qed.

Lemma known_hrp_props hrp : known_hrp hrp ->
  hrp_ok hrp /\ printable hrp /\ lower hrp = hrp /\ (2 <= length hrp <= 4)%nat /\ ~ In 49 hrp.
Proof.
  intros [-> | [-> | ->]];
    (split; [apply Forall_forall; intros x Hx; vm_compute in Hx; intuition lia|]);
    (split; [apply Forall_forall; intros x Hx; vm_compute in Hx; intuition lia|]);
    (split; [reflexivity|]); (split; [simpl; lia|]); simpl; lia.
Qed.

Lemma printable_bech ds : Forall gf ds -> printable (map bech_char ds).
Proof. intros H. apply Forall_map. eapply Forall_impl; [|exact H]. intros d Hd. apply bech_char_ok; auto. Qed.

Lemma encode_string hrp ds : known_hrp hrp -> Forall gf ds ->
  let s := hrp ++ [49] ++ map bech_char ds in
  printable s /\ lower s = s /\ length s = (length hrp + 1 + length ds)%nat.
Proof.
  intros Hh Hd s. destruct (known_hrp_props _ Hh) as (_ & Hp & Hl & _).
  split; [|split].
  - apply Forall_app. split; auto. constructor; [lia|]. apply printable_bech; auto.
  - unfold s. rewrite !lower_app, Hl, lower_bech; auto.
  - unfold s. rewrite !app_length, map_length. simpl. lia.
Qed.

Lemma bech32_decode_encode hrp d : known_hrp hrp -> Forall gf d -> (length hrp + 7 + length d <= 90)%nat ->
  bech32_decode (hrp ++ [49] ++ map bech_char (d ++ bech32_create_checksum hrp d)) = Some (hrp, d).
Proof.
  intros Hh Hd Hl. apply bech32_decode_iff. exists (bech32_create_checksum hrp d).
  assert (G : Forall gf (d ++ bech32_create_checksum hrp d)) by (apply Forall_app; split; auto; apply create_gf).
  destruct (encode_string hrp _ Hh G) as (P & L & N).
  destruct (known_hrp_props _ Hh) as (Ho & _ & _ & Hlen & _).
  repeat split; auto.
  - rewrite N, app_length, create_length. lia.
  - intros ->. simpl in Hlen. lia.
  - apply create_gf.
  - apply checksum_exact; auto. apply create_gf.
Qed.

Lemma bech32_decode_encode_long hrp d : known_hrp hrp -> Forall gf d -> (90 < length hrp + 7 + length d)%nat ->
  bech32_decode (hrp ++ [49] ++ map bech_char (d ++ bech32_create_checksum hrp d)) = None.
Proof.
  intros Hh Hd Hl. destruct (bech32_decode _) as [[h d']|] eqn:E; auto.
  apply bech32_decode_iff in E as (chk & _ & _ & L & _).
  rewrite !app_length, map_length, app_length, create_length in L. simpl in L. lia.
Qed.

(** ** Segwit addresses *)
Lemma Regroup_length e f : Regroup e f -> (8 * length e <= 5 * length f < 8 * length e + 5)%nat.
Proof.
  intros (k & Hk & B). apply (f_equal (@length bool)) in B.
  rewrite app_length, !bitstring_length, repeat_length in B. lia.
Qed.

Lemma segwit_decode_iff s v p : segwit_decode s = Some (v, p) <->
  exists hrp fives, known_hrp hrp /\ bech32_decode s = Some (hrp, v :: fives) /\
    Regroup p fives /\ ValidWitness v p.
Proof.
  unfold segwit_decode, ValidWitness. split.
  - destruct (bech32_decode s) as [[hrp data]|] eqn:E; [|discriminate].
    destruct (in_listb hrp BECH32_VERSION_SET) eqn:K; [|discriminate]. cbn [negb].
    apply known_hrp_in in K.
    pose proof E as E'. apply bech32_decode_iff in E' as (chk & _ & _ & _ & _ & Gd & _).
    destruct (convertbits (tl data) 5 8 false) as [dec|] eqn:C; [|discriminate].
    destruct ((zlen dec <? 2) || (40 <? zlen dec)) eqn:L; [discriminate|].
    destruct data as [|w fives]; [discriminate|]. cbn [tl] in C.
    inversion Gd as [|? ? Gw Gf]; subst.
    destruct (16 <? w) eqn:W; [discriminate|].
    destruct ((w =? 0) && _ && _) eqn:Z0; [discriminate|].
    intros H. inv H. apply convert_5_8 in C as [C1 C2]; auto.
    exists hrp, fives. split; auto. split; auto. split; auto. unfold gf in Gw. unfold zlen in *.
    split; [lia|]. split; [apply bytes_ok_Forall; auto|]. split; [lia|]. lia.
  - intros (hrp & fives & K & E & R & Hv & Hb & Hl & H0). rewrite E.
    apply known_hrp_in in K. rewrite K. cbn [negb tl].
    apply bech32_decode_iff in E as (chk & _ & _ & _ & _ & Gd & _). inv Gd.
    assert (C : convertbits fives 5 8 false = Some p).
    { apply convert_5_8; auto. split; auto. apply bytes_ok_Forall; auto. }
    rewrite C. unfold zlen.
    replace ((Z.of_nat (length p) <? 2) || (40 <? Z.of_nat (length p))) with false by lia.
    replace (16 <? v) with false by lia.
    replace ((v =? 0) && negb (Z.of_nat (length p) =? 20) && negb (Z.of_nat (length p) =? 32)) with false; auto.
    symmetry. destruct (v =? 0) eqn:E; auto. destruct H0 as [-> | ->]; auto. lia.
Qed.

Lemma segwit_encode_valid hrp v p : known_hrp hrp -> ValidWitness v p ->
  exists s, segwit_encode hrp v p = Ok (Some s) /\ SegwitAddress hrp v p s /\ segwit_decode s = Some (v, p).
Proof.
  intros K V. pose proof V as (Hv & Hb & Hl & H0).
  assert (Hok : bytes_ok p = true) by (apply bytes_ok_Forall; auto).
  destruct (convert_8_5 p Hok) as (f & C & Gf & R). unfold segwit_encode. rewrite C.
  assert (Gd : Forall gf (v :: f)) by (constructor; auto; unfold gf; lia).
  rewrite bech32_encode_ok by auto. cbn [bind].
  destruct (known_hrp_props _ K) as (Ho & _ & _ & Hlen & _).
  pose proof (Regroup_length _ _ R) as RL.
  set (s := hrp ++ [49] ++ map bech_char ((v :: f) ++ bech32_create_checksum hrp (v :: f))).
  assert (D : bech32_decode s = Some (hrp, v :: f)).
  { apply bech32_decode_encode; auto. simpl length. lia. }
  assert (SD : segwit_decode s = Some (v, p)).
  { apply segwit_decode_iff. exists hrp, f. auto. }
  exists s. rewrite SD. split; [reflexivity|]. split; auto.
  exists f, (bech32_create_checksum hrp (v :: f)).
  split; auto. split; [apply create_gf|]. split; [apply create_length|]. split; auto. split; auto.
  apply checksum_exact; auto. apply create_gf.
Qed.

Lemma segwit_encode_invalid hrp v p : known_hrp hrp -> 0 <= v < 32 -> bytes_ok p = true -> ~ ValidWitness v p ->
  segwit_encode hrp v p = Ok None.
Proof.
  intros K Hv Hb NV. destruct (convert_8_5 p Hb) as (f & C & Gf & R). unfold segwit_encode. rewrite C.
  assert (Gd : Forall gf (v :: f)) by (constructor; auto; unfold gf; lia).
  rewrite bech32_encode_ok by auto. cbn [bind].
  destruct (segwit_decode _) as [[v' p']|] eqn:D; auto. exfalso. apply NV.
  apply segwit_decode_iff in D as (hrp' & f' & K' & D & R' & V').
  destruct (Nat.lt_ge_cases 90 (length hrp + 7 + length (v :: f))) as [L|L].
  - rewrite bech32_decode_encode_long in D by auto. discriminate.
  - rewrite bech32_decode_encode in D by auto. inv D.
    replace p with p'; auto. apply (Regroup_fun_l _ _ f'); auto. apply bytes_ok_Forall. apply V'.
Qed.

Lemma segwit_encode_index hrp v p : ~ (-32 <= v < 32) -> bytes_ok p = true -> segwit_encode hrp v p = Raise IndexError.
Proof.
  intros Hv Hb. destruct (convert_8_5 p Hb) as (f & C & Gf & R). unfold segwit_encode. rewrite C.
  unfold bech32_encode. cbn [app mapM].
  assert (E : py_index CHARSET v = Raise IndexError).
  { unfold py_index. change (zlen CHARSET) with 32.
    destruct (v <? 0) eqn:Ev.
    - replace ((v + 32 <? 0) || (32 <=? v + 32)) with true by lia. reflexivity.
    - replace ((v <? 0) || (32 <=? v)) with true by lia. reflexivity. }
  rewrite E. reflexivity.
Qed.

Lemma segwit_reencode s v p : segwit_decode s = Some (v, p) ->
  exists hrp, known_hrp hrp /\ SegwitAddress hrp v p (lower s) /\ segwit_encode hrp v p = Ok (Some (lower s)).
Proof.
  intros H. pose proof H as H'. apply segwit_decode_iff in H as (hrp & f & K & D & R & V).
  exists hrp. apply bech32_decode_iff in D as (chk & Hp & Hc & Hl & Hh & Gd & Gc & Lc & Es & Ck).
  inversion Gd as [|? ? Gv Gf]; subst. split; auto. split.
  - exists f, chk. auto 10.
  - destruct (known_hrp_props _ K) as (Ho & _).
    assert (Hb : bytes_ok p = true) by (apply bytes_ok_Forall; apply V).
    unfold segwit_encode. destruct (convert_8_5 p Hb) as (f' & C & Gf' & R').
    rewrite (Regroup_fun_r _ _ _ Gf' Gf R' R) in C. rewrite C.
    rewrite bech32_encode_ok by auto. cbn [bind].
    apply checksum_exact in Ck; auto. rewrite <- Ck, <- Es.
    assert (D2 : segwit_decode (lower s) = Some (v, p)).
    { apply segwit_decode_iff. exists hrp, f. split; auto. split; auto.
      apply bech32_decode_iff. exists chk. rewrite lower_lower, lower_length.
      repeat split; auto.
      - apply Forall_map. eapply Forall_impl; [|exact Hp]. intros c Hc1. unfold lower_char. cbv beta in *. dif E; lia.
      - apply checksum_exact; auto. }
    rewrite D2. reflexivity.
Qed.

(** Address of a witness program is unique. *)
Lemma SegwitAddress_fun hrp v p s1 s2 : known_hrp hrp -> gf v -> SegwitAddress hrp v p s1 -> SegwitAddress hrp v p s2 -> s1 = s2.
Proof.
  intros K Gv (f1 & c1 & G1 & H1 & L1 & R1 & C1 & ->) (f2 & c2 & G2 & H2 & L2 & R2 & C2 & ->).
  destruct (known_hrp_props _ K) as (Ho & _).
  pose proof (Regroup_fun_r _ _ _ G1 G2 R1 R2) as ->.
  apply checksum_exact in C1; auto. apply checksum_exact in C2; auto. congruence.
Qed.

(** ** Typing errors *)
Lemma hamming_weight a b : Forall gf a -> Forall gf b -> length a = length b ->
  weight (xors a b) = hamming (map bech_char a) (map bech_char b).
Proof.
  intros Ha. revert b; induction Ha as [|x a Hx Ha IH]; intros b Hb Hl; destruct Hb as [|y b Hy Hb]; try discriminate; auto.
  unfold weight, hamming in *. cbn [map xors filter combine fst snd].
  injection Hl as Hl. specialize (IH b Hb Hl).
  assert (E : (Z.lxor x y =? 0) = (bech_char x =? bech_char y)).
  { destruct (bech_char x =? bech_char y) eqn:E.
    - apply Z.eqb_eq, bech_char_inj in E; auto. subst. rewrite Z.lxor_nilpotent. reflexivity.
    - apply Z.eqb_neq. intros C. apply lxor_cancel in C. subst. lia. }
  rewrite E. destruct (bech_char x =? bech_char y); cbn [negb length]; congruence.
Qed.

Lemma xors_gf a b : Forall gf a -> Forall gf b -> Forall gf (xors a b).
Proof.
  intros Ha. revert b; induction Ha as [|x a Hx Ha IH]; intros b Hb; destruct Hb; simpl; constructor; auto.
  apply gf_xor; auto.
Qed.

Lemma xors_length a b : length a = length b -> length (xors a b) = length a.
Proof. revert b; induction a as [|x a IH]; intros [|y b] H; try discriminate; auto. simpl. rewrite IH; auto. Qed.

Lemma xors_same_prefix p a b : length a = length b -> xors (p ++ a) (p ++ b) = repeat 0 (length p) ++ xors a b.
Proof. intros H. induction p as [|x p IH]; auto. cbn [app xors length repeat]. rewrite Z.lxor_nilpotent, IH. reflexivity. Qed.

Lemma pm0_zeros n : pm 0 (repeat 0 n) = 0.
Proof.
  induction n as [|n IH]; [reflexivity|].
  change (pm 0 (repeat 0 (S n))) with (pm (polymod_step 0 0) (repeat 0 n)).
  rewrite polymod_step_small by (unfold gf; lia). exact IH.
Qed.

(** Changing one to four characters after the separator never gives a string
    with the same human readable part that decodes. *)
Lemma typo_detected s hrp d s' hrp' d' :
  bech32_decode s = Some (hrp, d) -> bech32_decode s' = Some (hrp', d') ->
  length s' = length s ->
  firstn (S (length hrp)) (lower s') = firstn (S (length hrp)) (lower s) ->
  (1 <= hamming (lower s) (lower s') <= 4)%nat -> In 49 hrp'.
Proof.
  intros D D' Hl Hf Hw.
  apply bech32_decode_iff in D as (chk & Hp & Hc & Hls & Hh & Gd & Gc & Lc & Es & Ck).
  apply bech32_decode_iff in D' as (chk' & Hp' & Hc' & Hls' & Hh' & Gd' & Gc' & Lc' & Es' & Ck').
  destruct (In_dec Z.eq_dec 49 hrp') as [|N]; auto. exfalso.
  set (A := d ++ chk) in *. set (B := d' ++ chk') in *.
  assert (GA : Forall gf A) by (apply Forall_app; auto).
  assert (GB : Forall gf B) by (apply Forall_app; auto).
  assert (E1 : firstn (S (length hrp)) (lower s) = hrp ++ [49]).
  { rewrite Es, app_assoc. replace (S (length hrp)) with (length (hrp ++ [49])) by (rewrite app_length; simpl; lia).
    rewrite firstn_app, Nat.sub_diag, firstn_all, firstn_O. apply app_nil_r. }
  assert (Hin : exists t', lower s' = hrp ++ [49] ++ t').
  { exists (skipn (S (length hrp)) (lower s')).
    rewrite <- (firstn_skipn (S (length hrp)) (lower s')) at 1. rewrite Hf, E1, <- app_assoc. reflexivity. }
  destruct Hin as (t' & Et').
  (* hrp' has no separator, so it is hrp *)
  assert (Hsame : hrp' = hrp /\ t' = map bech_char B).
  { destruct (In_dec Z.eq_dec 49 t') as [Hi|Hi].
    - exfalso. destruct (last_split _ _ Hi) as (a & t & -> & Ht).
      rewrite Et' in Es'. rewrite !app_assoc in Es'. rewrite <- !app_assoc in Es'.
      change (hrp ++ [49] ++ a ++ [49] ++ t) with (hrp ++ ([49] ++ (a ++ ([49] ++ t)))) in Es'.
      rewrite (app_assoc [49] a), (app_assoc hrp) in Es'.
      apply last_split_unique in Es' as [E _]; auto; [|apply not_in_bech; auto].
      apply N. rewrite <- E. apply in_or_app. right. left. reflexivity.
    - rewrite Et' in Es'. apply last_split_unique in Es' as [E F]; auto. apply not_in_bech; auto. }
  destruct Hsame as [-> Et2]. subst t'.
  assert (LAB : length A = length B).
  { apply (f_equal (@length Z)) in Es. apply (f_equal (@length Z)) in Et'.
    rewrite lower_length, !app_length, map_length in Es, Et'. simpl in *. lia. }
  assert (HW : weight (xors A B) = hamming (lower s) (lower s')).
  { rewrite Es, Et', hamming_weight by auto. unfold hamming.
    assert (G : forall p a b, length (filter (fun q => negb (fst q =? snd q)) (combine (p ++ a) (p ++ b))) =
                        length (filter (fun q : Z * Z => negb (fst q =? snd q)) (combine a b))).
    { induction p as [|x p IH]; intros a b; simpl; auto. rewrite Z.eqb_refl. simpl. auto. }
    rewrite G. cbn [app combine filter fst snd]. rewrite Z.eqb_refl. reflexivity. }
  assert (Ho : hrp_ok hrp) by (eapply hrp_ok_lower; eauto).
  apply verify_spec in Ck; auto. apply verify_spec in Ck'; auto.
  unfold bech32_verify_checksum, bech32_polymod in Ck, Ck'. rewrite hrp_expand_spec in Ck, Ck'.
  apply Z.eqb_eq in Ck, Ck'. fold (pm 1 (expand_hrp hrp ++ A)) in Ck. fold (pm 1 (expand_hrp hrp ++ B)) in Ck'.
  assert (P0 : pm 0 (xors A B) = 0).
  { pose proof (pm_xors 1 1 (expand_hrp hrp ++ A) (expand_hrp hrp ++ B)) as P.
    rewrite Ck, Ck', xors_same_prefix, pm_app in P by auto.
    change (Z.lxor 1 1) with 0 in P. rewrite pm0_zeros in P. apply P. rewrite !app_length. lia. }
  revert P0. apply errors_detected; [apply xors_gf; auto| |lia].
  rewrite xors_length by auto. apply (f_equal (@length Z)) in Es.
  rewrite lower_length, !app_length, map_length in Es. simpl in Es.
  destruct hrp; [contradiction|]. simpl in Es. lia.
Qed.

(** ** Negative witness versions: Python indexes CHARSET from the end, but the
    checksum was computed with the negative number and never verifies. *)
Lemma map_bech_inj a b : Forall gf a -> Forall gf b -> map bech_char a = map bech_char b -> a = b.
Proof.
  intros Ha. revert b; induction Ha as [|x a Hx Ha IH]; intros b Hb E; destruct Hb as [|y b Hy Hb]; try discriminate; auto.
  cbn [map] in E. injection E as E1 E2. apply bech_char_inj in E1; auto. rewrite (IH b Hb E2), E1. reflexivity.
Qed.

Lemma xors_zeros_r l : xors l (repeat 0 (length l)) = l.
Proof. induction l; simpl; auto. rewrite IHl, Z.lxor_0_r. reflexivity. Qed.

Lemma neg_as_xor v : -32 <= v < 0 -> v = Z.lxor (v + 32) (-32).
Proof.
  intros H. assert (C : forallb (fun d => (Z.lxor d (-32) =? d - 32)) all32 = true) by (vm_compute; reflexivity).
  assert (G : gf (v + 32)) by (unfold gf; lia).
  pose proof (forall32 _ C _ G) as E. cbv beta in E. lia.
Qed.

Lemma neg_delta n : (1 <= n)%nat -> 0 <= pm (-32) (repeat 0 n) < 2 ^ 30 /\ pm (-32) (repeat 0 n) <> 0.
Proof.
  intros H. destruct n as [|n]; [lia|]. cbn [repeat].
  change (pm (-32) (0 :: repeat 0 n)) with (pm (polymod_step (-32) 0) (repeat 0 n)).
  assert (R : 0 <= polymod_step (-32) 0 < 2 ^ 30) by (vm_compute; split; [discriminate|reflexivity]).
  split; [apply pm_range; auto; apply Forall_zeros|].
  intros C. apply pm_zeros_inj in C; auto. vm_compute in C. discriminate.
Qed.

Lemma segwit_encode_negative hrp v p : known_hrp hrp -> -32 <= v < 0 -> bytes_ok p = true ->
  segwit_encode hrp v p = Ok None.
Proof.
  intros K Hv Hb. destruct (convert_8_5 p Hb) as (f & C & Gf & R). unfold segwit_encode. rewrite C.
  destruct (known_hrp_props _ K) as (Ho & _ & _ & _ & Hn1).
  assert (Gw : gf (v + 32)) by (unfold gf; lia).
  set (chk := bech32_create_checksum hrp (v :: f)).
  assert (Gc : Forall gf chk) by apply create_gf.
  assert (E : bech32_encode hrp (v :: f) = Ok (hrp ++ [49] ++ map bech_char ((v + 32 :: f) ++ chk))).
  { unfold bech32_encode. fold chk. cbn [app mapM map].
    assert (E1 : py_index CHARSET v = Ok (bech_char (v + 32))).
    { destruct (bech_char_ok _ Gw) as (_ & E1 & _). rewrite <- E1. unfold py_index.
      change (zlen CHARSET) with 32.
      replace (v <? 0) with true by lia. replace (v + 32 <? 0) with false by lia. cbv iota zeta.
      replace (v + 32 <? 0) with false by lia. reflexivity. }
    rewrite E1. cbn [bind]. rewrite mapM_CHARSET by (apply Forall_app; auto). reflexivity. }
  rewrite E. cbn [bind].
  set (s := hrp ++ _).
  destruct (segwit_decode s) as [[v' p']|] eqn:D; auto. exfalso.
  apply segwit_decode_iff in D as (hrp' & f' & K' & D & _ & _).
  apply bech32_decode_iff in D as (chk' & _ & _ & _ & _ & Gd & Gc' & Lc & Es & Ck).
  assert (GW : Forall gf ((v + 32 :: f) ++ chk)) by (apply Forall_app; split; auto).
  assert (GD : Forall gf ((v' :: f') ++ chk')) by (apply Forall_app; split; auto).
  assert (Ls : lower s = s) by (apply encode_string; auto).
  rewrite Ls in Es. unfold s in Es.
  apply last_split_unique in Es as [E1 E2]; try (apply not_in_bech; auto). subst hrp'.
  apply map_bech_inj in E2; auto.
  assert (Lf : length ((v + 32 :: f)) = length (v' :: f')).
  { apply (f_equal (@length Z)) in E2. rewrite !app_length in E2. unfold chk in E2. rewrite create_length in E2. lia. }
  apply app_inj_len in E2 as [E2 E3]; auto. rewrite <- E2, <- E3 in Ck.
  apply checksum_exact in Ck; auto.
  unfold chk in Ck. rewrite !create_syms6 in Ck.
  set (zs := [0;0;0;0;0;0]) in *.
  assert (Gz : Forall gf (f ++ zs)).
  { apply Forall_app; split; auto. apply (Forall_zeros 6). }
  assert (S1 : pm 1 (expand_hrp hrp ++ (v :: f) ++ zs) =
    Z.lxor (pm 1 (expand_hrp hrp ++ ((v + 32) :: f) ++ zs)) (pm (-32) (repeat 0 (length (f ++ zs))))).
  { rewrite !(pm_app 1 (expand_hrp hrp)). cbn [app]. set (c := pm 1 (expand_hrp hrp)).
    change (pm c (v :: f ++ zs)) with (pm (polymod_step c v) (f ++ zs)).
    change (pm c (v + 32 :: f ++ zs)) with (pm (polymod_step c (v + 32)) (f ++ zs)).
    assert (E0 : polymod_step c v = Z.lxor (polymod_step c (v + 32)) (-32)).
    { change (-32) with (polymod_step 0 (-32)). rewrite <- polymod_step_lxor, <- neg_as_xor, Z.lxor_0_r; auto. }
    rewrite E0.
    rewrite <- pm_xors by (rewrite repeat_length; auto). rewrite xors_zeros_r. reflexivity. }
  destruct (neg_delta (length (f ++ zs))) as [D1 D2]; [rewrite app_length; simpl; lia|].
  set (dl := pm (-32) _) in *.
  set (P := pm 1 (expand_hrp hrp ++ ((v + 32) :: f) ++ zs)) in *.
  assert (RP : 0 <= P < 2 ^ 30).
  { apply pm_range; [lia|]. apply Forall_app. split; [apply expand_hrp_gf; auto|].
    cbn [app]. constructor; auto. }
  apply (f_equal (pm 0)) in Ck. rewrite !pm_syms6 in Ck.
  - rewrite S1 in Ck. rewrite <- (Z.lxor_0_r P) in Ck at 2.
    rewrite (Z.lxor_comm _ 1), (Z.lxor_comm _ 1) in Ck. apply lxor_cancel_l in Ck. apply lxor_cancel_l in Ck. auto.
  - apply lxor_bound; lia.
  - rewrite S1. apply lxor_bound; try lia. apply lxor_bound; lia.
Qed.

Lemma segwit_encode_bad hrp v p : bytes_ok p = false -> segwit_encode hrp v p = Raise TypeError.
Proof.
  intros H. unfold segwit_encode. rewrite convertbits_bad; auto; [lia|].
  assert (G : ~ (forall x, In x p -> is_byte x = true)).
  { intros G. apply forallb_forall in G. unfold bytes_ok in H. congruence. }
  clear H. induction p as [|x p IH].
  - exfalso. apply G. intros x [].
  - destruct (is_byte x) eqn:E.
    + destruct IH as (v0 & Hv0 & Hv1).
      * intros C. apply G. intros y [->|Hy]; auto.
      * exists v0. simpl; auto.
    + exists x. split; [left; auto|]. intros C. change (2 ^ 8) with 256 in C. apply is_byte_iff in C. congruence.
Qed.

(** An address is returned exactly for the valid witness programs. *)
Lemma segwit_encode_some hrp v p s : known_hrp hrp ->
  segwit_encode hrp v p = Ok (Some s) <-> ValidWitness v p /\ SegwitAddress hrp v p s.
Proof.
  intros K. split.
  - intros H. destruct (bytes_ok p) eqn:Hb; [|rewrite segwit_encode_bad in H by auto; discriminate].
    destruct (Z_lt_dec v (-32)) as [L|L]; [rewrite segwit_encode_index in H by (auto; lia); discriminate|].
    destruct (Z_lt_dec v 0) as [L0|L0]; [rewrite segwit_encode_negative in H by (auto; lia); discriminate|].
    destruct (Z_lt_dec v 32) as [L1|L1]; [|rewrite segwit_encode_index in H by (auto; lia); discriminate].
    assert (VD : ValidWitness v p \/ ~ ValidWitness v p).
    { unfold ValidWitness.
      destruct (Z_le_dec v 16); [|right; lia].
      destruct (le_dec 2 (length p)); [|right; lia]. destruct (le_dec (length p) 40); [|right; lia].
      destruct (Z.eq_dec v 0); [|left; repeat split; try lia; apply bytes_ok_Forall; auto].
      destruct (Nat.eq_dec (length p) 20); [left; repeat split; try lia; apply bytes_ok_Forall; auto|].
      destruct (Nat.eq_dec (length p) 32); [left; repeat split; try lia; apply bytes_ok_Forall; auto|].
      right. intros (_ & _ & _ & G). destruct G; auto. }
    destruct VD as [V|NV]; [|rewrite segwit_encode_invalid in H by (auto; lia); discriminate].
    split; auto. destruct (segwit_encode_valid hrp v p K V) as (s' & E & A & _). congruence.
  - intros [V A]. destruct (segwit_encode_valid hrp v p K V) as (s' & E & A' & _).
    rewrite E. do 2 f_equal. eapply SegwitAddress_fun; eauto. destruct V. unfold gf. lia.
Qed.

(** ** Rejections *)
Lemma lower_49 s : In 49 (lower s) <-> In 49 s.
Proof.
  unfold lower. rewrite in_map_iff. split.
  - intros (c & E & H). unfold lower_char in E. destruct ((65 <=? c) && (c <=? 90)) eqn:E2; [lia|]. subst. auto.
  - intros H. exists 49. auto.
Qed.

Lemma bech32_rejects s :
  (exists a b, In a s /\ In b s /\ 97 <= a <= 122 /\ 65 <= b <= 90) \/
  (90 < length s)%nat \/
  (exists c, In c s /\ ~ 33 <= c <= 126) \/
  ~ In 49 s \/
  (exists a t, s = a ++ [49] ++ t /\ (length t < 6)%nat) \/
  (exists t, s = [49] ++ t /\ ~ In 49 t) ->
  bech32_decode s = None /\ segwit_decode s = None.
Proof.
  intros H. assert (D : bech32_decode s = None); [|split; auto; unfold segwit_decode; rewrite D; reflexivity].
  destruct (bech32_decode s) as [[hrp d]|] eqn:D; auto. exfalso.
  apply bech32_decode_iff in D as (chk & Hp & Hc & Hl & Hh & Gd & Gc & Lc & Es & Ck).
  assert (GA : Forall gf (d ++ chk)) by (apply Forall_app; auto).
  destruct H as [(a & b & Ha & Hb & La & Lb)|[H|[(c & Hc1 & Hc2)|[H|[(a & t & -> & H)|(t & -> & H)]]]]].
  - assert (P : forall f : Z -> Z, map f s = s -> forall x, In x s -> f x = x).
    { clear. induction s as [|y s IH]; intros f E x Hx; [destruct Hx|]. cbn [map] in E. injection E as E1 E2.
      destruct Hx as [<-|Hx]; auto. }
    destruct Hc as [Hc|Hc].
    + pose proof (P _ Hc b Hb) as E. unfold lower_char in E. destruct ((65 <=? b) && (b <=? 90)) eqn:E2; lia.
    + pose proof (P _ Hc a Ha) as E. unfold upper_char in E. destruct ((97 <=? a) && (a <=? 122)) eqn:E2; lia.
  - lia.
  - unfold printable in Hp. rewrite Forall_forall in Hp. specialize (Hp c Hc1). cbv beta in Hp. lia.
  - apply H. apply lower_49. rewrite Es. apply in_or_app. right. left. reflexivity.
  - rewrite !lower_app in Es. change (lower [49]) with [49] in Es.
    assert (L : (6 <= length (d ++ chk))%nat) by (rewrite app_length; lia).
    destruct (In_dec Z.eq_dec 49 t) as [Hi|Hi].
    + apply lower_49 in Hi. destruct (last_split _ _ Hi) as (a2 & t2 & E2 & Ht2).
      rewrite E2 in Es. rewrite (app_assoc [49] a2), (app_assoc (lower a)) in Es.
      apply last_split_unique in Es as [_ E3]; auto; [|apply not_in_bech; auto].
      apply (f_equal (@length Z)) in E2. rewrite lower_length, !app_length, E3, map_length in E2. lia.
    + assert (Hi' : ~ In 49 (lower t)) by (rewrite lower_49; auto).
      apply last_split_unique in Es as [_ E3]; auto; [|apply not_in_bech; auto].
      apply (f_equal (@length Z)) in E3. rewrite lower_length, map_length in E3. lia.
  - change (lower ([49] ++ t)) with ([] ++ [49] ++ lower t) in Es.
    assert (Hi' : ~ In 49 (lower t)) by (rewrite lower_49; auto).
    apply last_split_unique in Es as [E3 _]; auto. apply not_in_bech; auto.
Qed.

Lemma known_no_sep hrp : In hrp [str "bc"; str "tb"; str "bcrt"] -> ~ In 49 hrp.
Proof. intros H. apply in_listb_In in H. apply (known_hrp_in hrp) in H. apply known_hrp_props; auto. Qed.

(** A valid segwit address has its only separator right after the prefix. *)
Lemma segwit_sep s hrp d k : bech32_decode s = Some (hrp, d) -> known_hrp hrp ->
  nth_error s k = Some 49 -> k = length hrp.
Proof.
  intros D K Hk. destruct (known_hrp_props _ K) as (_ & _ & _ & _ & Hn).
  apply bech32_decode_iff in D as (chk & Hp & Hc & Hl & Hh & Gd & Gc & Lc & Es & Ck).
  assert (GA : Forall gf (d ++ chk)) by (apply Forall_app; auto).
  assert (E : nth_error (lower s) k = Some 49).
  { unfold lower. rewrite nth_error_map, Hk. reflexivity. }
  rewrite Es in E.
  destruct (Nat.lt_trichotomy k (length hrp)) as [L|[L|L]]; auto; exfalso.
  - rewrite nth_error_app1 in E by auto. apply nth_error_In in E. auto.
  - rewrite nth_error_app2 in E by lia. cbn [app] in E.
    destruct (k - length hrp)%nat as [|j] eqn:Ej; [lia|]. cbn [nth_error] in E. apply nth_error_In in E.
    revert E. apply not_in_bech; auto.
Qed.

Lemma segwit_typo s ver prog s' k :
  segwit_decode s = Some (ver, prog) ->
  length s' = length s ->
  nth_error s k = Some 49 ->
  firstn (S k) (lower s') = firstn (S k) (lower s) ->
  (1 <= hamming (lower s) (lower s') <= 4)%nat ->
  segwit_decode s' = None /\
  forall hrp data, bech32_decode s' = Some (hrp, data) -> ~ In hrp [str "bc"; str "tb"; str "bcrt"].
Proof.
  intros D Hl Hk Hf Hw. apply segwit_decode_iff in D as (hrp & f & K & D & _ & _).
  rewrite (segwit_sep _ _ _ _ D K Hk) in Hf.
  assert (G : forall hrp' d', bech32_decode s' = Some (hrp', d') -> ~ In hrp' [str "bc"; str "tb"; str "bcrt"]).
  { intros hrp' d' D' C. apply known_no_sep in C. apply C. exact (typo_detected _ _ _ _ _ _ D D' Hl Hf Hw). }
  split; auto. destruct (segwit_decode s') as [[v' p']|] eqn:D'; auto. exfalso.
  apply segwit_decode_iff in D' as (hrp' & f' & K' & D' & _ & _). apply (G _ _ D').
  apply in_listb_In, (known_hrp_in hrp'). auto.
Qed.
