(** C100: the command "bit gen". *)
From Coq Require Import String.
From Verif Require Import M_cli S_Base58 S_Addr S_Keygen S_Decimal S_Numeral S_Cli F_base F_base58 F_decimal P_keys P_keygen P_numeral X_toy.

Section WithCrypto.
Context {CR : Crypto} (HO : HashOk CR) (EO : EcOk CR).

Lemma writes_int k : WritesInt k (str_of_int k).
Proof.
  unfold str_of_int. destruct (digits_spec (Z.abs k)) as (D & NE & D0 & D1); [lia|]. exists (digits (Z.abs k)). split; auto. split.
  - destruct (Z.ltb_spec k 0); [left|right]; auto.
  - destruct (Z.eq_dec (Z.abs k) 0) as [Q|Q]; [left; rewrite D0; auto|right]. destruct D1 as (d & r & E & Hd); [lia|]. exists d, r. auto.
Qed.
Lemma with_one prefix p : Wanted prefix p -> WithOne prefix p.
Proof. intros [r|c r N]; [exists r; auto|]. exists (c :: r). auto. Qed.

(** Nothing is shown after the result. *)
Definition quiet (e : event) : Prop := match e with Shown _ | Printed _ _ => False | _ => True end.
Definition unfinished (e : event) : Prop := match e with Printed _ _ => False | _ => True end.
Lemma finishes p n t st : steps p (search n) t st ->
  match main st with
  | Finished => exists t1 w a t2, t = t1 ++ Printed w a :: t2 /\ Forall unfinished t1 /\ Forall quiet t2
  | _ => Forall unfinished t
  end.
Proof.
  intros R. remember (search n) as s0. induction R as [st|st t st1 es st2 R IH S]; subst; [constructor|]. specialize (IH eq_refl).
  assert (AP : forall es, Forall unfinished t -> Forall unfinished es -> Forall unfinished (t ++ es)) by (intros; apply Forall_app; auto).
  inversion S; subst; cbn [main] in *; try (destruct m);
    try (apply AP; [exact IH|repeat constructor]);
    try (destruct IH as (t1 & w & a0 & t2 & -> & F1 & F2); exists t1, w, a0; eexists; rewrite <- app_assoc; cbn [app]; split; [reflexivity|];
         split; auto; apply Forall_app; split; auto; repeat constructor).
  exists t, (bytes_to_wif s Main false), a, []. auto.
Qed.
Lemma quiet_text t : Forall quiet t -> concat (map shown_text t) = [].
Proof. induction 1 as [|x t Q F IH]; auto. cbn [map concat]. rewrite IH, app_nil_r. destruct x; auto; destruct Q. Qed.
Lemma progress_text t : Forall unfinished t -> exists l, concat (map shown_text t) = concat l /\ Forall (fun x => exists k, Progress k x) l.
Proof.
  induction 1 as [|x t Q F (l & E & P)]; [exists []; auto|]. destruct x; cbn [map concat shown_text]; try (exists l; auto; fail); [|destruct Q].
  exists ((str "Keys generated: " ++ str_of_int k ++ [13]) :: l). rewrite E. split; [reflexivity|]. constructor; auto. exists k, (str_of_int k). split; auto. apply writes_int.
Qed.

(** What is written is a key and the address of its compressed public key, which
    begins as asked, after any number of progress messages. *)
Theorem C100_writes prefix cores available out : 1 <= available -> gen prefix cores available out None ->
  exists s w a, NewSecret s /\ CompressedAddress s a /\ UncompressedWif s w /\
    if list_eqb prefix [] then out = PairLine w a
    else exists l p rest, out = concat l ++ Result w a /\ Forall (fun x => exists k, Progress k x) l /\ WithOne prefix p /\ a = p ++ rest.
Proof.
  intros A G. inversion G as [secret w a N E EO'|secret p n t st N E R M EO'|]; subst.
  - pose proof (C63_arguments EO prefix (cores_of_text cores) available secret A N) as Q. rewrite E in Q. subst prefix. cbn in E.
    destruct (C64_pairs HO EO secret N) as (w' & a' & E' & HA & HW). rewrite E' in E. injection E as <- <-. exists secret, w', a'. do 3 (split; auto).
    unfold PairLine, pair_text. cbn [list_eqb]. rewrite <- !app_assoc. reflexivity.
  - pose proof (finishes _ _ _ _ R) as F. rewrite M in F. destruct F as (t1 & w & a & t2 & -> & F1 & F2).
    destruct (C63_prefix HO prefix (cores_of_text cores) available secret p n t1 w a t2 st E R) as (i & s & rest & _ & NS & CA & UW & W & EA & _).
    exists s, w, a. do 3 (split; auto). pose proof (with_one _ _ W) as WO.
    assert (list_eqb prefix [] = false) as -> by (destruct W; reflexivity).
    destruct (progress_text t1 F1) as (l & El & Fl). exists l, p, rest. split; auto.
    rewrite map_app, concat_app. cbn [map concat]. rewrite El, (quiet_text t2 F2), app_nil_r. unfold shown_text, Result. cbn [app]. repeat (rewrite <- app_assoc; cbn [app]). reflexivity.
Qed.
(** When it refuses, and how. *)
Theorem C100_refused prefix cores available : 1 <= available -> (exists s, NewSecret s) ->
  ((exists e out, gen prefix cores available out (Some e)) <->
   (exists c, In c prefix /\ digit58 c = None) \/ prefix <> [] /\ cores <> str "all" /\ forall z, ~ ReadsInt z cores) /\
  forall e out, gen prefix cores available out (Some e) -> e = ValueError /\ out = [].
Proof.
  intros A (s0 & N0).
  assert (BC : cores_of_text cores = BadCores <-> cores <> str "all" /\ forall z, ~ ReadsInt z cores).
  { unfold cores_of_text. destruct (list_eqb cores (str "all")) eqn:L.
    - apply list_eqb_eq in L. split; [discriminate|]. intros [Q _]. contradiction.
    - assert (NA : cores <> str "all") by (intros ->; vm_compute in L; discriminate). split.
      + intros E. split; auto. intros z Z0. apply reads_int in Z0. rewrite Z0 in E. discriminate.
      + intros [_ Z0]. rewrite (refuses_int _ Z0). reflexivity. }
  split; [split|].
  - intros (e & out & G). inversion G as [| |secret e' N E]; subst. pose proof (C63_arguments EO prefix (cores_of_text cores) available secret A N) as Q. rewrite E in Q.
    destruct Q as [_ [Q|[Q1 Q2]]]; auto. right. split; auto. apply BC. auto.
  - intros H. assert (E : exists e, generate_matching_address prefix (cores_of_text cores) available s0 = Raise e).
    { pose proof (C63_arguments EO prefix (cores_of_text cores) available s0 A N0) as Q.
      destruct (generate_matching_address prefix (cores_of_text cores) available s0) as [[x|(p & n)]|e] eqn:E; [| |eauto]; exfalso.
      - subst prefix. destruct H as [(c & [] & _)|[H _]]. contradiction.
      - destruct Q as (W & F & _ & Q). destruct H as [(c & I & D)|[_ H]]; [rewrite Forall_forall in F; apply (F c I D)|]. apply BC in H. rewrite H in Q. exact Q. }
    destruct E as (e & E). exists e, []. eapply G_raise; eauto.
  - intros e out G. inversion G as [| |secret e' N E]; subst. pose proof (C63_arguments EO prefix (cores_of_text cores) available secret A N) as Q. rewrite E in Q. split; [apply Q|reflexivity].
Qed.

(** The result can be read off the text, whatever was written before. *)
Lemma app_last_sep (c : Z) x y x' y' : ~ In c y -> ~ In c y' -> x ++ c :: y = x' ++ c :: y' -> x = x' /\ y = y'.
Proof.
  revert x'. induction x as [|b x IH]; intros [|b' x'] N N' E; cbn in E.
  - injection E as ->. auto.
  - injection E as -> ->. destruct N. apply in_or_app. right. left. auto.
  - injection E as -> <-. destruct N'. apply in_or_app. right. left. auto.
  - injection E as -> E. destruct (IH x' N N' E) as [-> ->]. auto.
Qed.
Lemma base58_lines p s : Base58CheckStr p s -> ~ In 10 s.
Proof.
  intros (k & b' & s' & ds & _ & -> & _ & _ & F & _) I. apply in_app_or in I as [I|I]; [apply repeat_spec in I; discriminate|].
  clear -F I. induction F as [|c d l ds Q F IH]; [destruct I|]. destruct I as [->|I]; auto. vm_compute in Q. discriminate.
Qed.
Theorem C100_reads before before' s s' w w' a a' : CompressedAddress s a -> CompressedAddress s' a' -> UncompressedWif s w -> UncompressedWif s' w' ->
  before ++ Result w a = before' ++ Result w' a' -> w = w' /\ a = a'.
Proof.
  intros A A' W W' E. unfold Result in E. apply base58_lines in A, A', W, W'.
  assert (E1 : forall b w a, b ++ [10; 10] ++ str "WIF: " ++ w ++ 10 :: str "Address: " ++ a ++ [10; 10] =
    ((b ++ [10] ++ 10 :: str "WIF: " ++ w) ++ 10 :: str "Address: " ++ a) ++ [10; 10]).
  { intros b w0 a0. cbn [app]. repeat (rewrite <- app_assoc; cbn [app]). reflexivity. }
  rewrite !E1 in E. apply app_inv_tail in E.
  assert (NA : forall a, ~ In 10 a -> ~ In 10 (str "Address: " ++ a)).
  { intros x N I. apply in_app_or in I as [I|I]; auto. vm_compute in I. repeat destruct I as [I|I]; try discriminate; auto. }
  apply app_last_sep in E as [E EA]; auto. apply app_inv_head in EA. split; auto.
  assert (NW : forall a, ~ In 10 a -> ~ In 10 (str "WIF: " ++ a)).
  { intros x N I. apply in_app_or in I as [I|I]; auto. vm_compute in I. repeat destruct I as [I|I]; try discriminate; auto. }
  rewrite !(app_assoc _ [10]) in E.
  apply (app_last_sep 10 (before ++ [10]) (str "WIF: " ++ w) (before' ++ [10]) (str "WIF: " ++ w')) in E as [_ E]; auto. apply app_inv_head in E. auto.
Qed.
End WithCrypto.
Print Assumptions C100_writes.
Print Assumptions C100_refused.
Print Assumptions C100_reads.

(** ** Examples: a run of two processes that ends, and arguments *)
Lemma toy_run p (s : bytes) : @NewSecret toy s -> startswith p (@pair_address toy s) = true -> exists t st, @steps toy p (search 4) t st /\ main st = Finished.
Proof.
  intros N F. destruct (@C63_progress toy p 4 [] (search 4) s N F) as [(w & a & [])|(t & st & w & a & R & H)]; [lia|constructor|reflexivity|].
  exists t, st. split; auto. pose proof (finishes p 4 t st R) as Q. destruct (main st); auto; rewrite Forall_forall in Q; destruct (Q _ H).
Qed.
Example C100_case : exists out, @gen toy (tl vprefix) (str " 4 ") 8 out None.
Proof.
  destruct C63_hypotheses as (N & _ & F & _). destruct (toy_run vprefix vanity N F) as (t & st & R & M).
  eexists. eapply G_search; [exact N| |exact R|exact M]. vm_compute. reflexivity.
Qed.
Lemma no_prefix {CR : Crypto} c n s : generate_matching_address [] c n s = rmap inl (generate_key_address_pair s).
Proof. reflexivity. Qed.
Example C100_pair_case : exists w a, @gen toy [] (str "x") 8 (PairLine w a) None /\ a = @pair_address toy vanity.
Proof.
  destruct C63_hypotheses as (N & _). destruct (@generate_key_address_pair toy vanity) as [(w & a)|] eqn:E; [|vm_compute in E; discriminate].
  exists w, a. split; [|vm_compute in E |- *; congruence]. replace (PairLine w a) with (pair_text w a ++ [10]) by (unfold PairLine, pair_text; rewrite <- !app_assoc; reflexivity).
  apply (G_pair [] (str "x") 8 vanity); [exact N|]. rewrite no_prefix, E. reflexivity.
Qed.
Example C100_refused_case : @gen toy (str "0O") (str "all") 8 [] (Some ValueError) /\ @gen toy (str "ab") (str "two") 8 [] (Some ValueError).
Proof. destruct C63_hypotheses as (N & _). split; eapply G_raise; try exact N; reflexivity. Qed.
