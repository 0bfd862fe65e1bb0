(** C21: which multisig wallets can be made. *)
From Coq Require Import Permutation Sorting.Sorted.
From Verif Require Import F_base F_redeem S_Script M_multisig X_toy P_format P_keys.

(** The key is listed, as bytes or in lower-case hex. *)
Definition Listed (pub : bytes) (l : list keyarg) : Prop := In (KB pub) l \/ In (KS (bytes_to_hex pub)) l.
(** What Bitcoin allows in a script for P2SH *)
Definition PolicyOk (pubs : list bytes) (m : Z) : Prop :=
  m <= Z.of_nat (length pubs) /\ Forall (fun k => length k = 33%nat \/ length k = 65%nat) pubs /\
  (3 + list_sum (map (fun k => S (length k)) pubs) <= 520)%nat.

Section WithCrypto.
Context {CR : Crypto}.

Lemma listed_iff pub l : existsb (keyarg_is pub) l = true <-> Listed pub l.
Proof.
  rewrite existsb_exists. split.
  - intros (k & I & K). destruct k; cbn in K; apply list_eqb_eq in K; subst; [left|right]; auto.
  - intros [I|I]; eexists; (split; [exact I|]); cbn; apply list_eqb_eq; auto.
Qed.
Lemma net_eqb_iff a b : net_eqb a b = true <-> a = b. Proof. destruct a, b; cbn; intuition discriminate. Qed.

(** Lists: exactly the wallets of the class's network whose key is listed and
    whose policy Bitcoin allows; all others raise ValueError or TypeError. *)
Theorem C21_made_iff cls key l m : 1 <= m ->
  ((exists ms, new_multisig cls key (AList (map KB l)) m = Ok ms) <-> k_version key = cls /\ In (k_public_key key) l /\ PolicyOk l m) /\
  ((exists ms, new_multisig cls key (AList (map KB l)) m = Ok ms) \/ new_multisig cls key (AList (map KB l)) m = Raise ValueError \/
   (k_version key <> cls /\ new_multisig cls key (AList (map KB l)) m = Raise TypeError)).
Proof.
  intros Hm. unfold new_multisig, make_multisig, PolicyOk. destruct (net_eqb (k_version key) cls) eqn:V.
  2:{ cbn [negb]. assert (k_version key <> cls) by (intros H; apply net_eqb_iff in H; congruence). split; [|auto]. split; [intros [? [=]]|intros [? _]; contradiction]. }
  apply net_eqb_iff in V. cbn [negb]. destruct (existsb _ _) eqn:X.
  - apply listed_iff in X. assert (I : In (k_public_key key) l).
    { destruct X as [X|X]; apply in_map_iff in X as (b & Eb & I); [injection Eb as <-; auto|discriminate]. }
    cbn [negb bind]. pose proof (mapM_KB l) as M. unfold bytes, pystr in *. rewrite M. cbn [bind]. destruct (C19_accepts_iff l m Hm) as [A B].
    destruct (multisig_to_redeemscript l m) as [rs|e] eqn:R; cbn [bind].
    + split; [|eauto]. split; [|eauto]. intros _. split; auto. split; auto. apply A. eauto.
    + split; [|destruct B as [[? B]|B]; [discriminate|]; injection B as ->; auto]. split; [intros [? [=]]|]. intros (_ & _ & P). apply A in P as [? [=]].
  - assert (N : ~ In (k_public_key key) l). { intros I. assert (existsb (keyarg_is (k_public_key key)) (map KB l) = true); [|congruence]. apply listed_iff. left. apply in_map. auto. }
    cbn [negb]. split; [|auto]. split; [intros [? [=]]|intros (_ & ? & _); contradiction].
Qed.
(** The script of the wallet is the one of the policy, for lists and sets. *)
Theorem C21_policy cls key is_set l m ms : 1 <= m -> new_multisig cls key (if is_set : bool then ASet (map KB l) else AList (map KB l)) m = Ok ms ->
  IsMultisig m (ms_public_keys ms) (ms_redeemscript ms) /\ PolicyOk l m /\ In (k_public_key key) (ms_public_keys ms) /\ Permutation l (ms_public_keys ms) /\
  (is_set = false -> ms_public_keys ms = l) /\ ms_m ms = m /\ ms_key ms = key /\ ms_version ms = cls.
Proof.
  intros Hm H. assert (V : k_version key = cls). { unfold new_multisig in H. destruct (net_eqb _ _) eqn:V; [|discriminate]. apply net_eqb_iff. auto. }
  assert (H' : make_multisig cls key is_set (map KB l) m = Ok ms) by (unfold new_multisig in H; destruct (negb _); [discriminate|]; destruct is_set; exact H). clear H.
  assert (P : Permutation l (ms_public_keys ms) /\ (is_set = false -> ms_public_keys ms = l)).
  { destruct is_set; [split; [apply (C21_sorted _ _ _ _ _ H')|discriminate]|]. pose proof (C21_list_order _ _ _ _ _ H') as Q. rewrite Q. auto. }
  destruct P as [P PL]. unfold make_multisig in H'. destruct (negb (net_eqb _ _)); [discriminate|]. destruct (existsb _ _) eqn:X; [|discriminate]. cbn [negb] in H'.
  apply bind_ok in H' as (ks & _ & H'). apply bind_ok in H' as (pubs & _ & H'). apply bind_ok in H' as (rs & R & H'). injection H' as <-. cbn [ms_public_keys ms_redeemscript ms_m ms_key ms_version] in *.
  destruct (C19_policy _ _ _ Hm R) as [IM _]. split; auto. assert (PO : PolicyOk pubs m) by (apply C19_accepts_iff; eauto). split; [|split; auto].
  - destruct PO as (A & B & C). split; [rewrite (Permutation_length P); auto|]. split; [eapply Permutation_Forall; [apply Permutation_sym; exact P|exact B]|].
    assert (LS : forall a b, Permutation a b -> list_sum a = list_sum b) by (unfold list_sum; induction 1; cbn [fold_right]; lia). rewrite (LS _ _ (Permutation_map _ P)). auto.
  - apply (Permutation_in _ P). apply listed_iff in X as [X|X]; apply in_map_iff in X as (b & Eb & I); [injection Eb as <-; auto|discriminate].
Qed.
(** What is refused, and how *)
Theorem C21_other_network cls key keys m : k_version key <> cls -> new_multisig cls key keys m = Raise TypeError.
Proof. intros N. unfold new_multisig. destruct (net_eqb _ _) eqn:V; [apply net_eqb_iff in V; contradiction|reflexivity]. Qed.
Theorem C21_not_mine cls key l m (is_set : bool) : k_version key = cls -> ~ Listed (k_public_key key) l ->
  new_multisig cls key (if is_set then ASet l else AList l) m = Raise ValueError.
Proof.
  intros V N. unfold new_multisig, make_multisig. apply net_eqb_iff in V. rewrite V. cbn [negb].
  assert (X : existsb (keyarg_is (k_public_key key)) l = false) by (destruct (existsb _ l) eqn:X; [apply listed_iff in X; contradiction|reflexivity]).
  destruct is_set; rewrite X; reflexivity.
Qed.
(** Nothing but lists and sets is taken. *)
Theorem C21_no_list cls key keys m ms : new_multisig cls key keys m = Ok ms -> exists l, keys = AList l \/ keys = ASet l.
Proof. unfold new_multisig. destruct (negb _); [discriminate|]. destruct keys as [l|l|[]|]; try discriminate; eauto. Qed.
(** A tuple with the key in it is refused with another error than one without. *)
Theorem C21_no_list_how cls key keys m : (forall l, keys <> AList l /\ keys <> ASet l) ->
  new_multisig cls key keys m = Raise (if net_eqb (k_version key) cls then match keys with Another false => ValueError | _ => TypeError end else TypeError).
Proof.
  intros N. unfold new_multisig. destruct (net_eqb _ _); [|reflexivity]. destruct keys as [l|l|[]|]; try reflexivity; destruct (N l) as [N1 N2]; congruence.
Qed.
End WithCrypto.
Print Assumptions C21_no_list_how.
Print Assumptions C21_made_iff.
Print Assumptions C21_policy.
Print Assumptions C21_other_network.
Print Assumptions C21_not_mine.
Print Assumptions C21_no_list.

Example C21_made_case : let k := @make_key toy Main (repeat 171 32) true in let p b := k_public_key (@make_key toy Main (repeat b 32) true) in
  k_version k = Main /\ In (k_public_key k) [p 9; p 171; p 8] /\ PolicyOk [p 9; p 171; p 8] 2 /\
  ~ Listed (k_public_key k) (map KB [p 9; p 8]) /\ ~ Listed (k_public_key k) [KS (map (fun c => if (97 <=? c) && (c <=? 102) then c - 32 else c) (bytes_to_hex (p 171)))].
Proof.
  cbv zeta. split; [reflexivity|]. split; [right; left; reflexivity|]. split.
  { split; [vm_compute; discriminate|]. split; [repeat (constructor; [left; vm_compute; reflexivity|]); constructor|apply Nat.leb_le; vm_compute; reflexivity]. }
  split; intros H; apply listed_iff in H; vm_compute in H; discriminate.
Qed.
