(** It does not matter which service answers (C62, C71, C72). *)
From Coq Require Import String.
From Coq Require Import Permutation.
From Verif Require Import F_base M_services S_Decimal S_History S_Servers S_Failover F_network F_servers P_network P_services P_failover X_toy X_net X_server.

Section WithOutside.
Context {CR : Crypto} {E : Type} {OU : Outside E} (rounds : nat).
Notation run := (run (E:=E) rounds).

Lemma first_reports {A} (ask : service -> IO (Net E) A) l g (P : A -> Prop) :
  (forall sv, In sv l -> forall e, (exists x e', ask sv (mkNet g e) = (Raise x, mkNet g e') /\ Unusable x) \/
                                   (exists a e', ask sv (mkNet g e) = (Ok a, mkNet g e') /\ P a)) ->
  forall e, exists r e', first_working net_ignored (map ask l) (mkNet g e) = (r, mkNet g e') /\
    (r = Raise ConnectionError \/ exists a, r = Ok a /\ P a) /\
    ((exists sv, In sv l /\ Yields g (ask sv) P) -> exists a, r = Ok a /\ P a).
Proof.
  induction l as [|sv l IH]; intros H e; cbn [map first_working].
  - exists (Raise ConnectionError), e. split; [reflexivity|]. split; [auto|]. intros (sv & [] & _).
  - unfold itry. destruct (H sv (or_introl eq_refl) e) as [(x & e1 & EX & U)|(a & e1 & EA & HP)].
    + rewrite EX. apply ignored_unusable in U. rewrite U. destruct (IH (fun sv' I => H sv' (or_intror I)) e1) as (r & e' & ER & HR & HS).
      exists r, e'. split; [exact ER|]. split; [exact HR|]. intros (sv' & [<-|I] & Y).
      * destruct (Y e) as (a & e2 & EY & _). congruence.
      * apply HS. eauto.
    + rewrite EA. exists (Ok a), e1. split; [reflexivity|]. split; eauto.
Qed.
Lemma down_frame {A} (m : IO (Net E) A) g : Down m -> Frame m -> forall e, exists x e', m (mkNet g e) = (Raise x, mkNet g e') /\ Unusable x.
Proof.
  intros HD HF e. destruct (HD (mkNet g e)) as (x & s' & EM & U). pose proof (HF (mkNet g e)) as FG. rewrite EM in FG. cbn in FG.
  destruct s' as [g' e']. cbn in FG. subst g'. eauto.
Qed.

Lemma service_eq_info (sv : service) : sv = BlockchainInfo \/ sv <> BlockchainInfo.
Proof. destruct sv; auto; right; discriminate. Qed.
Lemma Forall2_impl' {A B} (P Q : A -> B -> Prop) l m : (forall a b, P a b -> Q a b) -> Forall2 P l m -> Forall2 Q l m.
Proof. intros H F. induction F; constructor; auto. Qed.

(** What holds of the coins, whatever their order. *)
Definition Coins (L : Ledger) (us : list Unspent) : Prop := exists cs, Permutation (l_coins L) cs /\ Forall2 (Holds L) cs us.
Lemma coins_alike L L' cs us : Alike L L' -> Permutation (l_coins L') cs -> Forall2 (Holds L') cs us -> Coins L us.
Proof.
  intros (A1 & A2 & A3 & _) P F. exists cs. split; [etransitivity; eauto|]. eapply Forall2_impl'; [|exact F].
  intros c u. unfold Holds, confirmations. rewrite A1, A2. auto.
Qed.
Lemma total_perm L L' : Alike L L' -> total L' = total L.
Proof.
  intros (_ & _ & P & _). unfold total. symmetry. induction P; cbn; lia.
Qed.

Section Answers.
Context (n : net) (L : Ledger) (address : pystr).

(** A service knows the ledger. *)
Definition Knows (sv : service) : Prop := exists L', Alike L L' /\ Serves (OU:=OU) rounds n L' address sv.

Theorem C71_any ops t1 t2 e script : let s := run ops (start t1 t2 e) in
  (forall sv, In sv (unspent_services n ops) -> Down (call_unspent rounds n address sv) \/ Knows sv) ->
  address_to_scriptpubkey address = Ok (Some script) -> l_script L = bytes_to_hex script ->
  Forall (fun c => 0 <= c_value c < 10 ^ g_prec (n_globals s)) (l_coins L) -> (forall c h, In c (l_coins L) -> c_height c = Some h -> 0 <= h) ->
  exists r e', get_unspent rounds n address s = (r, mkNet (n_globals s) e') /\
    (r = Raise ConnectionError \/ exists us, r = Ok (Some us) /\ Coins L us) /\
    ((exists sv, In sv (unspent_services n ops) /\ Knows sv /\ (sv = BlockchainInfo -> zlen (l_coins L) < 1000)) ->
     exists us, r = Ok (Some us) /\ Coins L us).
Proof.
  cbv zeta. intros HSV HA HSC HV HH. set (s := run ops (start t1 t2 e)) in *.
  assert (HP : 1 <= g_prec (n_globals s) <= 90000) by (destruct (precision_always rounds ops t1 t2 e) as [P|P]; cbv zeta in P; fold s in P; rewrite P; lia).
  assert (KN : forall sv, Knows sv -> (sv = BlockchainInfo -> zlen (l_coins L) < 1000) ->
    Yields (n_globals s) (call_unspent rounds n address sv) (fun r => exists us, r = Some us /\ Coins L us)).
  { intros sv (L' & AL & SV) LIM. pose proof AL as (A1 & A2 & A3 & _).
    assert (HV' : Forall (fun c => Readable (n_globals s) (c_value c)) (l_coins L')) by (rewrite <- A3; exact HV).
    assert (HH' : forall c h, In c (l_coins L') -> c_height c = Some h -> 0 <= h) by (intros c h I; apply HH; rewrite A3; exact I).
    assert (SOME : forall m : IO (Net E) (list Unspent), Yields (n_globals s) m (fun us => Coins L us) ->
      Yields (n_globals s) (l <~ m ;; iret (Some l)) (fun r => exists us, r = Some us /\ Coins L us)).
    { intros m Y. eapply yields_bind; [exact Y|]. intros us HC. apply yields_ret. eauto. }
    assert (DIRECT : forall us, Forall2 (Holds L') (l_coins L') us -> Coins L us) by (intros us F; eapply coins_alike; eauto).
    destruct sv as [| | | | |url]; cbn [Serves] in SV.
    - assert (EC : call_unspent rounds n address Blockchair = blockchair_unspent n address) by (destruct n; reflexivity). rewrite EC.
      eapply yields_weaken; [apply (C71_blockchair (n_globals s) n L' address SV HH')|]. intros a (us & -> & F). eauto.
    - assert (EC : call_unspent rounds n address Blockstream = (l <~ blockstream_unspent n address ;; iret (Some l))) by (destruct n; reflexivity). rewrite EC.
      destruct SV as (p & _ & _ & SV). apply SOME. eapply yields_weaken; [apply (C71_blockstream (n_globals s) n p L' address script SV HA)|]; [congruence|].
      intros us (cs & P1 & P2 & _). eapply coins_alike; eauto.
    - assert (EC : call_unspent rounds n address Bitcore = (l <~ bitcore_unspent rounds n address ;; iret (Some l))) by (destruct n; reflexivity). rewrite EC.
      destruct SV as (p & Hp & HR & SV). apply SOME. eapply yields_weaken; [apply (C71_bitcore rounds (n_globals s) n p L' address SV)|]; auto.
    - assert (EC : call_unspent rounds n address Smartbit = (l <~ smartbit_unspent rounds n address ;; iret (Some l))) by (destruct n; reflexivity). rewrite EC.
      destruct SV as (p & HR & SV). apply SOME. eapply yields_weaken; [apply (C71_smartbit rounds (n_globals s) n p L' address SV)|]; auto.
    - destruct SV as (EN & SV). specialize (LIM eq_refl). assert (EC : call_unspent rounds n address BlockchainInfo = (l <~ blockchain_unspent address ;; iret (Some l))) by (rewrite EN; reflexivity). rewrite EC.
      apply SOME. eapply yields_weaken; [apply (C71_blockchain (n_globals s) L' address SV)|].
      + unfold zlen in *. rewrite <- (Permutation_length A3). exact LIM.
      + intros us F. eapply coins_alike; [exact AL| |exact F]. apply Permutation_rev.
    - assert (EC : call_unspent rounds n address (Node url) = (l <~ node_unspent url address ;; iret (Some l))) by (destruct n; reflexivity). rewrite EC.
      destruct SV as (received & SV). apply SOME. eapply yields_weaken; [apply (C71_node (n_globals s) url L' received address SV)|]; auto. }
  pose proof (lists rounds ops t1 t2 e n) as (_ & _ & _ & HL & _). cbv zeta in HL. fold s in HL.
  unfold get_unspent. unfold ibind at 1. change (globals s) with (Ok (n_globals s), s). cbv beta iota. rewrite HL.
  destruct (first_reports (call_unspent rounds n address) (unspent_services n ops) (n_globals s) (fun r => exists us, r = Some us /\ Coins L us)) with (e := n_outside s)
    as (r & e' & ER & HR & HS).
  - intros sv I e0. destruct (HSV sv I) as [DN|KS].
    + left. apply down_frame; auto. apply Frame_call_unspent.
    + destruct (service_eq_info sv) as [->|NI].
      * destruct (Z_lt_le_dec (zlen (l_coins L)) 1000) as [Lt|Ge]; [right; apply KN; auto|]. left.
        destruct KS as (L' & AL & EN & SV). pose proof AL as (_ & _ & A3 & _).
        destruct (C71_blockchain_excessive (n_globals s) L' address SV) with (e := e0) as (e1 & EX).
        { unfold zlen in *. rewrite <- (Permutation_length A3). exact Ge. }
        exists ExcessiveAddress, e1. split; [|unfold Unusable; cbn; auto]. rewrite EN. cbn [call_unspent]. unfold ibind. rewrite EX. reflexivity.
      * right. apply KN; auto. congruence.
  - replace (mkNet (n_globals s) (n_outside s)) with s in ER by (destruct s; reflexivity). exists r, e'. split; [exact ER|]. split.
    + destruct HR as [->|(a & -> & us & -> & HC)]; [auto|]. right. eauto.
    + intros (sv & I & KS & LIM). destruct HS as (a & -> & us & -> & HC); [|eauto]. exists sv. split; auto.
Qed.

(** All transactions are reported; on the test network the unconfirmed ones may be missing. *)
Definition AllTxids (ids : list pystr) : Prop :=
  Permutation (l_mempool L ++ l_confirmed L) ids \/ (n = Test /\ ids = l_confirmed L).
Theorem C62_any ops t1 t2 e : let s := run ops (start t1 t2 e) in
  connected n ops = None ->
  (forall sv, In sv (history_services n ops) -> Down (call_transactions rounds n address sv) \/ Knows sv) ->
  exists r e', get_transactions rounds n address s = (r, mkNet (n_globals s) e') /\
    (r = Raise ConnectionError \/ exists ids, r = Ok ids /\ AllTxids ids) /\
    ((exists sv, In sv (history_services n ops) /\ Knows sv /\ (sv = Blockstream -> n = Test \/ zlen (l_mempool L) < 50)) ->
     exists ids, r = Ok ids /\ AllTxids ids).
Proof.
  cbv zeta. intros NC HSV. set (s := run ops (start t1 t2 e)) in *.
  assert (IN : forall sv, In sv (history_services n ops) -> In sv [Blockchair; Blockstream; Smartbit; BlockchainInfo] /\ (sv = BlockchainInfo -> n = Main)).
  { intros sv I. unfold history_services, services_for in I. rewrite NC in I. destruct n; cbn in *; intuition subst; try discriminate; auto. }
  assert (KN : forall sv, In sv (history_services n ops) -> Knows sv -> (sv = Blockstream -> n = Test \/ zlen (l_mempool L) < 50) ->
    Yields (n_globals s) (call_transactions rounds n address sv) AllTxids).
  { intros sv I (L' & AL & SV) LIM. pose proof AL as (A1 & A2 & A3 & A4 & A5). destruct (IN sv I) as [I' MN].
    assert (ALL : forall ids, l_mempool L' ++ l_confirmed L' = ids -> AllTxids ids) by (intros ids <-; left; rewrite A4, A5; reflexivity).
    destruct sv as [| | | | |url]; cbn [Serves] in SV.
    - assert (EC : call_transactions rounds n address Blockchair = blockchair_transactions n address) by (destruct n; reflexivity). rewrite EC.
      eapply yields_weaken; [apply (C62_blockchair (n_globals s) n L' address SV)|]. auto.
    - destruct SV as (p & Hp & HR & SV). specialize (LIM eq_refl). unfold AllTxids. destruct n; cbn [call_transactions].
      + destruct LIM as [|LIM]; [discriminate|]. eapply yields_weaken; [apply (C62_blockstream rounds (n_globals s) p L' address SV Hp HR)|]; [rewrite A5; exact LIM|].
        intros ids <-. left. rewrite A4, A5. apply Permutation_app_comm.
      + eapply yields_weaken; [apply (C62_blockstream_test rounds (n_globals s) p L' address SV Hp HR)|]. intros ids <-. right. auto.
    - exfalso. cbn in I'. intuition discriminate.
    - assert (EC : call_transactions rounds n address Smartbit = smartbit_transactions rounds n address) by (destruct n; reflexivity). rewrite EC.
      destruct SV as (p & HR & SV). eapply yields_weaken; [apply (C62_smartbit rounds (n_globals s) n p L' address SV HR)|]. auto.
    - destruct SV as (EN & SV). assert (EC : call_transactions rounds n address BlockchainInfo = blockchain_transactions address) by (rewrite EN; reflexivity). rewrite EC.
      eapply yields_weaken; [apply (C62_blockchain (n_globals s) L' address SV)|]. auto.
    - exfalso. cbn in I'. intuition discriminate. }
  pose proof (lists rounds ops t1 t2 e n) as (_ & HL & _). cbv zeta in HL. fold s in HL.
  unfold get_transactions. unfold ibind at 1. change (globals s) with (Ok (n_globals s), s). cbv beta iota. rewrite HL.
  destruct (first_reports (call_transactions rounds n address) (history_services n ops) (n_globals s) AllTxids) with (e := n_outside s)
    as (r & e' & ER & HR & HS).
  - intros sv I e0. destruct (HSV sv I) as [DN|KS].
    + left. apply down_frame; auto. apply Frame_call_transactions.
    + assert (D : (sv = Blockstream /\ n = Main /\ 50 <= zlen (l_mempool L)) \/ (sv = Blockstream -> n = Test \/ zlen (l_mempool L) < 50)).
      { destruct (Z_lt_le_dec (zlen (l_mempool L)) 50); [auto|]. destruct n; [|auto]. destruct sv; auto; right; discriminate. }
      destruct D as [(-> & EN & GE)|LIM]; [|right; apply KN; auto]. left.
      destruct KS as (L' & AL & p & Hp & _ & SV). pose proof AL as (_ & _ & _ & _ & A5). rewrite EN in SV |- *.
      destruct (C62_blockstream_excessive rounds (n_globals s) p L' address SV) with (e := e0) as (e1 & EX); [rewrite A5; exact GE|].
      exists ExcessiveAddress, e1. split; [exact EX|unfold Unusable; cbn; auto].
  - replace (mkNet (n_globals s) (n_outside s)) with s in ER by (destruct s; reflexivity). exists r, e'. split; [exact ER|]. split; [exact HR|].
    intros (sv & I & KS & LIM). apply HS. exists sv. split; auto.
Qed.

(** The balance is the sum of the coins. *)
Theorem C72_any ops t1 t2 e : let s := run ops (start t1 t2 e) in
  connected n ops = None ->
  (forall sv, In sv (balance_services n ops) -> Down (call_balance n address sv) \/ Knows sv) ->
  exists r e', get_balance n address s = (r, mkNet (n_globals s) e') /\ (r = Raise ConnectionError \/ r = Ok (total L)) /\
    ((exists sv, In sv (balance_services n ops) /\ Knows sv) -> r = Ok (total L)).
Proof.
  cbv zeta. intros NC HSV. set (s := run ops (start t1 t2 e)) in *.
  assert (IN : forall sv, In sv (balance_services n ops) -> (forall url, sv <> Node url)).
  { intros sv I. unfold balance_services, services_for in I. rewrite NC in I. destruct n; cbn in *; intuition subst; discriminate. }
  assert (KN : forall sv, In sv (balance_services n ops) -> Knows sv -> Yields (n_globals s) (call_balance n address sv) (eq (total L))).
  { intros sv I (L' & AL & SV). rewrite <- (total_perm _ _ AL). destruct sv as [| | | | |url]; cbn [Serves] in SV.
    - assert (EC : call_balance n address Blockchair = blockchair_balance n address) by (destruct n; reflexivity). rewrite EC. apply C72_blockchair. auto.
    - assert (EC : call_balance n address Blockstream = blockstream_balance n address) by (destruct n; reflexivity). rewrite EC. destruct SV as (p & _ & _ & SV). eapply C72_blockstream. eauto.
    - assert (EC : call_balance n address Bitcore = bitcore_balance n address) by (destruct n; reflexivity). rewrite EC. destruct SV as (p & _ & _ & SV). eapply C72_bitcore. eauto.
    - assert (EC : call_balance n address Smartbit = smartbit_balance n address) by (destruct n; reflexivity). rewrite EC. destruct SV as (p & _ & SV). eapply C72_smartbit. eauto.
    - destruct SV as (EN & SV). assert (EC : call_balance n address BlockchainInfo = blockchain_balance address) by (rewrite EN; reflexivity). rewrite EC. apply C72_blockchain. auto.
    - destruct (IN _ I url eq_refl). }
  pose proof (lists rounds ops t1 t2 e n) as (HL & _). cbv zeta in HL. fold s in HL.
  unfold get_balance. unfold ibind at 1. change (globals s) with (Ok (n_globals s), s). cbv beta iota. rewrite HL.
  destruct (first_reports (call_balance n address) (balance_services n ops) (n_globals s) (eq (total L))) with (e := n_outside s)
    as (r & e' & ER & HR & HS).
  - intros sv I e0. destruct (HSV sv I) as [DN|KS].
    + left. apply down_frame; auto. apply Frame_call_balance. apply IN. exact I.
    + right. apply KN; auto.
  - replace (mkNet (n_globals s) (n_outside s)) with s in ER by (destruct s; reflexivity). exists r, e'. split; [exact ER|]. split.
    + destruct HR as [->|(a & -> & <-)]; auto.
    + intros (sv & I & KS). destruct HS as (a & -> & <-); auto. exists sv. split; auto.
Qed.
End Answers.
End WithOutside.

(** ** Examples: Blockchair is out of order, all others know the address *)
Lemma alike_refl L : Alike L L.
Proof. repeat split. reflexivity. Qed.
Lemma known_knows alive sv : (sv = Blockchair -> alive = true) -> Knows (OU:=known_to alive) 5 Main known addr sv.
Proof. intros H. exists known. split; [apply alike_refl|]. apply known_serves; auto. Qed.
Example C71_any_hypotheses (ops : list (op Z)) : connected Main ops = None ->
  (forall sv, In sv (unspent_services Main ops) ->
    Down (@call_unspent toy Z (known_to false) 5 Main addr sv) \/ Knows (OU:=known_to false) 5 Main known addr sv) /\
  (exists sv, In sv (unspent_services Main ops) /\ Knows (OU:=known_to false) 5 Main known addr sv /\ (sv = BlockchainInfo -> zlen (l_coins known) < 1000)) /\
  Forall (fun c => 0 <= c_value c < 10 ^ 9) (l_coins known).
Proof.
  intros NC. split; [|split].
  - intros sv _. destruct sv; try (right; apply known_knows; discriminate). left. intros [g e]. eexists _, _. split; [reflexivity|]. unfold Unusable. cbn. auto.
  - exists Blockstream. split; [|split; [apply known_knows; discriminate|discriminate]]. unfold unspent_services, services_for. rewrite NC. cbn. auto.
  - repeat constructor; vm_compute; congruence.
Qed.
Example C62_any_hypotheses (ops : list (op Z)) : connected Main ops = None ->
  (forall sv, In sv (history_services Main ops) ->
    Down (@call_transactions Z (known_to false) 5 Main addr sv) \/ Knows (OU:=known_to false) 5 Main known addr sv) /\
  (exists sv, In sv (history_services Main ops) /\ Knows (OU:=known_to false) 5 Main known addr sv /\ (sv = Blockstream -> Main = Test \/ zlen (l_mempool known) < 50)).
Proof.
  intros NC. split.
  - intros sv _. destruct sv; try (right; apply known_knows; discriminate). left. intros [g e]. eexists _, _. split; [reflexivity|]. unfold Unusable. cbn. auto.
  - exists Smartbit. split; [|split; [apply known_knows; discriminate|discriminate]]. unfold history_services, services_for. rewrite NC. cbn. auto.
Qed.
Example C72_any_hypotheses (ops : list (op Z)) : connected Main ops = None ->
  (forall sv, In sv (balance_services Main ops) ->
    Down (@call_balance Z (known_to false) Main addr sv) \/ Knows (OU:=known_to false) 5 Main known addr sv) /\
  (exists sv, In sv (balance_services Main ops) /\ Knows (OU:=known_to false) 5 Main known addr sv).
Proof.
  intros NC. split.
  - intros sv _. destruct sv; try (right; apply known_knows; discriminate). left. intros [g e]. eexists _, _. split; [reflexivity|]. unfold Unusable. cbn. auto.
  - exists Blockstream. split; [|apply known_knows; discriminate]. unfold balance_services, services_for. rewrite NC. cbn. auto.
Qed.

Print Assumptions C71_any.
Print Assumptions C62_any.
Print Assumptions C72_any.
