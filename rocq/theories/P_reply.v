(** Replies as texts (C106). *)
From Coq Require Import String.
From Coq Require Import Permutation.
From Verif Require Import F_base M_reply S_Decimal S_History S_Servers S_Failover S_Loads S_Prepared S_Requests S_Reply.
From Verif Require Import F_network F_servers P_network P_services P_failover P_loads P_says P_exact P_anyservice P_requests X_toy X_net X_server.
From Coq Require Import List ZArith Lia.
Import ListNotations.
Open Scope Z_scope.

(** Servers of which the one replies whatever the other does serve alike. *)
Section Mono.
Context {E : Type} (O1 O2 : Outside E) (rounds : nat) (n : net) (L : Ledger) (address : pystr) (sv : service).
Hypothesis HG : forall url ps P, Replies (OU:=O1) url ps P -> Replies (OU:=O2) url ps P.
Hypothesis HT : forall P, RepliesText (OU:=O1) (blockstream_url n "blocks/tip/height") P -> RepliesText (OU:=O2) (blockstream_url n "blocks/tip/height") P.
Hypothesis HS : forall url ps, (forall t e, exists r e', o_get (Outside:=O1) url ps t e = (Ok r, e') /\ r_status r = 500) ->
  forall t e, exists r e', o_get (Outside:=O2) url ps t e = (Ok r, e') /\ r_status r = 500.
Hypothesis HR : forall url, sv = Node url -> forall m args P, RepliesRpc (OU:=O1) url m args P -> RepliesRpc (OU:=O2) url m args P.
Lemma linked_mono {A} ps (shows : list A -> json -> json -> Prop) k j l : Linked (OU:=O1) ps shows k j l -> Linked (OU:=O2) ps shows k j l.
Proof. induction 1; [apply (@L_end E O2)|eapply (@L_link E O2); eauto]. Qed.
Lemma serves_mono : Serves (OU:=O1) rounds n L address sv -> Serves (OU:=O2) rounds n L address sv.
Proof.
  destruct sv as [| | | | |url]; cbn [Serves].
  - intros (A & B). split; [apply HG, A|]. intros k t Hk D N. apply HG. apply B; auto.
  - intros (p & Hp & Hl & A & B & C & D & F & G). exists p. split; [exact Hp|]. split; [exact Hl|]. split; [apply HT, A|]. split; [apply HG, B|]. split; [apply HG, C|].
    split; [apply HG, D|]. split; [|apply HG, G]. intros pre t post EL. apply HG. apply (F pre t post EL).
  - intros (p & Hp & Hl & A & ids & Li & B & C). exists p. split; [exact Hp|]. split; [exact Hl|]. split; [apply HG, A|]. exists ids. split; [exact Li|]. split; [apply HG, B|].
    intros pre c id post EL. apply HG. apply (C pre c id post EL).
  - intros (pages & Hp & A & B & C). exists pages. split; [exact Hp|]. split; [apply HG, A|]. split.
    + destruct B as [(B1 & B2)|(items & next & rest & k & B1 & B2 & B3 & B4)]; [left; split; [exact B1|apply HG, B2]|right].
      exists items, next, rest, k. split; [exact B1|]. split; [exact B2|]. split; [apply HG, B3|apply linked_mono, B4].
    + destruct C as [(B1 & B2)|(items & next & rest & k & B1 & B2 & B3 & B4)]; [left; split; [exact B1|apply HG, B2]|right].
      exists items, next, rest, k. split; [exact B1|]. split; [exact B2|]. split; [apply HG, B3|apply linked_mono, B4].
  - intros (N & A & B & C). split; [exact N|]. split; [apply HG, A|]. split; [intros k t Hk D NE; apply HG; apply B; auto|]. cbv zeta in C |- *.
    destruct C as [(C1 & C2)|C]; [left; split; [exact C1|apply HS, C2]|right; apply HG, C].
  - intros (rc & A & B). exists rc. split; apply (HR url eq_refl); assumption.
Qed.
End Mono.

Section WithFloats.
Context {FL : Floats}.

(** A reply is read as what it says, however it is written. *)
Theorem C106_read s v t : LText rounded v t -> Unrepeated v -> r_json (received (s, t)) = Ok v /\ r_text (received (s, t)) = t /\ r_status (received (s, t)) = s.
Proof. intros T U. cbn. apply exact_text in T. unfold loads. rewrite T, as_dicts_id by exact U. auto. Qed.
(** What is read was said. *)
Theorem C106_said s t v : r_json (received (s, t)) = Ok v -> exists v0, LText rounded v0 t /\ Collapses v0 v.
Proof. apply C103_accepts. Qed.
(** Two texts for the same are read alike, also with names that come twice. *)
Theorem C106_alike s s' v t t' : LText rounded v t -> LText rounded v t' -> r_json (received (s, t)) = r_json (received (s', t')).
Proof. intros T T'. cbn. apply exact_text in T, T'. unfold loads. rewrite T, T'. reflexivity. Qed.
(** Other texts are refused. *)
Theorem C106_refused s t : (forall v, ~ LText rounded v t) -> r_json (received (s, t)) = Raise ValueError.
Proof. apply C103_refuses. Qed.

Context {CR : Crypto} {E : Type} (O : Outside E) (R : Wire E) (SD : Sends rounded O R).

Lemma read_alike (a : result Response * E) (m : IO E (Z * pystr)) e r e' : SentAlike rounded a (m e) -> a = (Ok r, e') ->
  exists r', reading m e = (Ok r', e') /\ r_status r' = r_status r /\ r_text r' = r_text r /\ forall j, r_json r = Ok j -> r_json r' = Ok j.
Proof.
  intros (A & B) ->. cbn [fst snd] in *. unfold reading, ibind. destruct (m e) as [[x|y] e1]; cbn [fst snd] in *; [|contradiction]. subst e1.
  destruct B as [-> B]. eexists. split; [reflexivity|]. split; [reflexivity|]. split; [reflexivity|]. intros j J. destruct (B j J) as [T U]. apply (C106_read (r_status r) j (r_text r) T U).
Qed.
Lemma replies_sent url ps P : Replies (OU:=O) url ps P -> Replies (OU:=with_json R) url ps P.
Proof.
  intros H t e. destruct (H t e) as (r & j & e' & EG & ST & EJ & HP). destruct SD as [S1 _]. destruct (read_alike _ _ e r e' (S1 url ps t e) EG) as (r' & E1 & E2 & E3 & E4).
  exists r', j, e'. split; [exact E1|]. split; [congruence|]. split; [auto|exact HP].
Qed.
Lemma text_sent url P : RepliesText (OU:=O) url P -> RepliesText (OU:=with_json R) url P.
Proof.
  intros H t e. destruct (H t e) as (r & e' & EG & ST & HP). destruct SD as [S1 _]. destruct (read_alike _ _ e r e' (S1 url [] t e) EG) as (r' & E1 & E2 & E3 & E4).
  exists r', e'. split; [exact E1|]. split; [congruence|]. rewrite E3. exact HP.
Qed.
Lemma answers_sent url s (P : Response -> Prop) : (forall r r', r_text r' = r_text r -> P r -> P r') -> Answers (OU:=O) url s P -> Answers (OU:=with_json R) url s P.
Proof.
  intros M H t e. destruct (H t e) as (r & e' & EG & ST & HP). destruct SD as [S1 _]. destruct (read_alike _ _ e r e' (S1 url [] t e) EG) as (r' & E1 & E2 & E3 & E4).
  exists r', e'. split; [exact E1|]. split; [congruence|]. apply (M r); auto.
Qed.
Lemma rpc_sent url m args P : RepliesRpc (OU:=O) url m args P -> RepliesRpc (OU:=with_json R) url m args P.
Proof.
  intros H t e. destruct (H t e) as (r & j & v & e' & EG & ST & EJ & HP). destruct SD as [_ S1]. destruct (read_alike _ _ e r e' (S1 url (str m) args t e) EG) as (r' & E1 & E2 & E3 & E4).
  exists r', j, v, e'. split; [exact E1|]. split; [congruence|]. split; [auto|exact HP].
Qed.

(** Servers that send what they know as JSON serve it. *)
Theorem C106_serves rounds n L address sv : Serves (OU:=O) rounds n L address sv -> Serves (OU:=with_json R) rounds n L address sv.
Proof.
  apply serves_mono.
  - apply replies_sent.
  - intros P. apply text_sent.
  - intros url ps H t e. destruct (H t e) as (r & e' & EG & ST). destruct SD as [S1 _].
    destruct (read_alike _ _ e r e' (S1 _ _ t e) EG) as (r' & E1 & E2 & _). exists r', e'. split; [exact E1|congruence].
  - intros url _. apply rpc_sent.
Qed.
Theorem C106_transaction n txid raw sv : ServesRaw (OU:=O) n txid raw sv -> ServesRaw (OU:=with_json R) n txid raw sv.
Proof.
  assert (AN : forall url s, Answers (OU:=O) url s (fun _ => True) -> Answers (OU:=with_json R) url s (fun _ => True)) by (intros; apply answers_sent; auto).
  destruct sv as [| | | | |url]; cbn [ServesRaw]; cbv zeta; destruct raw as [h|].
  - apply replies_sent.
  - intros [A|A]; [left; apply AN, A|right; apply replies_sent, A].
  - apply text_sent.
  - apply AN.
  - auto.
  - auto.
  - apply replies_sent.
  - apply AN.
  - intros [N A]. split; [exact N|apply text_sent, A].
  - intros [N A]. split; [exact N|]. apply answers_sent; [|exact A]. intros r r' -> H. exact H.
  - apply rpc_sent.
  - auto.
Qed.

(** NetworkAPI with such servers *)
Notation run := (run (E:=E) (OU:=with_json R)).
Definition KnowsO (rounds : nat) n L address sv : Prop := exists L', Alike L L' /\ Serves (OU:=O) rounds n L' address sv.
Lemma knows_sent rounds n L address sv : KnowsO rounds n L address sv -> Knows (OU:=with_json R) rounds n L address sv.
Proof. intros (L' & A & S). exists L'. split; [exact A|apply C106_serves, S]. Qed.
Theorem C106_unspents rounds n L address ops t1 t2 e script : let s := run rounds ops (start t1 t2 e) in
  (forall sv, In sv (unspent_services n ops) -> Down (call_unspent (OU:=with_json R) rounds n address sv) \/ KnowsO rounds n L address sv) ->
  (exists sv, In sv (unspent_services n ops) /\ KnowsO rounds n L address sv /\ (sv = BlockchainInfo -> zlen (l_coins L) < 1000)) ->
  address_to_scriptpubkey address = Ok (Some script) -> l_script L = bytes_to_hex script ->
  Forall (fun c => 0 <= c_value c < 10 ^ g_prec (n_globals s)) (l_coins L) -> (forall c h, In c (l_coins L) -> c_height c = Some h -> 0 <= h) ->
  exists us e', get_unspent (OU:=with_json R) rounds n address s = (Ok (Some us), mkNet (n_globals s) e') /\ Coins L us.
Proof.
  cbv zeta. intros HA HB HS HL HV HH.
  destruct (@C71_any CR E (with_json R) rounds n L address ops t1 t2 e script) as (r & e' & ER & _ & OK); auto.
  { intros sv I. destruct (HA sv I) as [D|K]; [left; exact D|right; apply knows_sent, K]. }
  destruct OK as (us & -> & C). { destruct HB as (sv & I & K & X). exists sv. split; [exact I|]. split; [apply knows_sent, K|exact X]. }
  exists us, e'. auto.
Qed.
Theorem C106_history rounds n L address ops t1 t2 e : let s := run rounds ops (start t1 t2 e) in
  connected n ops = None ->
  (forall sv, In sv (history_services n ops) -> Down (call_transactions (OU:=with_json R) rounds n address sv) \/ KnowsO rounds n L address sv) ->
  (exists sv, In sv (history_services n ops) /\ KnowsO rounds n L address sv /\ (sv = Blockstream -> n = Test \/ zlen (l_mempool L) < 50)) ->
  exists ids e', get_transactions (OU:=with_json R) rounds n address s = (Ok ids, mkNet (n_globals s) e') /\ AllTxids n L ids.
Proof.
  cbv zeta. intros NC HA HB.
  destruct (@C62_any CR E (with_json R) rounds n L address ops t1 t2 e) as (r & e' & ER & _ & OK); auto.
  { intros sv I. destruct (HA sv I) as [D|K]; [left; exact D|right; apply knows_sent, K]. }
  destruct OK as (ids & -> & C). { destruct HB as (sv & I & K & X). exists sv. split; [exact I|]. split; [apply knows_sent, K|exact X]. }
  exists ids, e'. auto.
Qed.
Theorem C106_balance rounds n L address ops t1 t2 e : let s := run rounds ops (start t1 t2 e) in
  connected n ops = None ->
  (forall sv, In sv (balance_services n ops) -> Down (call_balance (OU:=with_json R) n address sv) \/ KnowsO rounds n L address sv) ->
  (exists sv, In sv (balance_services n ops) /\ KnowsO rounds n L address sv) ->
  exists e', get_balance (OU:=with_json R) n address s = (Ok (total L), mkNet (n_globals s) e').
Proof.
  cbv zeta. intros NC HA HB.
  destruct (@C72_any CR E (with_json R) rounds n L address ops t1 t2 e) as (r & e' & ER & _ & OK); auto.
  { intros sv I. destruct (HA sv I) as [D|K]; [left; exact D|right; apply knows_sent, K]. }
  rewrite OK in ER. { eauto. } destruct HB as (sv & I & K). exists sv. split; [exact I|apply knows_sent, K].
Qed.
Theorem C106_by_id rounds n txid raw ops t1 t2 e : let s := run rounds ops (start t1 t2 e) in
  (forall sv, In sv (history_services n ops) -> Down (call_by_id (OU:=with_json R) n txid sv) \/ ServesRaw (OU:=O) n txid raw sv) ->
  (exists sv, In sv (history_services n ops) /\ ServesRaw (OU:=O) n txid raw sv) ->
  exists e', get_transaction_by_id (OU:=with_json R) n txid s = (Ok raw, mkNet (n_globals s) e').
Proof.
  cbv zeta. intros HA HB.
  destruct (@C77_any CR E (with_json R) rounds n txid raw ops t1 t2 e) as (r & e' & ER & _ & OK); auto.
  { intros sv I. destruct (HA sv I) as [D|K]; [left; exact D|right; apply C106_transaction, K]. }
  rewrite OK in ER. { eauto. } destruct HB as (sv & I & K). exists sv. split; [exact I|apply C106_transaction, K].
Qed.
End WithFloats.
Print Assumptions C106_history.
Print Assumptions C106_balance.
Print Assumptions C106_by_id.
Print Assumptions C106_read.
Print Assumptions C106_said.
Print Assumptions C106_alike.
Print Assumptions C106_refused.
Print Assumptions C106_serves.
Print Assumptions C106_transaction.
Print Assumptions C106_unspents.

(** ** The hypotheses are met: the servers of X_server.v, which send blanks too *)
Fixpoint goodb (j : json) : bool :=
  match j with
  | JNull | JBool _ | JInt _ => true
  | JFloat _ _ => false
  | JStr s => forallb (fun c => (0 <=? c) && (c <? 128)) s
  | JList l => forallb goodb l
  | JObj fs => nodupb (map fst fs) && forallb (fun p => forallb (fun c => (0 <=? c) && (c <? 128)) (fst p) && goodb (snd p)) fs
  end.
Lemma ascii_scalar s : forallb (fun c => (0 <=? c) && (c <? 128)) s = true -> Forall S_Json.scalar s.
Proof. intros H. apply Forall_forall. intros c I. rewrite forallb_forall in H. specialize (H c I). unfold S_Json.scalar, S_Json.surrogate. lia. Qed.
Lemma goodb_ok j : goodb j = true -> S_Json.Plain j /\ Unrepeated j.
Proof.
  induction j as [|b|n|r d|s|l IH|fs IH] using P_json.json_ind'; cbn [goodb]; intros G.
  - split; constructor.
  - split; constructor.
  - split; constructor.
  - discriminate.
  - split; constructor. apply ascii_scalar, G.
  - assert (F : Forall (fun j => S_Json.Plain j /\ Unrepeated j) l).
    { apply Forall_forall. intros x I. rewrite Forall_forall in IH. rewrite forallb_forall in G. auto. }
    split; constructor; (eapply Forall_impl; [|exact F]); cbn; tauto.
  - apply andb_true_iff in G as [N G].
    assert (F : Forall (fun p => Forall S_Json.scalar (fst p) /\ S_Json.Plain (snd p) /\ Unrepeated (snd p)) fs).
    { apply Forall_forall. intros x I. rewrite Forall_forall in IH. rewrite forallb_forall in G. specialize (G x I). apply andb_true_iff in G as [G1 G2]. split; [apply ascii_scalar, G1|apply (IH x I G2)]. }
    split; constructor; try (eapply Forall_impl; [|exact F]; cbn; tauto). apply nodupb_ok, N.
Qed.
Definition blanked (j : json) : pystr := [32; 10] ++ compact j ++ [13; 10].
Lemma blanked_text {FL : Floats} j : goodb j = true -> LText rounded j (blanked j) /\ Unrepeated j.
Proof.
  intros G. destruct (goodb_ok j G) as [P U]. split; [|exact U].
  assert (T : LText rounded j (compact j)) by (apply parse_sound, text_parses, P_json.val_text, compact_reads; exact P).
  inversion T as [v w t w' B V B' EV ET]; subst. unfold blanked. rewrite <- ET.
  replace ([32; 10] ++ (w ++ t ++ w') ++ [13; 10]) with (([32; 10] ++ w) ++ t ++ (w' ++ [13; 10])) by (rewrite <- !app_assoc; reflexivity).
  constructor; auto; apply Forall_app; split; auto; repeat (apply Forall_cons; [cbn; auto 6|]); apply Forall_nil.
Qed.
Definition as_text (r : Response) : Response := match r_json r with Ok j => mkResp (r_status r) (blanked j) (Ok j) | Raise _ => r end.
Definition posted : Outside Z := {|
  o_get := fun url ps t => (r <~ o_get (Outside:=known_to false) url ps t ;; iret (as_text r));
  o_post := o_post (Outside:=known_to false); o_rpc := fun _ _ _ _ e => (Raise ReqConnectionError, e); o_time := fun e => (Ok e, e) |}.
Definition posts : Wire Z := {|
  raw_get := fun url ps t => (r <~ o_get (Outside:=posted) url ps t ;; iret (r_status r, r_text r));
  raw_post := fun _ _ _ e => (Ok (400, str "no"), e + 1); raw_rpc := fun _ _ _ _ e => (Raise ReqConnectionError, e); raw_time := fun e => (Ok e, e) |}.
Lemma answers_good url ps j : answer_json false url ps = Some j -> goodb j = true.
Proof.
  unfold answer_json. destruct (list_eqb url _); [discriminate|]. destruct (list_eqb url _).
  - intros H. injection H as <-. set (k := match ps with (_, t) :: _ => num t | [] => 0 end).
    assert (B : forallb (fun t => goodb (obj [("hash"%string, JStr t)])) (page k 50 (l_mempool known ++ l_confirmed known)) = true).
    { apply forallb_forall. intros t I. assert (IN : In t (l_mempool known ++ l_confirmed known)).
      { unfold page in I. rewrite <- (firstn_skipn (Z.to_nat k) (l_mempool known ++ l_confirmed known)). apply in_or_app. right.
        rewrite <- (firstn_skipn (Z.to_nat 50) (skipn _ _)). apply in_or_app. left. exact I. }
      cbn in IN. repeat (destruct IN as [<-|IN]; [reflexivity|]). contradiction. }
    assert (M : forallb goodb (map (fun t => obj [("hash"%string, JStr t)]) (page k 50 (l_mempool known ++ l_confirmed known))) = true).
    { generalize dependent (page k 50 (l_mempool known ++ l_confirmed known)). clear. intros pg B. induction pg as [|a pg IH]; [reflexivity|]. cbn [map forallb] in *. apply andb_true_iff in B as [B1 B2]. rewrite B1, IH by exact B2. reflexivity. }
    assert (G : forall l, forallb goodb l = true -> goodb (obj [("n_tx"%string, JInt 4); ("txs"%string, JList l)]) = true).
    { intros l H. change (goodb (obj [("n_tx"%string, JInt 4); ("txs"%string, JList l)])) with (true && ((true && true) && ((true && forallb goodb l) && true))). rewrite H. reflexivity. }
    apply G. exact M.
  - match goal with |- context [find ?f fixed_pages] => destruct (find f fixed_pages) as [p|] eqn:F end; [|discriminate]. intros H. injection H as <-. apply find_some in F as [I _].
    assert (G : forallb (fun p => goodb (snd p)) fixed_pages = true) by (vm_compute; reflexivity). rewrite forallb_forall in G. apply (G p I).
Qed.
Lemma posts_sends {FL : Floats} : Sends rounded posted posts.
Proof.
  split; [|intros; split; reflexivity]. intros url ps t e. split; [cbn; unfold ibind; cbn; destruct (answer_json false url ps); [reflexivity|destruct (list_eqb url _); reflexivity]|].
  cbn. unfold ibind. cbn. destruct (answer_json false url ps) as [j|] eqn:A; [|destruct (list_eqb url _); split; [reflexivity|discriminate|reflexivity|discriminate]].
  cbn. split; [reflexivity|]. intros j' H. injection H as <-. apply blanked_text. apply (answers_good url ps j A).
Qed.
Lemma posted_replies url ps P : Replies (OU:=known_to false) url ps P -> Replies (OU:=posted) url ps P.
Proof.
  intros H t e. destruct (H t e) as (r & j & e' & EG & ST & EJ & HP). exists (as_text r), j, e'. unfold as_text. rewrite EJ.
  split; [|split; [exact ST|split; [reflexivity|exact HP]]]. cbn [o_get posted]. unfold ibind. rewrite EG. unfold as_text, iret. rewrite EJ. reflexivity.
Qed.
Lemma posted_serves sv : sv <> Blockchair -> (forall url, sv <> Node url) -> KnowsO posted 5 Main known addr sv.
Proof.
  intros N1 N2. exists known. split; [apply alike_refl|]. apply serves_mono with (O1 := known_to false).
  - apply posted_replies.
  - intros P H t e. destruct (H t e) as (r & e' & EG & ST & HP). exists r, e'. split; [|auto]. cbn [o_get posted]. unfold ibind. rewrite EG. vm_compute in EG. injection EG as <- _. reflexivity.
  - intros url ps H t e. destruct (H t e) as (r & e' & EG & ST). exists (as_text r), e'. split; [cbn [o_get posted]; unfold ibind; rewrite EG; reflexivity|]. unfold as_text. destruct (r_json r); exact ST.
  - intros url EV. contradiction (N2 url EV).
  - apply known_serves; [lia|]. intros X. contradiction (N1 X).
Qed.
Example C106_hypotheses {FL : Floats} : Sends rounded posted posts /\
  (forall sv, In sv (unspent_services Main ([] : list (op Z))) ->
    Down (@call_unspent toy Z (with_json posts) 5 Main addr sv) \/ KnowsO posted 5 Main known addr sv) /\
  (exists sv, In sv (unspent_services Main ([] : list (op Z))) /\ KnowsO posted 5 Main known addr sv /\ (sv = BlockchainInfo -> zlen (l_coins known) < 1000)) /\
  Forall (fun c => 0 <= c_value c < 10 ^ 9) (l_coins known).
Proof.
  split; [apply posts_sends|]. split; [|split].
  - intros sv I. cbn in I. destruct sv as [| | | | |url]; try (right; apply posted_serves; congruence).
    + left. intros [g e]. eexists _, _. split; [reflexivity|]. unfold Unusable. cbn. auto.
    + exfalso. repeat (destruct I as [I|I]; [discriminate|]). exact I.
  - exists Blockstream. split; [cbn; auto|]. split; [apply posted_serves; congruence|discriminate].
  - repeat constructor; vm_compute; congruence.
Qed.
Example C106_sent : raw_get (Wire:=posts) (str "https://api.bitcore.io/api/BTC/mainnet/address/" ++ addr ++ str "/balance") [] (Some 5) 0 =
  (Ok (200, [32; 10] ++ str "{""balance"":123609289}" ++ [13; 10]), 1).
Proof. vm_compute. reflexivity. Qed.
