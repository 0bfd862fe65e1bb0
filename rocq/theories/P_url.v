(** C113: where the requests to a node go, and with which login. *)
From Coq Require Import String.
From Verif Require Import F_base F_decimal M_services S_Decimal F_network P_rates P_services X_toy X_net.

(** ** Specification: how a URL is read (scheme://login@host:port and the rest) *)
Definition Ends (c : Z) : Prop := c = 47 \/ c = 63 \/ c = 35.
(** What is left when the escapes with a percent sign are taken back (of ASCII characters). *)
Inductive HexDigit : Z -> Z -> Prop :=
| H_09 c : 48 <= c <= 57 -> HexDigit (c - 48) c
| H_AF c : 65 <= c <= 70 -> HexDigit (c - 55) c
| H_af c : 97 <= c <= 102 -> HexDigit (c - 87) c.
Inductive Unquoted : pystr -> pystr -> Prop :=
| U_nil : Unquoted [] []
| U_char c s t : c <> 37 -> Unquoted s t -> Unquoted (c :: s) (c :: t)
| U_escape a b x y s t : HexDigit x a -> HexDigit y b -> 16 * x + y < 128 -> Unquoted s t -> Unquoted (37 :: a :: b :: s) (16 * x + y :: t).
(** Host and port: the port follows the last colon. *)
Inductive HostPort : pystr -> pystr -> Z -> Prop :=
| HP host d port : Digits port d -> d <> [] -> HostPort (host ++ 58 :: d) host port.
(** A login goes up to the last at sign; its user up to the first colon. *)
Inductive Authority : pystr -> option (pystr * pystr) -> pystr -> Z -> Prop :=
| A_none hp host port : ~ In 64 hp -> HostPort hp host port -> Authority hp None host port
| A_login user password u p hp host port : ~ In 58 user -> Unquoted user u -> Unquoted password p -> ~ In 64 hp -> HostPort hp host port ->
    Authority ((user ++ 58 :: password) ++ 64 :: hp) (Some (u, p)) host port.
Record Target : Type := mkTarget { t_scheme : pystr; t_login : option (pystr * pystr); t_host : pystr; t_port : Z; t_rest : pystr }.
Inductive Reads : pystr -> Target -> Prop :=
| R_url scheme auth rest login host port : ~ In 58 scheme -> Forall (fun c => ~ Ends c) auth ->
    match rest with [] => True | c :: _ => Ends c end -> Authority auth login host port ->
    Reads (scheme ++ str "://" ++ auth ++ rest) (mkTarget scheme login host port rest).
(** None of these characters. *)
Definition Without (chars : string) (s : pystr) : Prop := Forall (fun c => ~ In c (str chars)) s.

(** ** A URL has one reading *)
Lemma split_first (P : Z -> Prop) (a b x y : pystr) : Forall (fun c => ~ P c) a -> Forall (fun c => ~ P c) b ->
  match x with [] => True | c :: _ => P c end -> match y with [] => True | c :: _ => P c end -> a ++ x = b ++ y -> a = b /\ x = y.
Proof.
  intros HA. revert b. induction HA as [|c a Hc HA IH]; intros b HB HX HY HE.
  - destruct HB as [|d b Hd HB]; [auto|]. cbn in HE. subst x. contradiction.
  - destruct HB as [|d b Hd HB].
    + cbn in HE. subst y. contradiction.
    + cbn in HE. injection HE as -> HE. destruct (IH _ HB HX HY HE). subst. auto.
Qed.
Lemma split_at c (a b x y : pystr) : ~ In c a -> ~ In c b -> a ++ c :: x = b ++ c :: y -> a = b /\ x = y.
Proof.
  intros HA HB HE. assert (F : forall l, ~ In c l -> Forall (fun z => ~ z = c) l).
  { intros l H. apply Forall_forall. intros z I ->. contradiction. }
  destruct (split_first (fun z => z = c) a b (c :: x) (c :: y) (F _ HA) (F _ HB) eq_refl eq_refl HE) as [-> Q]. injection Q as ->. auto.
Qed.
Lemma split_last c (a b x y : pystr) : ~ In c x -> ~ In c y -> a ++ c :: x = b ++ c :: y -> a = b /\ x = y.
Proof.
  intros HX HY HE. apply (f_equal (@rev Z)) in HE. rewrite !rev_app_distr in HE. cbn [rev] in HE. rewrite <- !app_assoc in HE. cbn [app] in HE.
  apply split_at in HE as [H1 H2]; try (rewrite <- in_rev; assumption).
  apply (f_equal (@rev Z)) in H1, H2. rewrite !rev_involutive in *. auto.
Qed.
Lemma digits_range d port : Digits port d -> Forall (fun c => 48 <= c <= 57) d.
Proof. induction 1 as [|n ds x D IH Hx]; [constructor|]. apply Forall_app. split; [exact IH|]. repeat constructor; lia. Qed.
Lemma digits_not d port c : Digits port d -> c < 48 \/ 57 < c -> ~ In c d.
Proof. intros D Hc I. pose proof (digits_range _ _ D) as F. rewrite Forall_forall in F. specialize (F c I). cbv beta in F. lia. Qed.
Lemma hostport_one hp h p h' p' : HostPort hp h p -> HostPort hp h' p' -> h = h' /\ p = p'.
Proof.
  intros H1 H2. destruct H1 as [h d p D NE]. remember (h ++ 58 :: d) as s eqn:ES. destruct H2 as [h' d' p' D' NE'].
  apply split_last in ES as [-> ->]; [|eapply digits_not; eauto; lia|eapply digits_not; eauto; lia].
  split; [reflexivity|]. rewrite <- (Digits_num _ _ D). apply Digits_num. exact D'.
Qed.
Lemma hex_one x y a : HexDigit x a -> HexDigit y a -> x = y.
Proof. intros H1 H2. inversion H1; subst; inversion H2; subst; lia. Qed.
Lemma unquoted_one s t t' : Unquoted s t -> Unquoted s t' -> t = t'.
Proof.
  intros H. revert t'. induction H as [|c s t Hc H IH|a b x y s t HA HB L H IH]; intros t' H'.
  - inversion H'. reflexivity.
  - inversion H'; subst; [|congruence]. f_equal. auto.
  - inversion H' as [|c0 s0 t0 Hc Q|a0 b0 x0 y0 s0 t0 A0 B0 L0 Q]; subst; [congruence|].
    rewrite (hex_one _ _ _ HA A0), (hex_one _ _ _ HB B0). f_equal. auto.
Qed.
Lemma authority_one s l h p l' h' p' : Authority s l h p -> Authority s l' h' p' -> l = l' /\ h = h' /\ p = p'.
Proof.
  intros H1 H2. destruct H1 as [hp h p N HP|us pw u w hp h p Nu Uu Uw N HP].
  - destruct H2 as [hp h' p' N' HP'|us pw u w hp' h' p' Nu Uu Uw N' HP'].
    + destruct (hostport_one _ _ _ _ _ HP HP'). auto.
    + exfalso. apply N. apply in_or_app. right. left. reflexivity.
  - remember ((us ++ 58 :: pw) ++ 64 :: hp) as s eqn:ES. destruct H2 as [hp' h' p' N' HP'|us' pw' u' w' hp' h' p' Nu' Uu' Uw' N' HP'].
    + exfalso. apply N'. rewrite ES. apply in_or_app. right. left. reflexivity.
    + apply split_last in ES as [E1 ->]; auto. apply split_at in E1 as [-> ->]; auto. destruct (hostport_one _ _ _ _ _ HP HP'). 
      rewrite (unquoted_one _ _ _ Uu Uu'), (unquoted_one _ _ _ Uw Uw'). auto.
Qed.
Theorem C113_one_reading url t t' : Reads url t -> Reads url t' -> t = t'.
Proof.
  intros H1 H2. destruct H1 as [sc au re lo ho po N F R A]. remember (sc ++ str "://" ++ au ++ re) as s eqn:ES. destruct H2 as [sc' au' re' lo' ho' po' N' F' R' A'].
  change (str "://") with [58; 47; 47] in ES. cbn [app] in ES. apply split_at in ES as [-> E1]; auto. injection E1 as E1.
  apply (split_first Ends) in E1 as [-> ->]; auto. destruct (authority_one _ _ _ _ _ _ _ A A') as (-> & -> & ->). reflexivity.
Qed.

(** ** What the code makes *)
Lemma without_not c chars s : Without chars s -> In c (str chars) -> ~ In c s.
Proof. unfold Without. rewrite Forall_forall. intros H I J. exact (H c J I). Qed.
Lemma without_unquoted chars s : Without chars s -> In 37 (str chars) -> Unquoted s s.
Proof.
  intros H I. induction H as [|c s Hc H IH]; constructor; auto. intros ->. contradiction.
Qed.
Lemma without_ends chars s : Without chars s -> In 47 (str chars) -> In 63 (str chars) -> In 35 (str chars) -> Forall (fun c => ~ Ends c) s.
Proof. intros H I1 I2 I3. eapply Forall_impl; [|exact H]. cbv beta. intros c Hc [->|[->| ->]]; contradiction. Qed.
Lemma port_digits port : 0 <= port -> Digits port (str_of_int port) /\ str_of_int port <> [].
Proof. intros H. apply str_of_int_digits. exact H. Qed.
Lemma port_ends port : 0 <= port -> Forall (fun c => ~ Ends c) (str_of_int port).
Proof. intros H. destruct (port_digits port H) as [D _]. eapply Forall_impl; [|apply (digits_range _ _ D)]. cbv beta. unfold Ends. lia. Qed.
Definition http (https : bool) : pystr := if https then str "https" else str "http".
Lemma url_is user password host port https path :
  node_url user password host port https path = http https ++ str "://" ++ ((user ++ 58 :: password) ++ 64 :: host ++ 58 :: str_of_int port) ++ 47 :: path.
Proof.
  unfold node_url, http. change (str ":") with [58]. change (str "@") with [64]. change (str "/") with [47].
  destruct https; [change (str "https") with (str "http" ++ str "s")|]; repeat (rewrite <- app_assoc; cbn [app]); reflexivity.
Qed.
Lemma http_colon https : ~ In 58 (http https).
Proof. destruct https; vm_compute; intuition congruence. Qed.

Section WithOutside.
Context {E : Type} {OU : Outside E}.
(** The services asked about a network are this node and no other. *)
Definition Only (n : net) (url : pystr) (g : Globals) : Prop :=
  apis n g = mkApis [Node url] [Node url] [Node url] [Node url] [Node url].
Lemma connects user password host port https testnet path (s : Net E) : exists s', 
  connect_to_node user password host port https testnet path s = (Ok (node_url user password host port https path), s') /\
  Only (if testnet then Test else Main) (node_url user password host port https path) (n_globals s').
Proof. eexists. split; [reflexivity|]. destruct s as [g e], testnet; reflexivity. Qed.
(** C113: the node asked is the one given, by the login given, encrypted or not as given. *)
Theorem C113_node user password host port https testnet path (s : Net E) :
  Without ":/?#%" user -> Without "/?#%" password -> Without "@/?#" host -> 0 <= port -> exists url s',
  connect_to_node user password host port https testnet path s = (Ok url, s') /\
  Only (if testnet then Test else Main) url (n_globals s') /\
  Reads url (mkTarget (if https then str "https" else str "http") (Some (user, password)) host port (str "/" ++ path)).
Proof.
  intros HU HW HH HP. destruct (connects user password host port https testnet path s) as (s' & EC & HO). exists (node_url user password host port https path), s'.
  split; [exact EC|]. split; [exact HO|]. rewrite url_is. destruct (port_digits port HP) as [D NE].
  apply R_url; [apply http_colon| |left; reflexivity|].
  - repeat (apply Forall_app; split); try constructor; try (unfold Ends; lia).
    + apply (without_ends _ _ HU); vm_compute; tauto.
    + apply (without_ends _ _ HW); vm_compute; tauto.
    + apply Forall_app; split; [apply (without_ends _ _ HH); vm_compute; tauto|]. constructor; [unfold Ends; lia|]. apply port_ends. exact HP.
  - apply A_login; [apply (without_not _ _ _ HU); vm_compute; tauto|apply (without_unquoted _ _ HU); vm_compute; tauto|apply (without_unquoted _ _ HW); vm_compute; tauto| |constructor; auto].
    intros I. apply in_app_or in I as [I|[I|I]]; [exact (without_not _ _ _ HH ltac:(vm_compute; tauto) I)|discriminate I|].
    apply (digits_not _ _ 64 D) in I; [exact I|lia].
Qed.
(** C113: so two nodes that differ in anything have two URLs. *)
Theorem C113_distinct u w h p b t q u' w' h' p' b' t' q' (s s2 : Net E) r r' : 
  Without ":/?#%" u -> Without "/?#%" w -> Without "@/?#" h -> 0 <= p -> Without ":/?#%" u' -> Without "/?#%" w' -> Without "@/?#" h' -> 0 <= p' ->
  connect_to_node u w h p b t q s = r -> connect_to_node u' w' h' p' b' t' q' s2 = r' -> fst r = fst r' ->
  (u, w, h, p, b, q) = (u', w', h', p', b', q').
Proof.
  intros A1 A2 A3 A4 B1 B2 B3 B4 <- <- HE.
  destruct (C113_node u w h p b t q s A1 A2 A3 A4) as (url & s1 & EC & _ & R). destruct (C113_node u' w' h' p' b' t' q' s2 B1 B2 B3 B4) as (url' & s1' & EC' & _ & R').
  rewrite EC, EC' in HE. cbn [fst] in HE. injection HE as <-. pose proof (C113_one_reading _ _ _ R R') as Q. injection Q as Q1 -> -> -> -> ->.
  replace b' with b; [reflexivity|]. destruct b, b'; try reflexivity; discriminate Q1.
Qed.

(** ** Other logins *)
(** C113: a password with a slash: if it begins with digits, what is asked is the host of
    the name of the user. *)
Theorem C113_slash user d pp x host port https testnet path (s : Net E) : Without "@/?#" user -> Digits pp d -> d <> [] -> exists url s' rest,
  connect_to_node user (d ++ str "/" ++ x) host port https testnet path s = (Ok url, s') /\
  Reads url (mkTarget (if https then str "https" else str "http") None user pp rest).
Proof.
  intros HU D NE. destruct (connects user (d ++ str "/" ++ x) host port https testnet path s) as (s' & EC & _). eexists _, s', _. split; [exact EC|].
  rewrite url_is. assert (EQ : ((user ++ 58 :: d ++ str "/" ++ x) ++ 64 :: host ++ 58 :: str_of_int port) ++ 47 :: path =
    (user ++ 58 :: d) ++ (47 :: x ++ 64 :: host ++ 58 :: str_of_int port ++ 47 :: path)).
  { change (str "/") with [47]. repeat (rewrite <- app_assoc; cbn [app]). reflexivity. }
  rewrite EQ. apply R_url; [apply http_colon| |left; reflexivity|].
  - apply Forall_app; split; [apply (without_ends _ _ HU); vm_compute; tauto|]. constructor; [unfold Ends; lia|].
    eapply Forall_impl; [|apply (digits_range _ _ D)]. cbv beta. unfold Ends. lia.
  - apply A_none; [|constructor; auto]. intros I. apply in_app_or in I as [I|[I|I]]; [exact (without_not _ _ _ HU ltac:(vm_compute; tauto) I)|discriminate I|].
    apply (digits_not _ _ 64 D) in I; [exact I|lia].
Qed.
(** C113: a colon in the name of the user: the rest of the name goes to the password. *)
Theorem C113_colon u1 u2 password host port https testnet path (s : Net E) :
  Without ":/?#%" u1 -> Without "/?#%" u2 -> Without "/?#%" password -> Without "@/?#" host -> 0 <= port -> exists url s',
  connect_to_node (u1 ++ str ":" ++ u2) password host port https testnet path s = (Ok url, s') /\
  Reads url (mkTarget (if https then str "https" else str "http") (Some (u1, u2 ++ str ":" ++ password)) host port (str "/" ++ path)).
Proof.
  intros H1 H2 HW HH HP. assert (HW2 : Without "/?#%" (u2 ++ str ":" ++ password)).
  { apply Forall_app. split; [exact H2|]. apply Forall_app. split; [|exact HW]. constructor; [vm_compute; intuition congruence|constructor]. }
  destruct (C113_node u1 (u2 ++ str ":" ++ password) host port https testnet path s H1 HW2 HH HP) as (url & s1 & EC & _ & R).
  destruct (connects (u1 ++ str ":" ++ u2) password host port https testnet path s) as (s' & EC' & _). eexists _, s'. split; [exact EC'|].
  destruct (connects u1 (u2 ++ str ":" ++ password) host port https testnet path s) as (s2 & EC2 & _). rewrite EC2 in EC. injection EC as <- _.
  rewrite url_is in R |- *. change (str ":") with [58] in R |- *.
  replace ((u1 ++ [58] ++ u2) ++ 58 :: password) with (u1 ++ 58 :: u2 ++ [58] ++ password); [exact R|].
  repeat (rewrite <- app_assoc; cbn [app]). reflexivity.
Qed.
End WithOutside.
(** One could expect that any password can be used.  One with a slash sends what follows it
    to a host of the user's name; one with a percent sign is changed. *)
Theorem C113_any_login_refuted : ~ (forall user password host port, Without ":/?#%@" user -> Without "@/?#" host -> 0 <= port ->
  forall (s : Net Z) url s', connect_to_node user password host port false false [] s = (Ok url, s') ->
  exists t, Reads url t /\ t_host t = host).
Proof.
  intros H. set (s := mkNet (initial_globals 0 0) 0).
  destruct (C113_slash (E:=Z) (str "rpc") (str "12") 12 (str "34") (str "localhost") 8332 false false [] s) as (url & s' & rest & EC & R).
  - repeat constructor; vm_compute; intuition congruence.
  - apply (Dsnoc 1 [49] 2); [apply (Dsnoc 0 [] 1); [constructor|lia]|lia].
  - discriminate.
  - destruct (H (str "rpc") (str "12/34") (str "localhost") 8332) with (s := s) (url := url) (s' := s') as (t & RT & HT).
    + repeat constructor; vm_compute; intuition congruence.
    + repeat constructor; vm_compute; intuition congruence.
    + lia.
    + exact EC.
    + pose proof (C113_one_reading _ _ _ RT R) as ->. discriminate HT.
Qed.
Theorem C113_percent_refuted : ~ (forall user password host port, Without ":/?#%@" user -> Without ":/?#@" password -> Without "@/?#" host -> 0 <= port ->
  forall (s : Net Z) url s', connect_to_node user password host port false false [] s = (Ok url, s') ->
  exists t, Reads url t /\ t_login t = Some (user, password)).
Proof.
  intros H. set (s := mkNet (initial_globals 0 0) 0).
  destruct (connects (E:=Z) (str "rpc") (str "a%41") (str "localhost") 8332 false false [] s) as (s' & EC & _).
  assert (W1 : Without ":/?#%@" (str "rpc")) by (repeat constructor; vm_compute; intuition congruence).
  assert (W2 : Without ":/?#@" (str "a%41")) by (repeat constructor; vm_compute; intuition congruence).
  assert (W3 : Without "@/?#" (str "localhost")) by (repeat constructor; vm_compute; intuition congruence).
  destruct (H (str "rpc") (str "a%41") (str "localhost") 8332 W1 W2 W3 ltac:(lia) s _ s' EC) as (t & RT & HT).
  assert (R : Reads (node_url (str "rpc") (str "a%41") (str "localhost") 8332 false []) (mkTarget (str "http") (Some (str "rpc", str "aA")) (str "localhost") 8332 (str "/"))).
  { rewrite url_is. apply R_url; [apply (http_colon false)| |left; reflexivity|].
    - vm_compute. repeat (constructor; [intuition congruence|]). constructor.
    - apply A_login; [vm_compute; intuition congruence| | |vm_compute; intuition congruence|constructor; apply port_digits; lia].
      + vm_compute. repeat (apply U_char; [lia|]). constructor.
      + change (str "a%41") with [97; 37; 52; 49]. change (str "aA") with (97 :: (16 * 4 + 1) :: []). apply U_char; [lia|]. apply (U_escape 52 49 4 1); [apply (H_09 52); lia|apply (H_09 49); lia|lia|constructor]. }
  pose proof (C113_one_reading _ _ _ RT R) as ->. discriminate HT.
Qed.

(** ** The hypotheses are met *)
Example C113_case : exists url s', connect_to_node (str "bit") (str "p@ss:w0rd") (str "[::1]") 18443 true true (str "wallet/w") (mkNet (initial_globals 0 0) 0) = (Ok url, s') /\
  url = str "https://bit:p@ss:w0rd@[::1]:18443/wallet/w" /\
  Reads url (mkTarget (str "https") (Some (str "bit", str "p@ss:w0rd")) (str "[::1]") 18443 (str "/wallet/w")).
Proof.
  assert (W1 : Without ":/?#%" (str "bit")) by (repeat constructor; vm_compute; intuition congruence).
  assert (W2 : Without "/?#%" (str "p@ss:w0rd")) by (repeat constructor; vm_compute; intuition congruence).
  assert (W3 : Without "@/?#" (str "[::1]")) by (repeat constructor; vm_compute; intuition congruence).
  destruct (C113_node (E:=Z) (str "bit") (str "p@ss:w0rd") (str "[::1]") 18443 true true (str "wallet/w") (mkNet (initial_globals 0 0) 0) W1 W2 W3 ltac:(lia)) as (url & s' & EC & _ & R).
  exists url, s'. split; [exact EC|]. split; [|exact R]. assert (Q : fst (connect_to_node (str "bit") (str "p@ss:w0rd") (str "[::1]") 18443 true true (str "wallet/w") (mkNet (initial_globals 0 0) 0)) = Ok (str "https://bit:p@ss:w0rd@[::1]:18443/wallet/w")) by (vm_compute; reflexivity).
  rewrite EC in Q. injection Q as <-. reflexivity.
Qed.
Example C113_slash_case : Without "@/?#" (str "rpc") /\ Digits 12 (str "12").
Proof. split; [repeat constructor; vm_compute; intuition congruence|]. apply (Dsnoc 1 [49] 2); [apply (Dsnoc 0 [] 1); [constructor|lia]|lia]. Qed.
Example C113_colon_case : Without ":/?#%" (str "user") /\ Without "/?#%" (str "name") /\ Without "@/?#" (str "localhost").
Proof. split; [|split]; repeat constructor; vm_compute; intuition congruence. Qed.

Print Assumptions C113_one_reading.
Print Assumptions C113_node.
Print Assumptions C113_distinct.
Print Assumptions C113_slash.
Print Assumptions C113_colon.
Print Assumptions C113_any_login_refuted.
Print Assumptions C113_percent_refuted.
