(** Specification: asking several services one after the other. *)
From Verif Require Import M_services S_History.

(** The errors that mean that a service cannot be used now. *)
Definition Unusable (e : exc) : Prop := In e [ConnectionError; ReqConnectionError; ReqTimeout; ExcessiveAddress].

Section WithOutside.
Context {CR : Crypto} {E : Type} {OU : Outside E}.

(** Each of the services is asked, one after the other, and cannot be used. *)
Inductive NoneWorks {A} (ask : service -> IO (Net E) A) : list service -> Net E -> Net E -> Prop :=
| NW_nil s : NoneWorks ask [] s s
| NW_cons sv l s s1 s2 e : ask sv s = (Raise e, s1) -> Unusable e -> NoneWorks ask l s1 s2 -> NoneWorks ask (sv :: l) s s2.

(** The answer comes from the first service that works; ConnectionError if none does. *)
Inductive Answer {A} (ask : service -> IO (Net E) A) (l : list service) (s : Net E) : result A -> Net E -> Prop :=
| An_first pre sv post s1 res s2 : l = pre ++ sv :: post -> NoneWorks ask pre s s1 -> ask sv s1 = (res, s2) ->
    (forall e, res = Raise e -> ~ Unusable e) -> Answer ask l s res s2
| An_none s' : NoneWorks ask l s s' -> Answer ask l s (Raise ConnectionError) s'.

(** A service refuses a transaction if it cannot be used or says that it failed. *)
Inductive AllRefuse (ask : service -> IO (Net E) bool) : list service -> Net E -> Net E -> Prop :=
| AR_nil s : AllRefuse ask [] s s
| AR_cons sv l s s1 s2 res : ask sv s = (res, s1) -> (res = Ok false \/ exists e, res = Raise e /\ Unusable e) ->
    AllRefuse ask l s1 s2 -> AllRefuse ask (sv :: l) s s2.
Inductive Submitted (ask : service -> IO (Net E) bool) (l : list service) (s : Net E) : result unit -> Net E -> Prop :=
| Su_accepted pre sv post s1 s2 : l = pre ++ sv :: post -> AllRefuse ask pre s s1 -> ask sv s1 = (Ok true, s2) ->
    Submitted ask l s (Ok tt) s2
| Su_error pre sv post s1 s2 e : l = pre ++ sv :: post -> AllRefuse ask pre s s1 -> ask sv s1 = (Raise e, s2) -> ~ Unusable e ->
    Submitted ask l s (Raise e) s2
| Su_refused s' : AllRefuse ask l s s' -> Submitted ask l s (Raise ConnectionError) s'.

(** The services for a purpose after a history: the node if one was connected to,
    otherwise the public services. *)
Definition services_for (n : net) (main test : list service) (ops : list (op E)) : list service :=
  match connected n ops, n with Some url, _ => [Node url] | None, Main => main | None, Test => test end.
Definition balance_services n := services_for n
  [Blockchair; Blockstream; Bitcore; Smartbit; BlockchainInfo] [Blockchair; Blockstream; Bitcore; Smartbit].
Definition history_services n := services_for n
  [Blockchair; Blockstream; Smartbit; BlockchainInfo] [Blockchair; Blockstream; Smartbit].
Definition unspent_services n := services_for n
  [Blockstream; Blockchair; Smartbit; BlockchainInfo; Bitcore] [Blockstream; Blockchair; Smartbit; Bitcore].
Definition broadcast_services n := services_for n
  [Blockchair; Blockstream; Bitcore; Smartbit; BlockchainInfo] [Blockchair; Blockstream; Bitcore; Smartbit].
End WithOutside.
