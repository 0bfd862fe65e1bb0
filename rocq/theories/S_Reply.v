(** Specification: replies as texts (C106, C107). *)
From Coq Require Import String.
From Verif Require Import M_reply M_insight S_Servers S_Insight S_Loads S_Prepared S_Requests S_Float.

Section WithFloats.
Context (float : pystr -> pystr * dec) {E : Type}.

(** One reply, whose content [r_json] is, and as it is sent: in any of the ways in
    which JSON can be written. *)
Definition Sent (r : Response) (x : Z * pystr) : Prop :=
  x = (r_status r, r_text r) /\ forall j, r_json r = Ok j -> LText float j (r_text r) /\ Unrepeated j.
Definition SentAlike (a : result Response * E) (b : result (Z * pystr) * E) : Prop :=
  snd a = snd b /\
  match fst a, fst b with
  | Ok r, Ok x => Sent r x
  | Raise y, Raise z => y = z
  | _, _ => False
  end.
(** The servers are as in [O], and [R] is what they send. *)
Definition Sends (O : Outside E) (R : Wire E) : Prop :=
  (forall url ps t e, SentAlike (o_get (Outside:=O) url ps t e) (raw_get url ps t e)) /\
  (forall url m args t e, SentAlike (o_rpc (Outside:=O) url m args t e) (raw_rpc url m args t e)).

(** ** A node, its amounts written with eight places *)
Context {R : Wire E}.
Definition node_written (L : Ledger) (c : Coin) (j : json) : Prop := exists t,
  NodeAmount (c_value c) t /\ Has "amount" (JFloat (fst (float t)) (snd (float t))) j /\ FloatOf (bitcoins (c_value c)) (fst (float t)) (snd (float t)) /\
  Has "confirmations" (JInt (confirmations L c)) j /\ Has "scriptPubKey" (JStr (l_script L)) j /\
  Has "txid" (JStr (c_txid c)) j /\ Has "vout" (JInt (c_index c)) j.
Definition SendsRpc (url : pystr) (method : string) (args : list json) (P : json -> Prop) : Prop :=
  forall t e, exists text j v e', raw_rpc url (str method) args t e = (Ok (200, text), e') /\ LText float j text /\ Unrepeated j /\
    (Lacks "error" j \/ Has "error" JNull j) /\ Has "result" v j /\ P v.
Definition SendsCoins (url : pystr) (L : Ledger) (address : pystr) : Prop :=
  SendsRpc url "listunspent" [JInt 0; JInt 9999999; JList [JStr address]] (list_of (node_written L) (l_coins L)).
Definition SendsReceived (url : pystr) (V : Z) (address : pystr) : Prop :=
  SendsRpc url "getreceivedbyaddress" [JStr address; JInt 0] (fun j => exists t,
    NodeAmount V t /\ j = JFloat (fst (float t)) (snd (float t)) /\ FloatOf (bitcoins V) (fst (float t)) (snd (float t))).

(** ** An Insight server, likewise *)
Definition SendsGet (url : pystr) (P : json -> Prop) : Prop :=
  forall t e, exists text j e', raw_get url [] t e = (Ok (200, text), e') /\ LText float j text /\ Unrepeated j /\ P j.
Definition SendsInsight (I : Insight) (L : Ledger) (address : pystr) : Prop :=
  (exists url, Put address (i_balance I) url /\ SendsGet url (eq (JInt (total L)))) /\
  SendsGet (i_address I ++ address) (Has "transactions" (JList (map JStr (l_mempool L ++ l_confirmed L)))) /\
  (exists url, Put address (i_unspent I) url /\ SendsGet url (list_of (node_written L) (l_coins L))).
End WithFloats.
