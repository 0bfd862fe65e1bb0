(** Specification: servers with the Insight interface (C104). *)
From Coq Require Import String.
From Verif Require Import M_insight S_Decimal S_Servers S_Requests.

(** The address in the place of the braces. *)
Definition Braceless (s : pystr) : Prop := ~ In 123 s /\ ~ In 125 s.
Inductive Put (arg : pystr) : pystr -> pystr -> Prop :=
| P_braces before after : Braceless before -> Braceless after -> Put arg (before ++ str "{}" ++ after) (before ++ arg ++ after).

Section WithOutside.
Context {E : Type} {OU : Outside E}.
(** What is known of the address is told where the templates say; the templates for
    histories and single transactions are beginnings, without braces. *)
Definition ServesInsight (I : Insight) (L : Ledger) (address : pystr) : Prop :=
  (exists url, Put address (i_balance I) url /\ Replies url [] (eq (JInt (total L)))) /\
  Replies (i_address I ++ address) [] (Has "transactions" (JList (map JStr (l_mempool L ++ l_confirmed L)))) /\
  (exists url, Put address (i_unspent I) url /\ Replies url [] (list_of (node_coin L) (l_coins L))).
Definition ServesInsightRaw (I : Insight) (txid : pystr) (raw : option pystr) : Prop :=
  match raw with
  | Some h => Replies (i_tx I ++ txid) [] (Has "rawtx" (JStr h))
  | None => Answers (i_tx I ++ txid) 404 (fun _ => True)
  end.

(** api.bitcore.io: at an address with braces in it there is nothing. *)
Definition BitcorePages : Prop := forall url, In 123 url -> Answers url 404 (fun _ => True).
End WithOutside.
