(** C55, continued: the methods for the currencies, one by one. *)
From Coq Require Import String.
From Verif Require Import F_base M_methods S_Decimal P_rates.
From Coq Require Import List ZArith.
Import ListNotations.
Open Scope Z_scope.

Section Rates.
Context {E : Type} {OU : Outside E}.
(** Whichever currency it is, the way through the dictionary, the method of RatesAPI,
    its list and the methods of the services asks for the rate of that currency. *)
Theorem C55_methods (cur : pystr) (st : Net E) : spelled_rate cur st = exchange_rate cur st.
Proof.
  destruct (in_dec (list_eq_dec Z.eq_dec) cur (map (fun p => str (fst p)) EXCHANGE_RATES)) as [H|H].
  - cbn [map fst EXCHANGE_RATES In] in H. repeat (destruct H as [<-|H]; [reflexivity|]). destruct H.
  - assert (F : find (fun p => list_eqb (str (fst p)) cur) EXCHANGE_RATES = None).
    { match goal with |- ?x = None => destruct x as [p|] eqn:F end; auto. exfalso. apply find_some in F as [I F]. apply list_eqb_eq in F. apply H. apply in_map_iff. eauto. }
    unfold spelled_rate. rewrite F. unfold exchange_rate.
    assert (N : forall s, In s (map fst EXCHANGE_RATES) -> list_eqb cur (str s) = false).
    { intros s I. destruct (list_eqb cur (str s)) eqn:Q; auto. apply list_eqb_eq in Q. subst. exfalso. apply H. apply in_map_iff in I as (p & <- & I). apply in_map_iff. eauto. }
    rewrite !N by (cbn; auto 10).
    assert (P : precision_of cur = Raise KeyError); [|unfold ibind; rewrite P; reflexivity].
    unfold precision_of. match goal with |- context [find ?f CURRENCY_PRECISION] => destruct (find f CURRENCY_PRECISION) as [p|] eqn:G end; auto. exfalso. apply find_some in G as [I G]. apply list_eqb_eq in G. subst cur. apply H. clear -I.
    assert (K : forallb (fun q => existsb (fun e => list_eqb (str (fst e)) (fst q)) EXCHANGE_RATES) CURRENCY_PRECISION = true) by (vm_compute; reflexivity).
    rewrite forallb_forall in K. apply K in I. apply existsb_exists in I as (e & I & Q). apply list_eqb_eq in Q. rewrite <- Q. apply in_map_iff. eauto.
Qed.
(** The currencies that the library names are those it can convert. *)
Theorem C55_supported cur : In cur (map (fun p => str (fst p)) SUPPORTED_CURRENCIES) <-> exists p, In (cur, p) currencies.
Proof.
  split.
  - intros H. cbn [map fst SUPPORTED_CURRENCIES In] in H. repeat (destruct H as [<-|H]; [eexists; cbn [currencies In map fst snd]; repeat (first [left; reflexivity|right])|]). destruct H.
  - intros (p & H). cbn [currencies map fst snd In] in H. repeat (destruct H as [H|H]; [injection H as <- <-; cbn [map fst SUPPORTED_CURRENCIES In]; repeat (first [left; reflexivity|right])|]). destruct H.
Qed.
End Rates.
Print Assumptions C55_methods.
Print Assumptions C55_supported.
(** The rate of the Icelandic krona through these tables; C55_hypotheses (P_rates)
    has one of the dollar. *)
Example C55_methods_case : named RatesAPI "isk_to_satoshi" = Some "ISK_RATES"%string /\ named BlockchainRates "isk_to_satoshi" = Some "ISK"%string /\ length EXCHANGE_RATES = 25%nat.
Proof. repeat split. Qed.
