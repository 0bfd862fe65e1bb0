(** The fee that is asked for anew at every call (C58). *)
From Coq Require Import String.
From Verif Require Import M_fees S_History P_network X_net X_toy F_base.

Section WithOutside.
Context {E : Type} {OU : Outside E}.

(** What an answer of the fee service says, whatever its status. *)
Definition Names (fast : bool) (resp : Response) (x : Z) : Prop :=
  exists j, r_json resp = Ok j /\ jget (if fast then "fastestFee" else "hourFee")%string j = Ok (JInt x).

(** [get_fee] makes one request, whatever was fetched before, and remembers
    nothing: the settings and both cached fees are those from before.  It
    returns a number exactly if the answer names it.  An error of the request
    goes to the caller: no default takes its place. *)
Theorem C58_get_fee fast (s : Net E) res s' : get_fee fast s = (res, s') ->
  n_globals s' = n_globals s /\
  exists r, o_get (str "https://mempool.space/api/v1/fees/recommended") [] None (n_outside s) = (r, n_outside s') /\
    match r with
    | Raise err => res = Raise err
    | Ok resp => (forall x, res = Ok x <-> Names fast resp x) /\ (forall err, r_json resp = Raise err -> res = Raise err) /\
        (forall j err, r_json resp = Ok j -> res = Raise err -> err = KeyError \/ err = TypeError)
    end.
Proof.
  unfold get_fee, get_untimed, outside, zoom, ibind, ilift, Names. destruct s as [g e]. cbn [n_outside n_globals].
  change (str "https://mempool.space/api/v1/fees/recommended") with fee_url. destruct (o_get fee_url [] None e) as [[resp|err] e'] eqn:G; intros EQ; cbv beta iota in EQ; cbn [n_outside n_globals] in EQ.
  - assert (S' : s' = mkNet g e') by congruence. subst s'. split; [reflexivity|]. exists (Ok resp). split; [reflexivity|].
    assert (R : (j <- r_json resp;; x <- jget (fee_key fast) j;; jint x) = res) by congruence. clear EQ. change (fee_key fast) with (if fast then "fastestFee" else "hourFee")%string in R. cbn [bind] in R.
    subst res. destruct (r_json resp) as [j|er] eqn:J; cbn [bind].
    + set (q := jget _ j). assert (Q : forall er, q = Raise er -> er = KeyError \/ er = TypeError).
      { intros er H. unfold q, jget in H. destruct j; try (right; congruence). destruct (find _ _); [discriminate|left; congruence]. }
      split; [|split].
      * intros x. split.
        -- intros H. exists j. split; [reflexivity|]. fold q. destruct q as [v|er]; cbn [bind] in H; [|discriminate]. destruct v; cbn [jint] in H; try discriminate. congruence.
        -- intros (j' & E1 & E2). assert (j' = j) as -> by congruence. fold q in E2. rewrite E2. reflexivity.
      * intros err H. discriminate.
      * intros j' err _ H. destruct q as [v|er]; cbn [bind] in H; [|injection H as <-; apply Q; reflexivity]. destruct v; cbn [jint] in H; try discriminate; right; congruence.
    + split; [|split].
      * intros x. split; [discriminate|]. intros (j & E1 & _). discriminate.
      * intros err H. congruence.
      * intros j err H. discriminate.
  - assert (S' : s' = mkNet g e') by congruence. subst s'. split; [reflexivity|]. exists (Raise err). split; [reflexivity|]. congruence.
Qed.

(** Answers of error status are not told from others by [get_fee].  The cached
    function takes none of them: its result stays what it was. *)
Theorem C58_error_status fast (s : Net E) now e1 resp e2 x : o_time (n_outside s) = (Ok now, e1) -> o_get fee_url [] None e1 = (Ok resp, e2) ->
  400 <= r_status resp < 600 -> Names fast resp x ->
  get_fee fast (mkNet (n_globals s) e1) = (Ok x, mkNet (n_globals s) e2) /\
  exists c, fst (get_fee_cached fast s) = Ok c /\ n_globals (snd (get_fee_cached fast s)) = n_globals s /\
    (fst (fee_entry fast (n_globals s)) = Some c \/ fst (fee_entry fast (n_globals s)) = None /\ c = if fast then 72 else 62).
Proof.
  intros T G ST N. split.
  - destruct (get_fee fast (mkNet (n_globals s) e1)) as [res s'] eqn:R. destruct (C58_get_fee _ _ _ _ R) as (GG & r & O & M). cbn [n_outside n_globals] in *.
    change (str "https://mempool.space/api/v1/fees/recommended") with fee_url in O. assert (r = Ok resp) as -> by congruence. assert (E2 : n_outside s' = e2) by congruence.
    destruct M as (M & _). rewrite (proj2 (M x) N). destruct s' as [g' e']. cbn [n_outside n_globals] in *. congruence.
  - pose proof (fee_cases fast s now e1 T) as F. destruct (fee_entry fast (n_globals s)) as [cached t]. cbn [fst].
    destruct F as [(y & -> & _ & _ & Q)|(_ & ans & e3 & A & Q)].
    + exists y. rewrite Q. cbn [fst snd n_globals]. auto.
    + assert (AN : ans = Raise HTTPError).
      { inversion A; subst; match goal with H : o_get _ _ _ _ = _ |- _ => rewrite G in H end; try congruence;
        match goal with H : (Ok ?a, _) = (Ok ?b, _) |- _ => assert (a = b) by congruence; subst end; lia. }
      subst ans. rewrite Q. cbn [fst snd n_globals fee_ignored]. destruct cached as [y|]; eexists; repeat split; auto.
Qed.
End WithOutside.

(** An error page that holds both numbers. *)
Example C58_error_case : let page := Ok (mkResp 503 [] (Ok (JObj [(str "fastestFee", JInt 30); (str "hourFee", JInt 10)]))) in
  fst (get_fee true (start 0 0 ([page], 5))) = Ok 30 /\ fst (get_fee false (start 0 0 ([page], 5))) = Ok 10 /\
  fst (get_fee_cached true (start 0 0 ([page], 5))) = Ok 72 /\ fst (get_fee true (start 0 0 ([Raise ReqTimeout], 5))) = Raise ReqTimeout.
Proof. vm_compute. auto. Qed.

Print Assumptions C58_get_fee.
Print Assumptions C58_error_status.
