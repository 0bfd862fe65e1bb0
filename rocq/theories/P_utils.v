(** Property theorems C01 - C05: bit/utils.py. *)
From Coq Require Import String.
From Verif Require Import M_utils S_Wire S_Script S_Hex F_utils F_hex.

(** C01: CompactSize integers. *)
Theorem C01_varint_is_compact_size :
  forall v e, int_to_varint v = Ok e <-> CompactSize v e.
Proof. exact varint_spec. Qed.

Theorem C01_varint_roundtrip :
  forall v e rest, int_to_varint v = Ok e -> read_var_int (e ++ rest) = Ok (v, rest).
Proof. exact read_var_int_varint. Qed.

Theorem C01_varint_total :
  forall v, if (0 <=? v) && (v <? 2 ^ 64) then exists e, int_to_varint v = Ok e
            else int_to_varint v = Raise OverflowError.
Proof.
  intros v. dif E.
  - rewrite varint_ok by lia. eauto.
  - apply varint_raise. lia.
Qed.

Example C01_example : int_to_varint 70000 = Ok [254; 112; 17; 1; 0].
Proof. reflexivity. Qed.

(** C02: hexadecimal helpers. *)
Theorem C02_bytes_to_hex :
  forall b, bytes_ok b = true ->
  HexOf b (bytes_to_hex b) /\ lower (bytes_to_hex b) = bytes_to_hex b /\
  hex_to_bytes (bytes_to_hex b) = Ok b.
Proof.
  intros b H. split; [|split].
  - exact (bytes_to_hex_HexOf b H).
  - exact (lower_bytes_to_hex b H).
  - exact (hex_to_bytes_to_hex b H).
Qed.

(** Strings of hexadecimal digits, with a 0 put in front if the length is odd. *)
Theorem C02_hex_to_bytes :
  forall h, Forall (fun c => exists v, hexdigit c v) h ->
  let h' := if Nat.odd (length h) then 48 :: h else h in
  exists b, hex_to_bytes h = Ok b /\ bytes_ok b = true /\ HexOf b h' /\ bytes_to_hex b = lower h'.
Proof.
  intros h Hh h'. apply forallb_is_hex in Hh.
  destruct (hex_to_bytes_hex h Hh) as (b & Hb & Hok & Hl). exists b. repeat split; auto.
  assert (He : Nat.even (length h') = true).
  { subst h'. destruct (Nat.odd (length h)) eqn:E; [simpl length; rewrite Nat.even_succ; exact E|]. rewrite <- Nat.negb_odd, E. reflexivity. }
  assert (Hx : forallb is_hex h' = true).
  { subst h'. destruct (Nat.odd (length h)); auto. }
  destruct (HexOf_exists h' He Hx) as (b2 & H2). unfold hex_to_bytes in Hb.
  change (fromhex h' = Ok b) in Hb. rewrite (HexOf_fromhex _ _ H2) in Hb. oinv Hb. exact H2.
Qed.

Theorem C02_hex_to_bytes_rejects :
  forall h c, In c h -> (forall v, ~ hexdigit c v) ->
  ~ (c = 32 \/ 9 <= c <= 13) (* not whitespace *) -> hex_to_bytes h = Raise ValueError.
Proof.
  intros h c Hin Hv Hs. apply (hex_to_bytes_bad h c); auto.
  - apply hexdigit_none; auto.
  - unfold is_space. lia.
Qed.

Theorem C02_flip :
  forall b h, bytes_ok b = true -> HexOf b h ->
  exists f, flip_hex_byte_order h = Ok f /\ HexOf (rev b) f /\ flip_hex_byte_order f = Ok (lower h).
Proof.
  intros b h Hb H. exists (bytes_to_hex (rev b)).
  assert (Hr : bytes_ok (rev b) = true) by (rewrite bytes_ok_rev; auto).
  split; [|split].
  - exact (flip_HexOf b h Hb H).
  - exact (bytes_to_hex_HexOf _ Hr).
  - rewrite (flip_HexOf _ _ Hr (bytes_to_hex_HexOf _ Hr)), rev_involutive. f_equal.
    assert (Hh : forallb is_hex h = true /\ Nat.even (length h) = true).
    { split.
      - clear - H. induction H; auto. simpl. rewrite IHHexOf, andb_true_r. apply andb_true_intro.
        split; apply is_hex_digit; eauto.
      - rewrite (HexOf_length _ _ H). apply Nat.even_spec. exists (length b). lia. }
    destruct (fromhex_hex h (proj2 Hh) (proj1 Hh)) as (b' & E & _ & El).
    rewrite (HexOf_fromhex _ _ H) in E. oinv E. exact El.
Qed.

Example C02_example :
  exists b, HexOf b (str "DEadbE") /\ bytes_ok b = true /\ rev b = [190; 173; 222].
Proof.
  exists [222; 173; 190]. split; [|split; reflexivity].
  repeat (econstructor; [apply hexdigit_val; reflexivity|apply hexdigit_val; reflexivity|reflexivity|]). constructor.
Qed.

(** C03: integers to bytes of minimal length. *)
Theorem C03_int_to_unknown_bytes :
  forall n, 0 <= n ->
  exists b, int_to_unknown_bytes n = Ok b /\ int_to_unknown_bytes_le n = Ok (rev b) /\
            bytes_ok b = true /\ b <> [] /\ from_be b = n /\ from_le (rev b) = n /\
            (forall c, bytes_ok c = true -> c <> [] -> from_be c = n -> (length b <= length c)%nat).
Proof.
  intros n Hn. exists (rev (le_bytes (unknown_len n) n)).
  pose proof (int_to_unknown_bytes_ok n Hn) as E.
  pose proof (unknown_len_upper n Hn). pose proof (unknown_len_pos n).
  split; [exact E|]. rewrite rev_involutive. split; [exact (int_to_unknown_bytes_le_ok n Hn)|].
  split; [rewrite bytes_ok_rev; apply le_bytes_ok|]. split.
  { intros C. apply (f_equal (@length Z)) in C. rewrite rev_length, le_bytes_length in C. simpl in C. lia. }
  split; [apply from_be_be_bytes; lia|]. split; [apply from_le_le_bytes; lia|].
  intros c. exact (unknown_bytes_minimal n _ c E).
Qed.

Theorem C03_negative_raises :
  forall n, n < 0 -> int_to_unknown_bytes n = Raise OverflowError /\ int_to_unknown_bytes_le n = Raise OverflowError.
Proof.
  intros n H. unfold int_to_unknown_bytes, int_to_unknown_bytes_le.
  replace (n <? 0) with true by lia. auto.
Qed.

Theorem C03_hex_to_int_of_int : forall n, 0 <= n -> hex_to_int (int_to_hex n) = Ok n.
Proof. exact hex_to_int_of_int. Qed.

Example C03_example : int_to_unknown_bytes 65536 = Ok [1; 0; 0] /\ int_to_hex 65536 = str "10000".
Proof. split; reflexivity. Qed.

(** C04: chunks. *)
Theorem C04_chunks :
  forall (A : Type) (d : list A) size, (1 <= size)%nat ->
  concat (chunk_data d size) = d /\
  forall i c, nth_error (chunk_data d size) i = Some c ->
    (1 <= length c <= size)%nat /\ (S i < length (chunk_data d size) -> length c = size)%nat.
Proof. intros A d size H. split; [exact (chunk_data_concat size d H)|exact (chunk_data_sizes size d H)]. Qed.

Example C04_example : chunk_data [1;2;3;4;5] 2 = [[1;2];[3;4];[5]].
Proof. reflexivity. Qed.

(** C05: script pushes. *)
Theorem C05_script_push :
  forall d rest, zlen d < 2 ^ 32 ->
  exists p, script_push (zlen d) = Ok p /\ next_op (p ++ d ++ rest) = Some (Push d, rest).
Proof.
  intros d rest H.
  destruct (proj2 (script_push_defined (zlen d))) as (p & Hp); [unfold zlen in *; lia|].
  exists p. split; [exact Hp|exact (script_push_next d rest p Hp)].
Qed.

Theorem C05_script_push_rejects :
  forall v, ~ (0 <= v < 2 ^ 32) -> script_push v = Raise OverflowError.
Proof. exact script_push_raise. Qed.

Example C05_example : script_push (zlen (repeat 7 80)) = Ok [76; 80].
Proof. reflexivity. Qed.

Print Assumptions C01_varint_is_compact_size.
Print Assumptions C01_varint_roundtrip.
Print Assumptions C01_varint_total.
Print Assumptions C02_bytes_to_hex.
Print Assumptions C02_hex_to_bytes.
Print Assumptions C02_hex_to_bytes_rejects.
Print Assumptions C02_flip.
Print Assumptions C03_int_to_unknown_bytes.
Print Assumptions C03_negative_raises.
Print Assumptions C03_hex_to_int_of_int.
Print Assumptions C04_chunks.
Print Assumptions C05_script_push.
Print Assumptions C05_script_push_rejects.
