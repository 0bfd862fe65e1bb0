(** Property theorems C09 - C13: bit/base32.py. *)
From Coq Require Import String.
From Verif Require Import M_base32 S_Bech32 F_bech32.

(** C09.  Characters of the human readable part below 1024 include all of ASCII. *)
Theorem C09_verify_is_bip173 :
  forall hrp data, Forall (fun c => 0 <= c < 1024) hrp -> Forall gf data ->
  (bech32_verify_checksum hrp data = true <-> ChecksumOk hrp data).
Proof. exact verify_spec. Qed.

Theorem C09_created_checksum_exact :
  forall hrp data chk, Forall (fun c => 0 <= c < 1024) hrp -> Forall gf data ->
  Forall gf chk -> length chk = 6%nat ->
  (ChecksumOk hrp (data ++ chk) <-> chk = bech32_create_checksum hrp data).
Proof. exact checksum_exact. Qed.

Theorem C09_created_checksum_valid :
  forall hrp data, Forall (fun c => 0 <= c < 1024) hrp -> Forall gf data ->
  length (bech32_create_checksum hrp data) = 6%nat /\ Forall gf (bech32_create_checksum hrp data) /\
  ChecksumOk hrp (data ++ bech32_create_checksum hrp data).
Proof.
  intros hrp data Hh Hd. split; [reflexivity|]. split; [apply create_gf|].
  apply checksum_exact; auto. apply create_gf.
Qed.

(** BIP173 test vector A12UEL5L: hrp a, no data. *)
Example C09_example : bech32_create_checksum (str "a") [] = [10; 28; 25; 31; 20; 31] /\
  ChecksumOk (str "a") [10; 28; 25; 31; 20; 31].
Proof.
  split; [reflexivity|]. apply verify_spec; [|repeat constructor; unfold gf; lia|reflexivity].
  repeat constructor; lia.
Qed.

(** C10 at the level of this module; see P_address.v for get_version and
    address_to_scriptpubkey. *)
Theorem C10_typos_rejected_by_decode :
  forall s ver prog s' k,
  segwit_decode s = Some (ver, prog) ->
  length s' = length s ->
  nth_error s k = Some 49 ->
  firstn (S k) (lower s') = firstn (S k) (lower s) ->
  (1 <= hamming (lower s) (lower s') <= 4)%nat ->
  segwit_decode s' = None /\
  forall hrp data, bech32_decode s' = Some (hrp, data) -> ~ In hrp [str "bc"; str "tb"; str "bcrt"].
Proof. exact segwit_typo. Qed.

Example C10_example :
  segwit_decode (str "BC1QW508D6QEJXTDG4Y5R3ZARVARY0C5XW7KV8F3T4") =
    Some (0, [117; 30; 118; 232; 25; 145; 150; 212; 84; 148; 28; 69; 209; 179; 163; 35; 241; 67; 59; 214]) /\
  nth_error (str "BC1QW508D6QEJXTDG4Y5R3ZARVARY0C5XW7KV8F3T4") 2 = Some 49 /\
  hamming (lower (str "BC1QW508D6QEJXTDG4Y5R3ZARVARY0C5XW7KV8F3T4"))
          (lower (str "BC1QW508d6pEJX1DG4Y5R3ZARVARY0C5XW7KV8F3T4")) = 2%nat.
Proof. repeat split. Qed.

(** C11 *)
Theorem C11_8_to_5 :
  forall e, bytes_ok e = true ->
  exists f, convertbits e 8 5 true = Some f /\ Forall gf f /\ Regroup e f.
Proof. exact convert_8_5. Qed.

Theorem C11_5_to_8 :
  forall f, Forall gf f ->
  forall e, convertbits f 5 8 false = Some e <-> bytes_ok e = true /\ Regroup e f.
Proof. exact convert_5_8. Qed.

Theorem C11_roundtrip_bytes :
  forall e, bytes_ok e = true ->
  exists f, convertbits e 8 5 true = Some f /\ convertbits f 5 8 false = Some e.
Proof.
  intros e H. destruct (convert_8_5 e H) as (f & E & G & R). exists f. split; auto.
  apply convert_5_8; auto.
Qed.

Theorem C11_roundtrip_symbols :
  forall f e, Forall gf f -> convertbits f 5 8 false = Some e -> convertbits e 8 5 true = Some f.
Proof.
  intros f e G E. apply convert_5_8 in E as [Hb R]; auto.
  destruct (convert_8_5 e Hb) as (f' & E' & G' & R'). rewrite E'. f_equal.
  exact (Regroup_fun_r e f' f G' G R' R).
Qed.

Theorem C11_out_of_range_rejected :
  forall f t data pad, 0 <= f -> (exists v, In v data /\ ~ 0 <= v < 2 ^ f) -> convertbits data f t pad = None.
Proof. exact convertbits_bad. Qed.

Example C11_example : convertbits [255; 1] 8 5 true = Some [31; 28; 0; 16] /\
  convertbits [31; 28; 0; 16] 5 8 false = Some [255; 1] /\
  convertbits [31; 28; 0; 17] 5 8 false = None /\ convertbits [31; 28; 0] 5 8 false = None.
Proof. repeat split. Qed.

(** C12 *)
Theorem C12_encode_iff_valid :
  forall hrp ver prog s, In hrp [str "bc"; str "tb"; str "bcrt"] ->
  (segwit_encode hrp ver prog = Ok (Some s) <-> ValidWitness ver prog /\ SegwitAddress hrp ver prog s).
Proof. intros hrp ver prog s H. apply segwit_encode_some. apply known_hrp_in. apply in_listb_In. exact H. Qed.

Theorem C12_valid_roundtrip :
  forall hrp ver prog, In hrp [str "bc"; str "tb"; str "bcrt"] -> ValidWitness ver prog ->
  exists s, segwit_encode hrp ver prog = Ok (Some s) /\ SegwitAddress hrp ver prog s /\
            segwit_decode s = Some (ver, prog).
Proof. intros hrp ver prog H. apply segwit_encode_valid. apply known_hrp_in. apply in_listb_In. exact H. Qed.

(** Other versions that fit a Python index of the alphabet, with program bytes:
    None.  Beyond that range: an exception, never an address. *)
Theorem C12_invalid_gives_none :
  forall hrp ver prog, In hrp [str "bc"; str "tb"; str "bcrt"] -> -32 <= ver < 32 -> bytes_ok prog = true ->
  ~ ValidWitness ver prog -> segwit_encode hrp ver prog = Ok None.
Proof.
  intros hrp ver prog H Hv Hb NV. assert (K : known_hrp hrp) by (apply known_hrp_in, in_listb_In; exact H).
  destruct (Z_lt_dec ver 0).
  - apply segwit_encode_negative; auto; lia.
  - apply segwit_encode_invalid; auto; lia.
Qed.

Theorem C12_invalid_raises :
  forall hrp ver prog,
  (bytes_ok prog = false -> segwit_encode hrp ver prog = Raise TypeError) /\
  (bytes_ok prog = true -> ~ -32 <= ver < 32 -> segwit_encode hrp ver prog = Raise IndexError).
Proof. intros. split; intros; [apply segwit_encode_bad|apply segwit_encode_index]; auto. Qed.

Theorem C12_decode_reencodes :
  forall s ver prog, segwit_decode s = Some (ver, prog) ->
  ValidWitness ver prog /\
  exists hrp, In hrp [str "bc"; str "tb"; str "bcrt"] /\ SegwitAddress hrp ver prog (lower s) /\
              segwit_encode hrp ver prog = Ok (Some (lower s)).
Proof.
  intros s ver prog H. split; [apply segwit_decode_iff in H as (? & ? & ? & ? & ? & ?); auto|].
  destruct (segwit_reencode s ver prog H) as (hrp & K & A & E). exists hrp. split; auto.
  apply in_listb_In, known_hrp_in; auto.
Qed.

Example C12_example :
  let p := [117; 30; 118; 232; 25; 145; 150; 212; 84; 148; 28; 69; 209; 179; 163; 35; 241; 67; 59; 214] in
  ValidWitness 0 p /\
  segwit_encode (str "bc") 0 p = Ok (Some (str "bc1qw508d6qejxtdg4y5r3zarvary0c5xw7kv8f3t4")) /\
  ~ ValidWitness 0 (p ++ [1]) /\ segwit_encode (str "tb") 0 (p ++ [1]) = Ok None.
Proof.
  repeat split; try lia; try (repeat constructor; lia); try (simpl; lia).
  intros (_ & _ & _ & H). destruct H as [H|H]; auto; discriminate.
Qed.

(** C13 *)
Theorem C13_upper_case_same :
  forall s, lower s = s -> bech32_decode (upper s) = bech32_decode s /\ segwit_decode (upper s) = segwit_decode s.
Proof.
  intros s H. pose proof (bech32_decode_upper s H) as E. split; auto.
  unfold segwit_decode. rewrite E. reflexivity.
Qed.

(** Letters by ASCII code. *)
Definition is_lower (c : Z) : Prop := 97 <= c <= 122.
Definition is_upper (c : Z) : Prop := 65 <= c <= 90.

Theorem C13_rejects :
  forall s,
  (exists a b, In a s /\ In b s /\ is_lower a /\ is_upper b) \/
  (90 < length s)%nat \/
  (exists c, In c s /\ ~ 33 <= c <= 126) \/
  ~ In 49 s \/
  (exists a t, s = a ++ [49] ++ t /\ (length t < 6)%nat) \/
  (exists t, s = [49] ++ t /\ ~ In 49 t) ->
  bech32_decode s = None /\ segwit_decode s = None.
Proof. exact bech32_rejects. Qed.

(** Everything else that is accepted has the prescribed form. *)
Theorem C13_accepts_iff :
  forall s hrp data, bech32_decode s = Some (hrp, data) <->
  exists chk,
    Forall (fun x => 33 <= x <= 126) s /\ (lower s = s \/ upper s = s) /\ (length s <= 90)%nat /\ hrp <> [] /\
    Forall gf data /\ Forall gf chk /\ length chk = 6%nat /\
    lower s = hrp ++ [49] ++ map bech_char (data ++ chk) /\
    ChecksumOk hrp (data ++ chk).
Proof. exact bech32_decode_iff. Qed.

Example C13_example :
  bech32_decode (str "A12UEL5L") = Some (str "a", []) /\ bech32_decode (str "a12uel5l") = Some (str "a", []) /\
  bech32_decode (str "a12UEL5L") = None /\
  bech32_decode (str "bc1qw508d6qejxtdg4y5r3zarvary0c5xw7kv8f3t4") <> None.
Proof. repeat split. vm_compute. discriminate. Qed.

Print Assumptions C09_verify_is_bip173.
Print Assumptions C09_created_checksum_exact.
Print Assumptions C09_created_checksum_valid.
Print Assumptions C10_typos_rejected_by_decode.
Print Assumptions C11_8_to_5.
Print Assumptions C11_5_to_8.
Print Assumptions C11_roundtrip_bytes.
Print Assumptions C11_roundtrip_symbols.
Print Assumptions C11_out_of_range_rejected.
Print Assumptions C12_encode_iff_valid.
Print Assumptions C12_valid_roundtrip.
Print Assumptions C12_invalid_gives_none.
Print Assumptions C12_invalid_raises.
Print Assumptions C12_decode_reencodes.
Print Assumptions C13_upper_case_same.
Print Assumptions C13_rejects.
Print Assumptions C13_accepts_iff.
