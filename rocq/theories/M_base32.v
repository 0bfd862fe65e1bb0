(** Model of bit/base32.py (Bech32 / segwit addresses). *)
From Coq Require Import String.
From Verif Require Export M_utils.

(* repo: bit/base32.py:23 *)
Definition CHARSET : pystr := str "qpzry9x8gf2tvdw0s3jn54khce6mua7l".

(* repo: bit/constants.py:33-35 *)
Definition BECH32_VERSION_SET : list pystr := [str "bc"; str "tb"; str "bcrt"].
Definition BECH32_MAIN_VERSION_SET : list pystr := [str "bc"].
Definition BECH32_TEST_VERSION_SET : list pystr := [str "tb"; str "bcrt"].

(* repo: bit/base32.py:28 *)
Definition generator : list Z := [0x3B6A57B2; 0x26508E6D; 0x1EA119FA; 0x3D4233DD; 0x2A1462B3].

(* repo: bit/base32.py:30-34: one round of the loop *)
Definition polymod_step (chk value : Z) : Z :=
  let top := Z.shiftr chk 25 in
  let chk0 := Z.lxor (Z.shiftl (Z.land chk 0x1FFFFFF) 5) value in
  fold_left (fun c i => Z.lxor c (if Z.testbit top (Z.of_nat i) then nth i generator 0 else 0))
            [0; 1; 2; 3; 4]%nat chk0.

(* repo: bit/base32.py:26-35 *)
Definition bech32_polymod (values : list Z) : Z := fold_left polymod_step values 1.

(* repo: bit/base32.py:38-40 *)
Definition bech32_hrp_expand (hrp : pystr) : list Z :=
  map (fun x => Z.shiftr x 5) hrp ++ [0] ++ map (fun x => Z.land x 31) hrp.

(* repo: bit/base32.py:43-45 *)
Definition bech32_verify_checksum (hrp : pystr) (data : list Z) : bool :=
  bech32_polymod (bech32_hrp_expand hrp ++ data) =? 1.

(* repo: bit/base32.py:48-52 *)
Definition bech32_create_checksum (hrp : pystr) (data : list Z) : list Z :=
  let values := bech32_hrp_expand hrp ++ data in
  let polymod := Z.lxor (bech32_polymod (values ++ [0; 0; 0; 0; 0; 0])) 1 in
  map (fun i => Z.land (Z.shiftr polymod (5 * (5 - i))) 31) [0; 1; 2; 3; 4; 5].

(* repo: bit/base32.py:55-58 *)
Definition bech32_encode (hrp : pystr) (data : list Z) : result pystr :=
  let combined := data ++ bech32_create_checksum hrp data in
  chars <- mapM (py_index CHARSET) combined ;;
  Ok (hrp ++ [49] ++ chars).

(* str.rfind: position of the last occurrence *)
Definition rfind (c : Z) (s : pystr) : option Z :=
  match index_of c (rev s) with
  | None => None
  | Some i => Some (zlen s - 1 - i)
  end.

(* repo: bit/base32.py:61-75.  (None, None) is modelled as None. *)
Definition bech32_decode (bech : pystr) : option (pystr * list Z) :=
  if existsb (fun x => (x <? 33) || (126 <? x)) bech
     || (negb (list_eqb (lower bech) bech) && negb (list_eqb (upper bech) bech))
  then None
  else
    let b := lower bech in
    match rfind 49 b with
    | None => None (* pos = -1 < 1 *)
    | Some pos =>
      if (pos <? 1) || (zlen b <? pos + 7) || (90 <? zlen b) then None
      else
        let tail := skipn (Z.to_nat (pos + 1)) b in
        if negb (forallb (fun x => match index_of x CHARSET with Some _ => true | None => false end) tail)
        then None
        else
          let hrp := firstn (Z.to_nat pos) b in
          let data := map (fun x => match index_of x CHARSET with Some i => i | None => -1 end) tail in
          if negb (bech32_verify_checksum hrp data) then None
          else Some (hrp, drop_last 6 data)
    end.

(* repo: bit/base32.py:91-93: the inner while loop.  Fuel: [frombits] rounds and
   more are never needed because at most frombits + tobits - 1 bits are held
   (lemma emit_fuel). *)
Fixpoint emit (fuel : nat) (acc bits tobits maxv : Z) (ret : list Z) : Z * list Z :=
  match fuel with
  | O => (bits, ret)
  | S k => if tobits <=? bits
           then emit k acc (bits - tobits) tobits maxv
                     (ret ++ [Z.land (Z.shiftr acc (bits - tobits)) maxv])
           else (bits, ret)
  end.

(* repo: bit/base32.py:85-93: the main loop, with state acc, bits, ret *)
Fixpoint convert_loop (data : list Z) (frombits tobits maxv max_acc : Z)
                      (acc bits : Z) (ret : list Z) : option (Z * Z * list Z) :=
  match data with
  | [] => Some (acc, bits, ret)
  | value :: r =>
    if (value <? 0) || negb (Z.shiftr value frombits =? 0) then None
    else
      let acc' := Z.land (Z.lor (Z.shiftl acc frombits) value) max_acc in
      let '(bits', ret') := emit (Z.to_nat (bits + frombits)) acc' (bits + frombits) tobits maxv ret in
      convert_loop r frombits tobits maxv max_acc acc' bits' ret'
  end.

(* repo: bit/base32.py:78-98 convertbits *)
Definition convertbits (data : list Z) (frombits tobits : Z) (pad : bool) : option (list Z) :=
  let maxv := Z.shiftl 1 tobits - 1 in
  let max_acc := Z.shiftl 1 (frombits + tobits - 1) - 1 in
  match convert_loop data frombits tobits maxv max_acc 0 0 [] with
  | None => None
  | Some (acc, bits, ret) =>
    if pad then
      if bits =? 0 then Some ret
      else Some (ret ++ [Z.land (Z.shiftl acc (tobits - bits)) maxv])
    else if (frombits <=? bits) || negb (Z.land (Z.shiftl acc (tobits - bits)) maxv =? 0)
    then None
    else Some ret
  end.

(* repo: bit/base32.py:102-115 decode.  (None, None) is modelled as None; data[0] is only
   reached when data is non-empty (len(decoded) >= 2). *)
Definition segwit_decode (addr : pystr) : option (Z * list Z) :=
  match bech32_decode addr with
  | None => None
  | Some (hrpgot, data) =>
    if negb (in_listb hrpgot BECH32_VERSION_SET) then None
    else
      match convertbits (tl data) 5 8 false with
      | None => None
      | Some decoded =>
        if (zlen decoded <? 2) || (40 <? zlen decoded) then None
        else
          match data with
          | [] => None
          | w :: _ =>
            if 16 <? w then None
            else if (w =? 0) && negb (zlen decoded =? 20) && negb (zlen decoded =? 32) then None
            else Some (w, decoded)
          end
      end
  end.

(* repo: bit/base32.py:118-123.  Returning None is [Ok None]; concatenating
   [witver] with None (invalid program bytes) raises TypeError. *)
Definition segwit_encode (hrp : pystr) (witver : Z) (witprog : list Z) : result (option pystr) :=
  match convertbits witprog 8 5 true with
  | None => Raise TypeError
  | Some d =>
    ret <- bech32_encode hrp (witver :: d) ;;
    match segwit_decode ret with
    | None => Ok None
    | Some _ => Ok (Some ret)
    end
  end.
