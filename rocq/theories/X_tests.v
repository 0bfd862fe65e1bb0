(** The tests in /repo/tests that need neither network nor signatures, on the model.

    Hashes are real (X_hash), the outside is the toy world of X_world.  Tests of the
    model, not proofs.  The tests of x_to_y, of public keys, of address_to_scriptpubkey
    and of sanitize_tx_data hold on the model too but take minutes in the checker
    and are not kept.  Made from the literals in the text of the tests. *)
From Coq Require Import String.
From Verif Require Import X_crypto X_vectors X_world M_wallet M_sign M_hexint M_repr.
From Coq Require Import List ZArith.
Import ListNotations.
Open Scope Z_scope.

(* repo: tests/test_utils.py:11-66 *)
Example t_utils : bytes_to_hex (hex "544838e2aa4ed75e61583793e7c6a30285") = (str "544838e2aa4ed75e61583793e7c6a30285") /\
  bytes_to_hex_case true (hex "544838e2aa4ed75e61583793e7c6a30285") = (str "544838E2AA4ED75E61583793E7C6A30285") /\
  int_to_unknown_bytes (123456789 ^ 5) = Ok (hex "544838e2aa4ed75e61583793e7c6a30285") /\
  rmap (@rev Z) (int_to_unknown_bytes (123456789 ^ 5)) = Ok (hex "8502a3c6e7933758615ed74eaae2384854") /\
  int_to_unknown_bytes 0 = Ok [0] /\
  int_to_hex (123456789 ^ 5) = (str "544838e2aa4ed75e61583793e7c6a30285") /\
  int_to_hex_case true (123456789 ^ 5) = (str "544838E2AA4ED75E61583793E7C6A30285") /\
  hex_to_bytes (str "544838e2aa4ed75e61583793e7c6a30285") = Ok (hex "544838e2aa4ed75e61583793e7c6a30285") /\
  hex_to_bytes (str "4fadd1977328c11efc1c1d8a781aa6b9677984d3e0bd0bfc52b9f3b03885a00") = Ok (hex "04fadd1977328c11efc1c1d8a781aa6b9677984d3e0bd0bfc52b9f3b03885a00") /\
  hex_to_int (str "544838e2aa4ed75e61583793e7c6a30285") = Ok (123456789 ^ 5) /\
  flip_hex_byte_order (bytes_to_hex (hex "8502a3c6e7933758615ed74eaae2384854")) = Ok (str "544838e2aa4ed75e61583793e7c6a30285") /\
  chunk_data (str "4fadd1977328c11efc1c1d8a781aa6b9677984d3e0bd0bfc52b9f3b03885a00") 2 = [str "4f"; str "ad"; str "d1"; str "97"; str "73"; str "28"; str "c1"; str "1e"; str "fc"; str "1c"; str "1d"; str "8a"; str "78"; str "1a"; str "a6"; str "b9"; str "67"; str "79"; str "84"; str "d3"; str "e0"; str "bd"; str "0b"; str "fc"; str "52"; str "b9"; str "f3"; str "b0"; str "38"; str "85"; str "a0"; str "0"].
Proof. repeat apply conj; vm_compute; reflexivity. Qed.
(* repo: tests/test_base58.py:8-36 *)
Example t_base58 : b58encode (hex "0092461bde6283b461ece7ddf4dbf1e0a48bd113d82645b4bf") = (str "1ELReFsTCUY2mfaDTy32qxYiT49z786eFg") /\
  b58encode (hex "00") = (str "1") /\
  @b58encode_check vec ([0] ++ (hex "92461bde6283b461ece7ddf4dbf1e0a48bd113d8")) = (str "1ELReFsTCUY2mfaDTy32qxYiT49z786eFg") /\
  b58decode (str "1ELReFsTCUY2mfaDTy32qxYiT49z786eFg") = Ok (hex "0092461bde6283b461ece7ddf4dbf1e0a48bd113d82645b4bf") /\
  b58decode (str "1") = Ok [0; 0] /\
  b58decode (str "l") = Raise ValueError /\
  @b58decode_check vec (str "1ELReFsTCUY2mfaDTy32qxYiT49z786eFg") = Ok ([0] ++ (hex "92461bde6283b461ece7ddf4dbf1e0a48bd113d8")) /\
  @b58decode_check vec (str "1ELReFsTCUY2mfaDTy32qxYiT49z786eF") = Raise ValueError.
Proof. repeat apply conj; vm_compute; reflexivity. Qed.
(* repo: tests/test_format.py:63-83 *)
Example t_version : @get_version vec (str "1ELReFsTCUY2mfaDTy32qxYiT49z786eFg") = Ok Main /\
  @get_version vec (str "1ExJJsNLQDNVVM1s1sdyt1o5P3GC5r32UG") = Ok Main /\
  @get_version vec (str "mtrNwJxS1VyHYn3qBY1Qfsm3K3kh1mGRMS") = Ok Test /\
  @get_version vec (str "muUFbvTKDEokGTVUjScMhw1QF2rtv5hxCz") = Ok Test /\
  @get_version vec (str "dg2dNAjuezub6iJVPNML5pW5ZQvtA9ocL") = Raise ValueError /\
  @get_version vec (str "39SrGQEfFXcTYJhBvjZeQja66Cpz82EEUn") = Ok Main /\
  @get_version vec (str "2NFKbBHzzh32q5DcZJNgZE9sF7gYmtPbawk") = Ok Test.
Proof. repeat apply conj; vm_compute; reflexivity. Qed.
(* repo: tests/test_format.py:94-143 *)
Example t_wif : @bytes_to_wif vec (hex "c28a9f80738f770d527803a566cf6fc3edf6cea586c4fc4a5223a5ad797e1ac3") Main false = (str "5KHxtARu5yr1JECrYGEA2YpCPdh1i9ciEgQayAF8kcqApkGzT9s") /\
  @bytes_to_wif vec (hex "c28a9f80738f770d527803a566cf6fc3edf6cea586c4fc4a5223a5ad797e1ac3") Test false = (str "934bTuFSgCv9GHi9Ac84u9NA3J3isK9uadGY3nbe6MaDbnQdcbn") /\
  @bytes_to_wif vec (hex "c28a9f80738f770d527803a566cf6fc3edf6cea586c4fc4a5223a5ad797e1ac3") Main true = (str "L3jsepcttyuJK3HKezD4qqRKGtwc8d2d1Nw6vsoPDX9cMcUxqqMv") /\
  @bytes_to_wif vec (hex "c28a9f80738f770d527803a566cf6fc3edf6cea586c4fc4a5223a5ad797e1ac3") Test true = (str "cU6s7jckL3bZUUkb3Q2CD9vNu8F1o58K5R5a3JFtidoccMbhEGKZ") /\
  @wif_to_bytes vec (str "5KHxtARu5yr1JECrYGEA2YpCPdh1i9ciEgQayAF8kcqApkGzT9s") = Ok ((hex "c28a9f80738f770d527803a566cf6fc3edf6cea586c4fc4a5223a5ad797e1ac3"), false, Main) /\
  @wif_to_bytes vec (str "934bTuFSgCv9GHi9Ac84u9NA3J3isK9uadGY3nbe6MaDbnQdcbn") = Ok ((hex "c28a9f80738f770d527803a566cf6fc3edf6cea586c4fc4a5223a5ad797e1ac3"), false, Test) /\
  @wif_to_bytes vec (str "L3jsepcttyuJK3HKezD4qqRKGtwc8d2d1Nw6vsoPDX9cMcUxqqMv") = Ok ((hex "c28a9f80738f770d527803a566cf6fc3edf6cea586c4fc4a5223a5ad797e1ac3"), true, Main) /\
  @wif_to_bytes vec (str "1ELReFsTCUY2mfaDTy32qxYiT49z786eFg") = Raise ValueError /\
  @wif_checksum_check vec (str "5KHxtARu5yr1JECrYGEA2YpCPdh1i9ciEgQayAF8kcqApkGzT9s") = Ok true /\
  @wif_checksum_check vec (str "934bTuFSgCv9GHi9Ac84u9NA3J3isK9uadGY3nbe6MaDbnQdcbn") = Ok true /\
  @wif_checksum_check vec (str "L3jsepcttyuJK3HKezD4qqRKGtwc8d2d1Nw6vsoPDX9cMcUxqqMv") = Ok true /\
  @wif_checksum_check vec (str "1ELReFsTCUY2mfaDTy32qxYiT49z786eF") = Ok false /\
  @wif_checksum_check vec (str "1ELReFsTCUY2mfaDTy32qxYiT49z786eFg") = Ok false.
Proof. repeat apply conj; vm_compute; reflexivity. Qed.
(* repo: tests/test_format.py:197-247 *)
Example t_redeemscript : multisig_to_redeemscript [repeat 0 33; repeat 0 33] 2 = Ok (str "R!" ++ repeat 0 33 ++ str "!" ++ repeat 0 33 ++ [82; 174]) /\
  multisig_to_redeemscript [repeat 0 65; repeat 0 65] 2 = Ok (str "RA" ++ repeat 0 65 ++ str "A" ++ repeat 0 65 ++ [82; 174]) /\
  multisig_to_redeemscript [repeat 0 33; repeat 0 33] 3 = Raise ValueError /\
  multisig_to_redeemscript [repeat 0 32; repeat 0 33] 2 = Raise ValueError /\
  multisig_to_redeemscript [repeat 0 66; repeat 0 65] 2 = Raise ValueError /\
  rmap (fun _ => true) (multisig_to_redeemscript (repeat (repeat 0 33) 15) 1) = Ok true /\
  multisig_to_redeemscript (repeat (repeat 0 33) 16) 1 = Raise ValueError /\
  rmap (fun _ => true) (multisig_to_redeemscript (repeat (repeat 0 65) 7) 1) = Ok true /\
  multisig_to_redeemscript (repeat (repeat 0 65) 8) 1 = Raise ValueError.
Proof. repeat apply conj; vm_compute; reflexivity. Qed.
(* repo: tests/test_format.py:265-269 *)
Example t_hash : @address_to_public_key_hash vec (str "1ELReFsTCUY2mfaDTy32qxYiT49z786eFg") = Ok (hex "92461bde6283b461ece7ddf4dbf1e0a48bd113d8") /\
  @address_to_public_key_hash vec (str "1ExJJsNLQDNVVM1s1sdyt1o5P3GC5r32UG") = Ok (hex "990ef60d63b5b5964a1c2282061af45123e93fcb") /\
  @address_to_public_key_hash vec (str "39SrGQEfFXcTYJhBvjZeQja66Cpz82EEUn") = Ok (hex "55131efb7a0edd4c76cc3bbe833bfc59a6f73c6b") /\
  @address_to_public_key_hash vec (str "2NFKbBHzzh32q5DcZJNgZE9sF7gYmtPbawk") = Ok (hex "f2261e9564c9dfffa81505c153fb95bf93994308").
Proof. repeat apply conj; vm_compute; reflexivity. Qed.
(* repo: tests/test_segwit_addr.py:34-51, 99-114 *)
Example t_checksum : forallb (fun s => match bech32_decode s with Some _ => true | None => false end) [str "A12UEL5L"; str "an83characterlonghumanreadablepartthatcontainsthenumber1andtheexcludedcharactersbio1tt5tgs"; str "abcdef1qpzry9x8gf2tvdw0s3jn54khce6mua7lmqqqxw"; str "11qqqqqqqqqqqqqqqqqqqqqqqqqqqqqqqqqqqqqqqqqqqqqqqqqqqqqqqqqqqqqqqqqqqqqqqqqqqqqqqqqqc8247j"; str "split1checkupstagehandshakeupstreamerranterredcaperred2y9e3w"] = true /\
  forallb (fun s => match bech32_decode s with Some _ => false | None => true end) [str "A13UEL5L"; str "an83characterlonghumanreadablepartthatcontainsthenumber1andtheexcludedcharactersbio1ut5tgs"; str "abcdef1ppzry9x8gf2tvdw0s3jn54khce6mua7lmqqqxw"; str "11pqqqqqqqqqqqqqqqqqqqqqqqqqqqqqqqqqqqqqqqqqqqqqqqqqqqqqqqqqqqqqqqqqqqqqqqqqqqqqqqqqc8247j"; str "split1bheckupstagehandshakeupstreamerranterredcaperred2y9e3w"] = true /\
  forallb (fun s => match bech32_decode s with Some _ => false | None => true end) [[32; 49; 110; 119; 108; 100; 106; 53]; [127; 49; 97; 120; 107; 119; 114; 120]; [97; 110; 56; 52; 99; 104; 97; 114; 97; 99; 116; 101; 114; 115; 108; 111; 110; 103; 104; 117; 109; 97; 110; 114; 101; 97; 100; 97; 98; 108; 101; 112; 97; 114; 116; 116; 104; 97; 116; 99; 111; 110; 116; 97; 105; 110; 115; 116; 104; 101; 110; 117; 109; 98; 101; 114; 49; 97; 110; 100; 116; 104; 101; 101; 120; 99; 108; 117; 100; 101; 100; 99; 104; 97; 114; 97; 99; 116; 101; 114; 115; 98; 105; 111; 49; 53; 54; 57; 112; 118; 120]; [112; 122; 114; 121; 57; 120; 48; 115; 48; 109; 117; 107]; [49; 112; 122; 114; 121; 57; 120; 48; 115; 48; 109; 117; 107]; [120; 49; 98; 52; 110; 48; 113; 53; 118]; [108; 105; 49; 100; 103; 109; 116; 51]; [100; 101; 49; 108; 103; 55; 119; 116; 255]] = true.
Proof. repeat apply conj; vm_compute; reflexivity. Qed.
(* repo: tests/test_segwit_addr.py:53-90, 116-142 *)
Example t_segwit : (match segwit_decode (str "BC1QW508D6QEJXTDG4Y5R3ZARVARY0C5XW7KV8F3T4") with Some (v, p) => Some ((if v =? 0 then 0 else v + 80) :: zlen p :: p, segwit_encode (str "bc") v p) | None => None end) = Some ((hex "0014751e76e8199196d454941c45d1b3a323f1433bd6"), Ok (Some (str "bc1qw508d6qejxtdg4y5r3zarvary0c5xw7kv8f3t4"))) /\
  (match segwit_decode (str "tb1qrp33g0q5c5txsp9arysrx4k6zdkfs4nce4xj0gdcccefvpysxf3q0sl5k7") with Some (v, p) => Some ((if v =? 0 then 0 else v + 80) :: zlen p :: p, segwit_encode (str "tb") v p) | None => None end) = Some ((hex "00201863143c14c5166804bd19203356da136c985678cd4d27a1b8c6329604903262"), Ok (Some (str "tb1qrp33g0q5c5txsp9arysrx4k6zdkfs4nce4xj0gdcccefvpysxf3q0sl5k7"))) /\
  (match segwit_decode (str "bc1pw508d6qejxtdg4y5r3zarvary0c5xw7kw508d6qejxtdg4y5r3zarvary0c5xw7k7grplx") with Some (v, p) => Some ((if v =? 0 then 0 else v + 80) :: zlen p :: p, segwit_encode (str "bc") v p) | None => None end) = Some ((hex "5128751e76e8199196d454941c45d1b3a323f1433bd6751e76e8199196d454941c45d1b3a323f1433bd6"), Ok (Some (str "bc1pw508d6qejxtdg4y5r3zarvary0c5xw7kw508d6qejxtdg4y5r3zarvary0c5xw7k7grplx"))) /\
  (match segwit_decode (str "BC1SW50QA3JX3S") with Some (v, p) => Some ((if v =? 0 then 0 else v + 80) :: zlen p :: p, segwit_encode (str "bc") v p) | None => None end) = Some ((hex "6002751e"), Ok (Some (str "bc1sw50qa3jx3s"))) /\
  (match segwit_decode (str "bc1zw508d6qejxtdg4y5r3zarvaryvg6kdaj") with Some (v, p) => Some ((if v =? 0 then 0 else v + 80) :: zlen p :: p, segwit_encode (str "bc") v p) | None => None end) = Some ((hex "5210751e76e8199196d454941c45d1b3a323"), Ok (Some (str "bc1zw508d6qejxtdg4y5r3zarvaryvg6kdaj"))) /\
  (match segwit_decode (str "tb1qqqqqp399et2xygdj5xreqhjjvcmzhxw4aywxecjdzew6hylgvsesrxh6hy") with Some (v, p) => Some ((if v =? 0 then 0 else v + 80) :: zlen p :: p, segwit_encode (str "tb") v p) | None => None end) = Some ((hex "0020000000c4a5cad46221b2a187905e5266362b99d5e91c6ce24d165dab93e86433"), Ok (Some (str "tb1qqqqqp399et2xygdj5xreqhjjvcmzhxw4aywxecjdzew6hylgvsesrxh6hy"))) /\
  forallb (fun s => match segwit_decode s with Some _ => false | None => true end) [str "tc1qw508d6qejxtdg4y5r3zarvary0c5xw7kg3g4ty"; str "bc1qw508d6qejxtdg4y5r3zarvary0c5xw7kv8f3t5"; str "BC13W508D6QEJXTDG4Y5R3ZARVARY0C5XW7KN40WF2"; str "bc1rw5uspcuh"; str "bc10w508d6qejxtdg4y5r3zarvary0c5xw7kw508d6qejxtdg4y5r3zarvary0c5xw7kw5rljs90"; str "BC1QR508D6QEJXTDG4Y5R3ZARVARYV98GJ9P"; str "tb1qrp33g0q5c5txsp9arysrx4k6zdkfs4nce4xj0gdcccefvpysxf3q0sL5k7"; str "bc1zw508d6qejxtdg4y5r3zarvaryvqyzf3du"; str "tb1qrp33g0q5c5txsp9arysrx4k6zdkfs4nce4xj0gdcccefvpysxf3pjxtptv"; str "bc1gmk9yu"] = true /\
  segwit_encode (str "BC") 0 (repeat 0 20) = Ok None /\
  segwit_encode (str "bc") 0 (repeat 0 21) = Ok None /\
  segwit_encode (str "bc") 17 (repeat 0 32) = Ok None /\
  segwit_encode (str "bc") 1 (repeat 0 1) = Ok None /\
  segwit_encode (str "bc") 16 (repeat 0 41) = Ok None.
Proof. repeat apply conj; vm_compute; reflexivity. Qed.
(* repo: tests/test_transaction.py:967-975 *)
Example t_fee : estimate_tx_fee (4 * 148) 1 68 2 70 false = Ok 15820 /\
  estimate_tx_fee (4 * 180) 1 68 2 70 false = Ok 18060 /\
  estimate_tx_fee (4 * 740) 5 170 5 0 false = Ok 0.
Proof. repeat apply conj; vm_compute; reflexivity. Qed.
(* repo: tests/test_transaction.py:316-483 *)
Example t_objects : new_in (str "script") (str "txid") [4] [] None [255; 255; 255; 255] false = Ok (mkIn (str "script") [6] (str "txid") [4] [] None [255; 255; 255; 255] false) /\
  new_out [0x88; 0x13; 0; 0; 0; 0; 0; 0] (str "script_pubkey") = Ok (mkOut [0x88; 0x13; 0; 0; 0; 0; 0; 0] [13] (str "script_pubkey")) /\
  in_bytes (mkIn (str "script") [6] (str "txid") [4] [] None [255; 255; 255; 255] false) = str "txid" ++ [4; 6] ++ str "script" ++ [255; 255; 255; 255] /\
  tx_bytes (new_tx [1; 0; 0; 0] [(mkIn (str "script") [6] (str "txid") [4] [] None [255; 255; 255; 255] false)] [(mkOut [0x88; 0x13; 0; 0; 0; 0; 0; 0] [13] (str "script_pubkey"))] [0; 0; 0; 0]) = Ok ([1; 0; 0; 0; 1] ++ str "txid" ++ [4; 6] ++ str "script" ++ [255; 255; 255; 255; 1; 0x88; 0x13; 0; 0; 0; 0; 0; 0; 13] ++ str "script_pubkey" ++ [0; 0; 0; 0]) /\
  tx_bytes (new_tx [1; 0; 0; 0] [(mkIn (str "script") [6] (str "txid") [4] (str "witness") None [255; 255; 255; 255] false)] [(mkOut [0x88; 0x13; 0; 0; 0; 0; 0; 0] [13] (str "script_pubkey"))] [0; 0; 0; 0]) = Ok ([1; 0; 0; 0; 0; 1; 1] ++ str "txid" ++ [4; 6] ++ str "script" ++ [255; 255; 255; 255; 1; 0x88; 0x13; 0; 0; 0; 0; 0; 0; 13] ++ str "script_pubkey" ++ str "witness" ++ [0; 0; 0; 0]) /\
  tx_is_segwit (new_tx [1; 0; 0; 0] [(mkIn (str "script") [6] (str "txid") [4] [] None [255; 255; 255; 255] false)] [(mkOut [0x88; 0x13; 0; 0; 0; 0; 0; 0] [13] (str "script_pubkey"))] [0; 0; 0; 0]) = Ok false /\
  tx_is_segwit (new_tx [1; 0; 0; 0] [(mkIn (str "script") [6] (str "txid") [4] (str "witness") None [255; 255; 255; 255] false)] [(mkOut [0x88; 0x13; 0; 0; 0; 0; 0; 0] [13] (str "script_pubkey"))] [0; 0; 0; 0]) = Ok true /\
  in_repr (mkIn (str "script") [6] (str "txid") [4] [] None [255; 255; 255; 255] false) = str "TxIn(b'script', b'\x06', b'txid', b'\x04', b'\xff\xff\xff\xff')" /\
  in_repr (mkIn (str "script") [6] (str "txid") [4] (str "witness") None [255; 255; 255; 255] false) = str "TxIn(b'script', b'\x06', b'txid', b'\x04', b'witness', None, b'\xff\xff\xff\xff')" /\
  out_repr (mkOut [0x88; 0x13; 0; 0; 0; 0; 0; 0] [13] (str "script_pubkey")) = str "TxOut(b'\x88\x13\x00\x00\x00\x00\x00\x00', b'script_pubkey', b'\r')".
Proof. repeat apply conj; vm_compute; reflexivity. Qed.
(* repo: tests/test_transaction.py:893-920 *)
Example t_preimages : @calculate_preimages vec (new_tx [1; 0; 0; 0] [(mkIn (str "script") [6] (str "txid") [4] (str "witness") None [255; 255; 255; 255] false)] [(mkOut [0x88; 0x13; 0; 0; 0; 0; 0; 0] [13] (str "script_pubkey"))] [0; 0; 0; 0]) [(0%nat, [1; 0; 0; 0], false)] = Ok [(hex "79498d9948cbe388ce837dc1fcaff7d55cf6379386b5c74dd1dbd24c794a603c")] /\
  @calculate_preimages vec (new_tx [1; 0; 0; 0] [(mkIn (str "script") [6] (str "txid") [4] (str "witness") None [255; 255; 255; 255] false)] [(mkOut [0x88; 0x13; 0; 0; 0; 0; 0; 0] [13] (str "script_pubkey"))] [0; 0; 0; 0]) [(0%nat, [1; 0; 0; 0], true)] = Ok [(hex "ed85c10fc2b1c905bfa65315ba2484ad148d6e69171e44d6f765d80efb05931a")] /\
  forallb (fun h => match @calculate_preimages vec (new_tx [1; 0; 0; 0] [(mkIn (str "script") [6] (str "txid") [4] (str "witness") None [255; 255; 255; 255] false)] [(mkOut [0x88; 0x13; 0; 0; 0; 0; 0; 0] [13] (str "script_pubkey"))] [0; 0; 0; 0]) [(0%nat, h :: [0; 0; 0], false)] with Raise ValueError => true | _ => false end) [2; 3; 0x81; 4] = true.
Proof. repeat apply conj; vm_compute; reflexivity. Qed.
(* repo: tests/test_transaction.py:737-754 *)
Example t_legacy : deserialize_hex (str "01000000018878399d83ec25c627cfbf753ff9ca3602373eac437ab2676154a3c2da23adf3010000008a473044022068b8dce776ef1c071f4c516836cdfb358e44ef58e0bf29d6776ebdc4a6b719df02204ea4a9b0f4e6afa4c229a3f11108ff66b17895015afa0c26c4bbc2b3ba1a1cc60141043d5c2875c9bd116875a71a5db64cffcb13396b163d039b1d932782489180433476a4352a2add00ebb0d5c94c515b72eb10f1fd8f3f03b42f4a2b255bfc9aa9e3ffffffff0250c30000000000001976a914e7c1345fc8f87c68170b3aa798a956c2fe6a9eff88ac0888fc04000000001976a91492461bde6283b461ece7ddf4dbf1e0a48bd113d888ac00000000") = Ok (mkTx (hex "01000000") [mkIn (hex "473044022068b8dce776ef1c071f4c516836cdfb358e44ef58e0bf29d6776ebdc4a6b719df02204ea4a9b0f4e6afa4c229a3f11108ff66b17895015afa0c26c4bbc2b3ba1a1cc60141043d5c2875c9bd116875a71a5db64cffcb13396b163d039b1d932782489180433476a4352a2add00ebb0d5c94c515b72eb10f1fd8f3f03b42f4a2b255bfc9aa9e3") (hex "8a") (hex "8878399d83ec25c627cfbf753ff9ca3602373eac437ab2676154a3c2da23adf3") (hex "01000000") [] None (hex "ffffffff") false] [mkOut (hex "50c3000000000000") (hex "19") (hex "76a914e7c1345fc8f87c68170b3aa798a956c2fe6a9eff88ac"); mkOut (hex "0888fc0400000000") (hex "19") (hex "76a91492461bde6283b461ece7ddf4dbf1e0a48bd113d888ac")] (hex "00000000")).
Proof. vm_compute. reflexivity. Qed.
(* repo: tests/test_transaction.py:756-779 *)
Example t_segwit_tx : deserialize_hex (str "010000000001021f9c125fc1c14ef7f4b03b4b7dad7be4c3b054d7c266689a456adaffd6ec7a31010000006a47304402201cfc264e99287d17fd19a9d8d82746b97e80a2e94e5bbe3ef73a44a3df2399e702207152926699eb4555a88a3243c66406276e9aba808c24049e7dedba27b057b1b00121021816325d19fd34fd87a039e83e35fc9de3c9de64a501a6684b9bf9946364fbb7ffffffff6e6d2db49c4bf5bb97e88830058a58eb1c4d092e980b2bb663c81632f5dd8b0b0100000017160014175e9f8b21d4f2f76a7360458f90717e08fbcdb6ffffffff0280f0fa02000000001600140ee268c86d05f290add1bfc9bdfc3992d785bce2e84ef5050000000017a9146a45a03574460e17a1d75d9535d90bad20d8d79b870002473044022033a25adc3230a0b93028520b2bd089e26ce366bcf22064d41f6c5a3c200d956302201f45ef76dde3fc27f741f9fc93e6280dac991c364ee578eafb3348db662339000121037d696886864509ed63044d8f1bcd53b8def1247bd2bbe056ff81b23e8c09280f00000000") = Ok (mkTx (hex "01000000") [mkIn (hex "47304402201cfc264e99287d17fd19a9d8d82746b97e80a2e94e5bbe3ef73a44a3df2399e702207152926699eb4555a88a3243c66406276e9aba808c24049e7dedba27b057b1b00121021816325d19fd34fd87a039e83e35fc9de3c9de64a501a6684b9bf9946364fbb7") (hex "6a") (hex "1f9c125fc1c14ef7f4b03b4b7dad7be4c3b054d7c266689a456adaffd6ec7a31") (hex "01000000") (hex "00") None (hex "ffffffff") false; mkIn (hex "160014175e9f8b21d4f2f76a7360458f90717e08fbcdb6") (hex "17") (hex "6e6d2db49c4bf5bb97e88830058a58eb1c4d092e980b2bb663c81632f5dd8b0b") (hex "01000000") (hex "02473044022033a25adc3230a0b93028520b2bd089e26ce366bcf22064d41f6c5a3c200d956302201f45ef76dde3fc27f741f9fc93e6280dac991c364ee578eafb3348db662339000121037d696886864509ed63044d8f1bcd53b8def1247bd2bbe056ff81b23e8c09280f") None (hex "ffffffff") false] [mkOut (hex "80f0fa0200000000") (hex "16") (hex "00140ee268c86d05f290add1bfc9bdfc3992d785bce2"); mkOut (hex "e84ef50500000000") (hex "17") (hex "a9146a45a03574460e17a1d75d9535d90bad20d8d79b87")] (hex "00000000")).
Proof. vm_compute. reflexivity. Qed.
(* repo: tests/test_transaction.py:782-822 *)
Example t_signatures : rmap (map (fun s => (firstn 4 s, rev (firstn 4 (rev s))))) (@get_signatures_from_script vec (hex "0047304402200b526cf17f86891a62f4bd27745494005682d650c27dda877f35b0161c38bc9002204674a0be6275ce948812c200251802d15eaa19533d864d64b83b992c10b3ecf201483045022100a57ba5464a03343bd5ebf21ce0d3d49b84710c62a421b7d5b86de75ca10d8c7602206395d6a552fc0dbb31d3c0b1db34fa4a14cc29d660c8c68172c7e513cb6a0ac901475221021816325d19fd34fd87a039e83e35fc9de3c9de64a501a6684b9bf9946364fbb721037d696886864509ed63044d8f1bcd53b8def1247bd2bbe056ff81b23e8c09280f52ae")) = Ok [((hex "30440220"), (hex "b3ecf201")); ((hex "30450221"), (hex "6a0ac901"))] /\
  rmap (map (fun s => (firstn 4 s, rev (firstn 4 (rev s))))) (@get_signatures_from_script vec (hex "0047304402200b526cf17f86891a62f4bd27745494005682d650c27dda877f35b0161c38bc9002204674a0be6275ce948812c200251802d15eaa19533d864d64b83b992c10b3ecf20100695221021816325d19fd34fd87a039e83e35fc9de3c9de64a501a6684b9bf9946364fbb721037d696886864509ed63044d8f1bcd53b8def1247bd2bbe056ff81b23e8c09280f21033dc7fb58b701fc0af63ee3a8b72ebbeed04a1c006b50007f32ec6a33a56213f853ae0400483045022100f686296df66817198feead5fa24f3f04cb7e6780187e73fc8c531254fd002c13022044efe2ea00f31de395376d83cb122bd708116d151bdf2de61107d77447b475c60100695221021816325d19fd34fd87a039e83e35fc9de3c9de64a501a6684b9bf9946364fbb721037d696886864509ed63044d8f1bcd53b8def1247bd2bbe056ff81b23e8c09280f21033dc7fb58b701fc0af63ee3a8b72ebbeed04a1c006b50007f32ec6a33a56213f853ae")) = Ok [((hex "30440220"), (hex "b3ecf201"))].
Proof. repeat apply conj; vm_compute; reflexivity. Qed.
(* repo: tests/test_transaction.py:978-999 *)
Example t_select : rmap (fun p => (length (fst p), snd p)) (select_coins (fun _ => true) (fun l => l) 100000000 0 [34; 34] 0 false false [new_unspent 100000000 1 (str "76a914905aa72f3d1747094a24d3adbc38905bb451ffc888ac") (str "f09c22717770fcd7e477953c3ca7ecb9bd44ec4d5392f24fdd247dbb8db2d388") 0 (str "p2pkh") None None 0xffffffff; new_unspent 100000000 1 (str "a9146015d175e191e6e5b99211e3ffc6ea7658cb051a87") (str "f42c4ee1f95a3c9f5b1c6db356b72cd655fdb5de30c45fc148d3d86016b4d4cb") 0 (str "np2wkh") None None 0xffffffff]) = Ok (1%nat, 0) /\
  rmap (fun p => (length (fst p), snd p)) (select_coins (fun _ => false) (@rev Unspent) 100000000 0 [34; 34] 0 false false [new_unspent 100000000 1 (str "76a914905aa72f3d1747094a24d3adbc38905bb451ffc888ac") (str "f09c22717770fcd7e477953c3ca7ecb9bd44ec4d5392f24fdd247dbb8db2d388") 0 (str "p2pkh") None None 0xffffffff; new_unspent 100000000 1 (str "a9146015d175e191e6e5b99211e3ffc6ea7658cb051a87") (str "f42c4ee1f95a3c9f5b1c6db356b72cd655fdb5de30c45fc148d3d86016b4d4cb") 0 (str "np2wkh") None None 0xffffffff]) = Ok (1%nat, 0) /\
  rmap (fun p => (length (fst p), snd p)) (select_coins (fun _ => true) (fun l => l) 99960000 200 [34; 34] 0 false false [new_unspent 100000000 1 (str "76a914905aa72f3d1747094a24d3adbc38905bb451ffc888ac") (str "f09c22717770fcd7e477953c3ca7ecb9bd44ec4d5392f24fdd247dbb8db2d388") 0 (str "p2pkh") None None 0xffffffff; new_unspent 100000000 1 (str "a9146015d175e191e6e5b99211e3ffc6ea7658cb051a87") (str "f42c4ee1f95a3c9f5b1c6db356b72cd655fdb5de30c45fc148d3d86016b4d4cb") 0 (str "np2wkh") None None 0xffffffff]) = Ok (1%nat, 0) /\
  rmap (fun p => (length (fst p), snd p)) (select_coins (fun _ => false) (@rev Unspent) 99960000 200 [34; 34] 0 false false [new_unspent 100000000 1 (str "76a914905aa72f3d1747094a24d3adbc38905bb451ffc888ac") (str "f09c22717770fcd7e477953c3ca7ecb9bd44ec4d5392f24fdd247dbb8db2d388") 0 (str "p2pkh") None None 0xffffffff; new_unspent 100000000 1 (str "a9146015d175e191e6e5b99211e3ffc6ea7658cb051a87") (str "f42c4ee1f95a3c9f5b1c6db356b72cd655fdb5de30c45fc148d3d86016b4d4cb") 0 (str "np2wkh") None None 0xffffffff]) = Ok (1%nat, 0) /\
  rmap snd (select_coins (fun _ => true) (fun l => l) 150000000 0 [34; 34] 0 false false [new_unspent 100000000 1 (str "76a914905aa72f3d1747094a24d3adbc38905bb451ffc888ac") (str "f09c22717770fcd7e477953c3ca7ecb9bd44ec4d5392f24fdd247dbb8db2d388") 0 (str "p2pkh") None None 0xffffffff; new_unspent 100000000 1 (str "a9146015d175e191e6e5b99211e3ffc6ea7658cb051a87") (str "f42c4ee1f95a3c9f5b1c6db356b72cd655fdb5de30c45fc148d3d86016b4d4cb") 0 (str "np2wkh") None None 0xffffffff]) = Ok 50000000 /\
  rmap snd (select_coins (fun _ => false) (@rev Unspent) 150000000 0 [34; 34] 0 false false [new_unspent 100000000 1 (str "76a914905aa72f3d1747094a24d3adbc38905bb451ffc888ac") (str "f09c22717770fcd7e477953c3ca7ecb9bd44ec4d5392f24fdd247dbb8db2d388") 0 (str "p2pkh") None None 0xffffffff; new_unspent 100000000 1 (str "a9146015d175e191e6e5b99211e3ffc6ea7658cb051a87") (str "f42c4ee1f95a3c9f5b1c6db356b72cd655fdb5de30c45fc148d3d86016b4d4cb") 0 (str "np2wkh") None None 0xffffffff]) = Ok 50000000.
Proof. repeat apply conj; vm_compute; reflexivity. Qed.
(* repo: tests/test_transaction.py:1002-1015 *)
Example t_outputs : rmap (fun l => concat (map out_bytes l)) (@construct_outputs vec [(Addr (str "n2eMqTT929pb1RDNuqEnxdaLau1rxy3efi"), 50000); (Addr (str "mtrNwJxS1VyHYn3qBY1Qfsm3K3kh1mGRMS"), 83658760)]) = Ok (hex "50c30000000000001976a914e7c1345fc8f87c68170b3aa798a956c2fe6a9eff88ac0888fc04000000001976a91492461bde6283b461ece7ddf4dbf1e0a48bd113d888ac") /\
  rmap (fun l => concat (map out_bytes l)) (@construct_outputs vec [(Addr (str "n2eMqTT929pb1RDNuqEnxdaLau1rxy3efi"), 50000); (Addr (str "mtrNwJxS1VyHYn3qBY1Qfsm3K3kh1mGRMS"), 83658760); (Data (str "hello"), 0); (Data (str "there"), 0)]) = Ok (hex "50c30000000000001976a914e7c1345fc8f87c68170b3aa798a956c2fe6a9eff88ac0888fc04000000001976a91492461bde6283b461ece7ddf4dbf1e0a48bd113d888ac0000000000000000076a0568656c6c6f0000000000000000076a057468657265").
Proof. repeat apply conj; vm_compute; reflexivity. Qed.
(* repo: tests/test_transaction.py:1084-1089 *)
Example t_txid : @calc_txid vec (str "01000000018878399d83ec25c627cfbf753ff9ca3602373eac437ab2676154a3c2da23adf3010000008a473044022068b8dce776ef1c071f4c516836cdfb358e44ef58e0bf29d6776ebdc4a6b719df02204ea4a9b0f4e6afa4c229a3f11108ff66b17895015afa0c26c4bbc2b3ba1a1cc60141043d5c2875c9bd116875a71a5db64cffcb13396b163d039b1d932782489180433476a4352a2add00ebb0d5c94c515b72eb10f1fd8f3f03b42f4a2b255bfc9aa9e3ffffffff0250c30000000000001976a914e7c1345fc8f87c68170b3aa798a956c2fe6a9eff88ac0888fc04000000001976a91492461bde6283b461ece7ddf4dbf1e0a48bd113d888ac00000000") = Ok (str "e6922a6e3f1ff422113f15543fbe1340a727441202f55519640a70ac4636c16f") /\
  @calc_txid vec (str "010000000001021f9c125fc1c14ef7f4b03b4b7dad7be4c3b054d7c266689a456adaffd6ec7a31010000006a47304402201cfc264e99287d17fd19a9d8d82746b97e80a2e94e5bbe3ef73a44a3df2399e702207152926699eb4555a88a3243c66406276e9aba808c24049e7dedba27b057b1b00121021816325d19fd34fd87a039e83e35fc9de3c9de64a501a6684b9bf9946364fbb7ffffffff6e6d2db49c4bf5bb97e88830058a58eb1c4d092e980b2bb663c81632f5dd8b0b0100000017160014175e9f8b21d4f2f76a7360458f90717e08fbcdb6ffffffff0280f0fa02000000001600140ee268c86d05f290add1bfc9bdfc3992d785bce2e84ef5050000000017a9146a45a03574460e17a1d75d9535d90bad20d8d79b870002473044022033a25adc3230a0b93028520b2bd089e26ce366bcf22064d41f6c5a3c200d956302201f45ef76dde3fc27f741f9fc93e6280dac991c364ee578eafb3348db662339000121037d696886864509ed63044d8f1bcd53b8def1247bd2bbe056ff81b23e8c09280f00000000") = Ok (str "a103ed36e9afee8b4001b1c3970ba8cd9839ff95e8b8af3fbe6016f6287bf9c6").
Proof. repeat apply conj; vm_compute; reflexivity. Qed.
(* repo: tests/network/test_meta.py:4-64 *)
Example t_meta : unspent_repr (new_unspent 10000 7 (str "script") (str "txid") 0 (str "p2pkh") None None 0xffffffff) = str "Unspent(amount=10000, confirmations=7, script='script', txid='txid', txindex=0, segwit=False, sequence=4294967295)" /\
  (let u := set_type (new_unspent 10000 7 (str "script") (str "txid") 0 (str "p2pkh") None None 0xffffffff) (str "p2pkh-uncompressed") 0 in (u_segwit u, u_vsize u)) = (Some false, 4 * 180) /\
  (let u := set_type (new_unspent 10000 7 (str "script") (str "txid") 0 (str "p2pkh") None None 0xffffffff) (str "p2pkh") 0 in (u_segwit u, u_vsize u)) = (Some false, 4 * 148) /\
  (let u := set_type (new_unspent 10000 7 (str "script") (str "txid") 0 (str "p2pkh") None None 0xffffffff) (str "p2sh") 0 in (u_segwit u, u_vsize u)) = (Some false, 4 * 298) /\
  (let u := set_type (new_unspent 10000 7 (str "script") (str "txid") 0 (str "p2pkh") None None 0xffffffff) (str "np2wkh") 0 in (u_segwit u, u_vsize u)) = (Some true, 4 * 91) /\
  (let u := set_type (new_unspent 10000 7 (str "script") (str "txid") 0 (str "p2pkh") None None 0xffffffff) (str "np2wsh") 0 in (u_segwit u, u_vsize u)) = (Some true, 4 * 140) /\
  (let u := set_type (new_unspent 10000 7 (str "script") (str "txid") 0 (str "p2pkh") None None 0xffffffff) (str "p2wkh") 0 in (u_segwit u, u_vsize u)) = (Some true, 4 * 68) /\
  (let u := set_type (new_unspent 10000 7 (str "script") (str "txid") 0 (str "p2pkh") None None 0xffffffff) (str "p2wsh") 0 in (u_segwit u, u_vsize u)) = (Some true, 4 * 105).
Proof. repeat apply conj; vm_compute; reflexivity. Qed.
