(** Executable SHA-256 (FIPS 180-4) and RIPEMD-160, used to instantiate the
    model on concrete data.  No property theorem depends on these definitions;
    they show that hypotheses are met and that the model reproduces the test
    vectors of the repository. *)
From Coq Require Import String.
From Verif Require Export F_base M_utils.

Definition M32 : Z := 4294967295.
Definition add32 (a b : Z) : Z := Z.land (a + b) M32.
Definition rotr (n x : Z) : Z := Z.lor (Z.shiftr x n) (Z.land (Z.shiftl x (32 - n)) M32).
Definition rotl (n x : Z) : Z := rotr (32 - n) x.
Definition not32 (x : Z) : Z := M32 - x.

(** Words of a block: big-endian or little-endian. *)
Fixpoint words (fuel : nat) (f : bytes -> Z) (b : bytes) : list Z :=
  match fuel with
  | O => []
  | S k => match b with [] => [] | _ => f (firstn 4 b) :: words k f (skipn 4 b) end
  end.

(** Padding: 0x80, zeros, 64-bit bit length. *)
Definition pad_zeros (n : Z) : nat := Z.to_nat ((55 - n) mod 64).
Definition pad_be (b : bytes) : bytes :=
  b ++ [128] ++ repeat 0 (pad_zeros (zlen b)) ++ rev (le_bytes 8 (8 * zlen b)).
Definition pad_le (b : bytes) : bytes :=
  b ++ [128] ++ repeat 0 (pad_zeros (zlen b)) ++ le_bytes 8 (8 * zlen b).
Fixpoint blocks (fuel : nat) (b : bytes) : list bytes :=
  match fuel with
  | O => []
  | S k => match b with [] => [] | _ => firstn 64 b :: blocks k (skipn 64 b) end
  end.

(** ** SHA-256 *)
Definition sha_k : list Z :=
 [0x428a2f98;0x71374491;0xb5c0fbcf;0xe9b5dba5;0x3956c25b;0x59f111f1;0x923f82a4;0xab1c5ed5;
  0xd807aa98;0x12835b01;0x243185be;0x550c7dc3;0x72be5d74;0x80deb1fe;0x9bdc06a7;0xc19bf174;
  0xe49b69c1;0xefbe4786;0x0fc19dc6;0x240ca1cc;0x2de92c6f;0x4a7484aa;0x5cb0a9dc;0x76f988da;
  0x983e5152;0xa831c66d;0xb00327c8;0xbf597fc7;0xc6e00bf3;0xd5a79147;0x06ca6351;0x14292967;
  0x27b70a85;0x2e1b2138;0x4d2c6dfc;0x53380d13;0x650a7354;0x766a0abb;0x81c2c92e;0x92722c85;
  0xa2bfe8a1;0xa81a664b;0xc24b8b70;0xc76c51a3;0xd192e819;0xd6990624;0xf40e3585;0x106aa070;
  0x19a4c116;0x1e376c08;0x2748774c;0x34b0bcb5;0x391c0cb3;0x4ed8aa4a;0x5b9cca4f;0x682e6ff3;
  0x748f82ee;0x78a5636f;0x84c87814;0x8cc70208;0x90befffa;0xa4506ceb;0xbef9a3f7;0xc67178f2].

Record st8 := St8 { s0 : Z; s1 : Z; s2 : Z; s3 : Z; s4 : Z; s5 : Z; s6 : Z; s7 : Z }.
Definition sha_init : st8 := St8 0x6a09e667 0xbb67ae85 0x3c6ef372 0xa54ff53a 0x510e527f 0x9b05688c 0x1f83d9ab 0x5be0cd19.

Definition ssig0 x := Z.lxor (Z.lxor (rotr 7 x) (rotr 18 x)) (Z.shiftr x 3).
Definition ssig1 x := Z.lxor (Z.lxor (rotr 17 x) (rotr 19 x)) (Z.shiftr x 10).
Definition bsig0 x := Z.lxor (Z.lxor (rotr 2 x) (rotr 13 x)) (rotr 22 x).
Definition bsig1 x := Z.lxor (Z.lxor (rotr 6 x) (rotr 11 x)) (rotr 25 x).

(** One round with the message schedule as a window of 16 words. *)
Definition sha_round (acc : st8 * list Z) (k : Z) : st8 * list Z :=
  let '(h, w) := acc in
  match w with
  | w0 :: r =>
    let ch := Z.lxor (Z.land (s4 h) (s5 h)) (Z.land (not32 (s4 h)) (s6 h)) in
    let t1 := Z.land (s7 h + bsig1 (s4 h) + ch + k + w0) M32 in
    let maj := Z.lxor (Z.lxor (Z.land (s0 h) (s1 h)) (Z.land (s0 h) (s2 h))) (Z.land (s1 h) (s2 h)) in
    let t2 := bsig0 (s0 h) + maj in
    let wn := Z.land (ssig1 (nth 13 r 0) + nth 8 r 0 + ssig0 (nth 0 r 0) + w0) M32 in
    (St8 (add32 t1 t2) (s0 h) (s1 h) (s2 h) (add32 (s3 h) t1) (s4 h) (s5 h) (s6 h), r ++ [wn])
  | [] => acc
  end.

Definition sha_block (h : st8) (b : bytes) : st8 :=
  let '(g, _) := fold_left sha_round sha_k (h, words 16 from_be b) in
  St8 (add32 (s0 h) (s0 g)) (add32 (s1 h) (s1 g)) (add32 (s2 h) (s2 g)) (add32 (s3 h) (s3 g))
      (add32 (s4 h) (s4 g)) (add32 (s5 h) (s5 g)) (add32 (s6 h) (s6 g)) (add32 (s7 h) (s7 g)).

Definition SHA256 (b : bytes) : bytes :=
  let p := pad_be b in
  let h := fold_left sha_block (blocks (length p) p) sha_init in
  flat_map (fun w => rev (le_bytes 4 w)) [s0 h; s1 h; s2 h; s3 h; s4 h; s5 h; s6 h; s7 h].

(** ** RIPEMD-160 *)
Definition rmd_r : list Z :=
 [0;1;2;3;4;5;6;7;8;9;10;11;12;13;14;15; 7;4;13;1;10;6;15;3;12;0;9;5;2;14;11;8;
  3;10;14;4;9;15;8;1;2;7;0;6;13;11;5;12; 1;9;11;10;0;8;12;4;13;3;7;15;14;5;6;2;
  4;0;5;9;7;12;2;10;14;1;3;8;11;6;15;13].
Definition rmd_r' : list Z :=
 [5;14;7;0;9;2;11;4;13;6;15;8;1;10;3;12; 6;11;3;7;0;13;5;10;14;15;8;12;4;9;1;2;
  15;5;1;3;7;14;6;9;11;8;12;2;10;0;4;13; 8;6;4;1;3;11;15;0;5;12;2;13;9;7;10;14;
  12;15;10;4;1;5;8;7;6;2;13;14;0;3;9;11].
Definition rmd_s : list Z :=
 [11;14;15;12;5;8;7;9;11;13;14;15;6;7;9;8; 7;6;8;13;11;9;7;15;7;12;15;9;11;7;13;12;
  11;13;6;7;14;9;13;15;14;8;13;6;5;12;7;5; 11;12;14;15;14;15;9;8;9;14;5;6;8;6;5;12;
  9;15;5;11;6;8;13;12;5;12;13;14;11;8;5;6].
Definition rmd_s' : list Z :=
 [8;9;9;11;13;15;15;5;7;7;8;11;14;14;12;6; 9;13;15;7;12;8;9;11;7;7;12;7;6;15;13;11;
  9;7;15;11;8;6;6;14;12;13;5;14;13;13;7;5; 15;5;8;11;14;14;6;14;6;9;12;9;12;5;15;8;
  8;5;12;9;12;5;14;6;8;13;6;5;15;13;11;11].
Definition rmd_f (j : nat) (x y z : Z) : Z :=
  match j with
  | 0%nat => Z.lxor (Z.lxor x y) z
  | 1%nat => Z.lor (Z.land x y) (Z.land (not32 x) z)
  | 2%nat => Z.lxor (Z.lor x (not32 y)) z
  | 3%nat => Z.lor (Z.land x z) (Z.land y (not32 z))
  | _ => Z.lxor x (Z.lor y (not32 z))
  end.
Definition rmd_k : list Z := [0; 0x5a827999; 0x6ed9eba1; 0x8f1bbcdc; 0xa953fd4e].
Definition rmd_k' : list Z := [0x50a28be6; 0x5c4dd124; 0x6d703ef3; 0x7a6d76e9; 0].

Record st5 := St5 { r0 : Z; r1 : Z; r2 : Z; r3 : Z; r4 : Z }.
Definition rmd_init : st5 := St5 0x67452301 0xefcdab89 0x98badcfe 0x10325476 0xc3d2e1f0.

Definition rmd_step (x : list Z) (fj : nat) (k : Z) (h : st5) (rs : Z * Z) : st5 :=
  let '(r, s) := rs in
  let t := add32 (rotl s (Z.land (r0 h + rmd_f fj (r1 h) (r2 h) (r3 h) + nth (Z.to_nat r) x 0 + k) M32)) (r4 h) in
  St5 (r4 h) t (r1 h) (rotl 10 (r2 h)) (r3 h).

Fixpoint rmd_line (x : list Z) (ks : list Z) (fs : list nat) (rs : list (Z * Z)) (h : st5) : st5 :=
  match ks, fs with
  | k :: ks', f :: fs' => rmd_line x ks' fs' (skipn 16 rs) (fold_left (rmd_step x f k) (firstn 16 rs) h)
  | _, _ => h
  end.

Definition rmd_block (h : st5) (b : bytes) : st5 :=
  let x := words 16 from_le b in
  let a := rmd_line x rmd_k [0; 1; 2; 3; 4]%nat (combine rmd_r rmd_s) h in
  let c := rmd_line x rmd_k' [4; 3; 2; 1; 0]%nat (combine rmd_r' rmd_s') h in
  St5 (Z.land (r1 h + r2 a + r3 c) M32) (Z.land (r2 h + r3 a + r4 c) M32) (Z.land (r3 h + r4 a + r0 c) M32)
      (Z.land (r4 h + r0 a + r1 c) M32) (Z.land (r0 h + r1 a + r2 c) M32).

Definition RIPEMD160 (b : bytes) : bytes :=
  let p := pad_le b in
  let h := fold_left rmd_block (blocks (length p) p) rmd_init in
  flat_map (le_bytes 4) [r0 h; r1 h; r2 h; r3 h; r4 h].

(** ** Test vectors *)
Example sha256_empty : bytes_to_hex (SHA256 []) = str "e3b0c44298fc1c149afbf4c8996fb92427ae41e4649b934ca495991b7852b855".
Proof. vm_compute. reflexivity. Qed.
Example sha256_abc : bytes_to_hex (SHA256 (str "abc")) = str "ba7816bf8f01cfea414140de5dae2223b00361a396177a9cb410ff61f20015ad".
Proof. vm_compute. reflexivity. Qed.
Example rmd_abc : bytes_to_hex (RIPEMD160 (str "abc")) = str "8eb208f7e05d987a9b044a8e98c6b087f15a0bfc".
Proof. vm_compute. reflexivity. Qed.
Example rmd_empty : bytes_to_hex (RIPEMD160 []) = str "9c1185a5c5e9fc54612808977ee8f548b2258d31".
Proof. vm_compute. reflexivity. Qed.

Lemma SHA256_length b : length (SHA256 b) = 32%nat.
Proof. unfold SHA256. cbn [flat_map]. rewrite !app_length, !rev_length, !le_bytes_length. reflexivity. Qed.
Lemma SHA256_ok b : bytes_ok (SHA256 b) = true.
Proof. unfold SHA256. cbn [flat_map]. rewrite !bytes_ok_app, !bytes_ok_rev, !le_bytes_ok. reflexivity. Qed.
Lemma RIPEMD160_length b : length (RIPEMD160 b) = 20%nat.
Proof. unfold RIPEMD160. cbn [flat_map]. rewrite !app_length, !le_bytes_length. reflexivity. Qed.
Lemma RIPEMD160_ok b : bytes_ok (RIPEMD160 b) = true.
Proof. unfold RIPEMD160. cbn [flat_map]. rewrite !bytes_ok_app, !le_bytes_ok. reflexivity. Qed.
