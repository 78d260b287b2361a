(** Independent specification: FIPS 180-4 and GB/T 32905 (SM3). *)
From Verif Require Import Base.

(** w-bit words: addition modulo 2^w, circular shifts, complement. *)
Definition add_w (w x y : Z) : Z := (x + y) mod 2 ^ w.
Definition rotr (w n x : Z) : Z := x / 2 ^ n + (x mod 2 ^ n) * 2 ^ (w - n).
Definition rotl (w n x : Z) : Z := rotr w (w - n) x.
Definition compl (w x : Z) : Z := 2 ^ w - 1 - x.

Definition Ch (w x y z : Z) : Z := Z.lxor (Z.land x y) (Z.land (compl w x) z).
Definition Maj (x y z : Z) : Z := Z.lxor (Z.land x y) (Z.lxor (Z.land x z) (Z.land y z)).
Definition Parity (x y z : Z) : Z := Z.lxor x (Z.lxor y z).

(** FIPS 180-4 5.1: M || 1 || 0^k || length, in octets; [B] octets per block,
    [L] octets of length field; the number of zero octets is the least possible. *)
Definition md_padded (B L : nat) (M : list Z) : list Z :=
  M ++ [128] ++ repeat 0 ((B - (length M + 1 + L) mod B) mod B) ++ be_bytes L (8 * Z.of_nat (length M)).

(** i-th block of B octets; iteration of a compression function over all blocks. *)
Definition block (B : nat) (m : list Z) (i : nat) : list Z := firstn B (skipn (B * i) m).
Definition blocks (B : nat) (m : list Z) : list (list Z) := map (block B m) (seq 0 (length m / B)).
Definition md_hash (B L wb : nat) (comp : list Z -> list Z -> list Z) (iv : list Z) (outlen : nat) (M : list Z) : list Z :=
  firstn outlen (flat_map (be_bytes wb) (fold_left comp (blocks B (md_padded B L M)) iv)).

(** Words of a block. *)
Definition words_of (wb : nat) (blk : list Z) : list Z :=
  map (fun t => be_val (firstn wb (skipn (wb * t) blk))) (seq 0 16).

(** Message schedule: append W_16, W_17, ... computed by [f W t]. *)
Fixpoint schedule (f : list Z -> nat -> Z) (M : list Z) (k : nat) : list Z :=
  match k with
  | O => M
  | S k' => let W := schedule f M k' in W ++ [f W (length W)]
  end.

(** FIPS 180-4 6.1 *)
Definition sha1_W (W : list Z) (t : nat) : Z :=
  rotl 32 1 (Z.lxor (nthZ (t - 3) W) (Z.lxor (nthZ (t - 8) W) (Z.lxor (nthZ (t - 14) W) (nthZ (t - 16) W)))).
Definition sha1_f (t : nat) (x y z : Z) : Z :=
  if (t <=? 19)%nat then Ch 32 x y z else if (t <=? 39)%nat then Parity x y z
  else if (t <=? 59)%nat then Maj x y z else Parity x y z.
Definition sha1_K (t : nat) : Z :=
  if (t <=? 19)%nat then 0x5a827999 else if (t <=? 39)%nat then 0x6ed9eba1
  else if (t <=? 59)%nat then 0x8f1bbcdc else 0xca62c1d6.
Definition sha1_round (W : list Z) (v : Z * Z * Z * Z * Z) (t : nat) : Z * Z * Z * Z * Z :=
  let '(a, b, c, d, e) := v in
  let T := add_w 32 (rotl 32 5 a) (add_w 32 (sha1_f t b c d) (add_w 32 e (add_w 32 (sha1_K t) (nthZ t W)))) in
  (T, a, rotl 32 30 b, c, d).
Definition sha1_compress (H blk : list Z) : list Z :=
  let W := schedule sha1_W (words_of 4 blk) 64 in
  let '(a, b, c, d, e) :=
    fold_left (sha1_round W) (seq 0 80) (nthZ 0 H, nthZ 1 H, nthZ 2 H, nthZ 3 H, nthZ 4 H) in
  [add_w 32 a (nthZ 0 H); add_w 32 b (nthZ 1 H); add_w 32 c (nthZ 2 H); add_w 32 d (nthZ 3 H); add_w 32 e (nthZ 4 H)].

(** FIPS 180-4 6.2, 6.4: SHA-2 for word width w, given its sigma functions and constants. *)
Section Sha2.
  Variables (w : Z) (wb : nat) (BS0 BS1 ss0 ss1 : Z -> Z) (K : list Z) (rounds : nat).
  Definition sha2_W (W : list Z) (t : nat) : Z :=
    add_w w (ss1 (nthZ (t - 2) W)) (add_w w (nthZ (t - 7) W) (add_w w (ss0 (nthZ (t - 15) W)) (nthZ (t - 16) W))).
  Definition sha2_round (W : list Z) (v : Z * Z * Z * Z * Z * Z * Z * Z) (t : nat) :=
    let '(a, b, c, d, e, f, g, h) := v in
    let T1 := add_w w h (add_w w (BS1 e) (add_w w (Ch w e f g) (add_w w (nthZ t K) (nthZ t W)))) in
    let T2 := add_w w (BS0 a) (Maj a b c) in
    (add_w w T1 T2, a, b, c, add_w w d T1, e, f, g).
  Definition sha2_compress (H blk : list Z) : list Z :=
    let W := schedule sha2_W (words_of wb blk) (rounds - 16) in
    let '(a, b, c, d, e, f, g, h) :=
      fold_left (sha2_round W) (seq 0 rounds)
        (nthZ 0 H, nthZ 1 H, nthZ 2 H, nthZ 3 H, nthZ 4 H, nthZ 5 H, nthZ 6 H, nthZ 7 H) in
    [add_w w a (nthZ 0 H); add_w w b (nthZ 1 H); add_w w c (nthZ 2 H); add_w w d (nthZ 3 H);
     add_w w e (nthZ 4 H); add_w w f (nthZ 5 H); add_w w g (nthZ 6 H); add_w w h (nthZ 7 H)].
End Sha2.

(** FIPS 180-4 4.1.2, 4.1.3 *)
Definition x3 (a b c : Z) : Z := Z.lxor a (Z.lxor b c).
Definition sha256_compress (K : list Z) : list Z -> list Z -> list Z :=
  sha2_compress 32 4
    (fun x => x3 (rotr 32 2 x) (rotr 32 13 x) (rotr 32 22 x))
    (fun x => x3 (rotr 32 6 x) (rotr 32 11 x) (rotr 32 25 x))
    (fun x => x3 (rotr 32 7 x) (rotr 32 18 x) (x / 2 ^ 3))
    (fun x => x3 (rotr 32 17 x) (rotr 32 19 x) (x / 2 ^ 10)) K 64.
Definition sha512_compress (K : list Z) : list Z -> list Z -> list Z :=
  sha2_compress 64 8
    (fun x => x3 (rotr 64 28 x) (rotr 64 34 x) (rotr 64 39 x))
    (fun x => x3 (rotr 64 14 x) (rotr 64 18 x) (rotr 64 41 x))
    (fun x => x3 (rotr 64 1 x) (rotr 64 8 x) (x / 2 ^ 7))
    (fun x => x3 (rotr 64 19 x) (rotr 64 61 x) (x / 2 ^ 6)) K 80.

(** GB/T 32905 5.3: W_0..W_67, W'_j = W_j xor W_(j+4). *)
Definition SP1 (x : Z) : Z := x3 x (rotl 32 15 x) (rotl 32 23 x).
Definition SP0 (x : Z) : Z := x3 x (rotl 32 9 x) (rotl 32 17 x).
Definition sm3_W (W : list Z) (j : nat) : Z :=
  x3 (SP1 (x3 (nthZ (j - 16) W) (nthZ (j - 9) W) (rotl 32 15 (nthZ (j - 3) W))))
     (rotl 32 7 (nthZ (j - 13) W)) (nthZ (j - 6) W).
Definition sm3_Tj (j : nat) : Z := if (j <? 16)%nat then 0x79cc4519 else 0x7a879d8a.
Definition sm3_FFj (j : nat) (x y z : Z) : Z :=
  if (j <? 16)%nat then x3 x y z else Z.lor (Z.land x y) (Z.lor (Z.land x z) (Z.land y z)).
Definition sm3_GGj (j : nat) (x y z : Z) : Z :=
  if (j <? 16)%nat then x3 x y z else Z.lor (Z.land x y) (Z.land (compl 32 x) z).
Definition sm3_round (W : list Z) (v : Z * Z * Z * Z * Z * Z * Z * Z) (j : nat) :=
  let '(A, B, C, D, E, F, G, H) := v in
  let SS1 := rotl 32 7 (add_w 32 (rotl 32 12 A) (add_w 32 E (rotl 32 (Z.of_nat (j mod 32)) (sm3_Tj j)))) in
  let SS2 := Z.lxor SS1 (rotl 32 12 A) in
  let TT1 := add_w 32 (sm3_FFj j A B C) (add_w 32 D (add_w 32 SS2 (Z.lxor (nthZ j W) (nthZ (j + 4) W)))) in
  let TT2 := add_w 32 (sm3_GGj j E F G) (add_w 32 H (add_w 32 SS1 (nthZ j W))) in
  (TT1, A, rotl 32 9 B, C, SP0 TT2, E, rotl 32 19 F, G).
Definition sm3_compress (V blk : list Z) : list Z :=
  let W := schedule sm3_W (words_of 4 blk) 52 in
  let '(A, B, C, D, E, F, G, H) :=
    fold_left (sm3_round W) (seq 0 64)
      (nthZ 0 V, nthZ 1 V, nthZ 2 V, nthZ 3 V, nthZ 4 V, nthZ 5 V, nthZ 6 V, nthZ 7 V) in
  [Z.lxor A (nthZ 0 V); Z.lxor B (nthZ 1 V); Z.lxor C (nthZ 2 V); Z.lxor D (nthZ 3 V);
   Z.lxor E (nthZ 4 V); Z.lxor F (nthZ 5 V); Z.lxor G (nthZ 6 V); Z.lxor H (nthZ 7 V)].

(** Constants of FIPS 180-4: fractional parts of square and cube roots of primes. *)
Definition primes80 : list Z := [
  2; 3; 5; 7; 11; 13; 17; 19; 23; 29; 31; 37; 41; 43; 47; 53; 59; 61; 67; 71;
  73; 79; 83; 89; 97; 101; 103; 107; 109; 113; 127; 131; 137; 139; 149; 151; 157; 163; 167; 173;
  179; 181; 191; 193; 197; 199; 211; 223; 227; 229; 233; 239; 241; 251; 257; 263; 269; 271; 277; 281;
  283; 293; 307; 311; 313; 317; 331; 337; 347; 349; 353; 359; 367; 373; 379; 383; 389; 397; 401; 409].
(** First w bits of the fractional part of sqrt p. *)
Definition sqrt_frac (w p : Z) : Z := Z.sqrt (p * 2 ^ (2 * w)) mod 2 ^ w.
(** k is the first w bits of the fractional part of the cube root of p. *)
Definition is_cbrt_frac (w p k : Z) : Prop :=
  exists i, 0 <= i /\ 0 <= k < 2 ^ w /\ (i * 2 ^ w + k) ^ 3 <= p * 2 ^ (3 * w) < (i * 2 ^ w + k + 1) ^ 3.

(** FIPS 180-4 5.3 and 6: the digests, for a given table of round constants. *)
Definition fips_sha1 (m : list Z) : list Z :=
  md_hash 64 8 4 sha1_compress [0x67452301; 0xefcdab89; 0x98badcfe; 0x10325476; 0xc3d2e1f0] 20 m.
Definition fips_sha256 (K : list Z) (m : list Z) : list Z :=
  md_hash 64 8 4 (sha256_compress K) (map (sqrt_frac 32) (firstn 8 primes80)) 32 m.
Definition fips_sha224 (K : list Z) (m : list Z) : list Z :=   (* second 32 bits, 9th..16th prime *)
  md_hash 64 8 4 (sha256_compress K) (map (fun p => sqrt_frac 64 p mod 2 ^ 32) (firstn 8 (skipn 8 primes80))) 28 m.
Definition fips_sha512 (K : list Z) (m : list Z) : list Z :=
  md_hash 128 16 8 (sha512_compress K) (map (sqrt_frac 64) (firstn 8 primes80)) 64 m.
Definition fips_sha384 (K : list Z) (m : list Z) : list Z :=
  md_hash 128 16 8 (sha512_compress K) (map (sqrt_frac 64) (firstn 8 (skipn 8 primes80))) 48 m.
(** 5.3.6: SHA-512/t IV generation: SHA-512 from H0 xor a5a5..., on the ASCII name. *)
Definition sha512t_iv (K : list Z) (name : list Z) : list Z :=
  let d := md_hash 128 16 8 (sha512_compress K)
             (map (fun p => Z.lxor (sqrt_frac 64 p) 0xa5a5a5a5a5a5a5a5) (firstn 8 primes80)) 64 name in
  map (fun i => be_val (firstn 8 (skipn (8 * i) d))) (seq 0 8).
Definition fips_sha512_224 (K : list Z) (m : list Z) : list Z :=
  md_hash 128 16 8 (sha512_compress K) (sha512t_iv K [83; 72; 65; 45; 53; 49; 50; 47; 50; 50; 52]) 28 m.
Definition fips_sha512_256 (K : list Z) (m : list Z) : list Z :=
  md_hash 128 16 8 (sha512_compress K) (sha512t_iv K [83; 72; 65; 45; 53; 49; 50; 47; 50; 53; 54]) 32 m.
(** GB/T 32905 4.1 *)
Definition gbt_sm3 (m : list Z) : list Z :=
  md_hash 64 8 4 sm3_compress
    [0x7380166f; 0x4914b2b9; 0x172442d7; 0xda8a0600; 0xa96f30bc; 0x163138aa; 0xe38dee4d; 0xb0fb0e4e] 32 m.
