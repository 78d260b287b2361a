(** The GHASH multiplications that use processor instructions: galois128-x86.c,
    galois128-arm.c, galois128-ppc.c.  A 128-bit register is the integer it holds (octet i of
    a loaded block is bits 8i .. 8i+7). *)
From Verif Require Import Base HashSpec GcmSpec.

(** ** The instructions *)
(** PCLMULQDQ, PMULL, VPMSUMD: carry-less product of two 64-bit numbers (clmul, GcmSpec.v). *)
Definition mul64 (a b : Z) : Z := clmul 64 (a mod 2 ^ 64) (b mod 2 ^ 64).
(** 128-bit left shift (uint128/poly128 <<, and PSLLDQ by 8 octets for n = 64) *)
Definition shl128 (v n : Z) : Z := Z.shiftl v n mod 2 ^ 128.
(** _mm_set1_epi8 *)
Definition set1_epi8 (b : Z) : Z := le_val (repeat b 16).
(** PSRLW, PSLLW: every 16-bit lane separately *)
Definition srli_epi16 (v n : Z) : Z := val_le 16 (map (fun l => Z.shiftr l n) (to_le 16 8 v)).
Definition slli_epi16 (v n : Z) : Z := val_le 16 (map (fun l => Z.shiftl l n mod 2 ^ 16) (to_le 16 8 v)).
(** _mm_clmulepi64_si128: bit 0 of imm selects the half of a, bit 4 that of b *)
Definition clmulepi64 (a b imm : Z) : Z :=
  mul64 (if Z.testbit imm 0 then Z.shiftr a 64 else a) (if Z.testbit imm 4 then Z.shiftr b 64 else b).
(** vec_pmsum_be on doublewords: the sum (xor) of the two products *)
Definition pmsum (a b : Z * Z) : Z := Z.lxor (mul64 (fst a) (fst b)) (mul64 (snd a) (snd b)).

(** ** x86 *)
(** galois128-x86.c:6-12 *)
Definition bytes_mirror_x86 (x : Z) : Z :=
  let x := Z.lor (srli_epi16 (Z.land x (set1_epi8 0xaa)) 1) (slli_epi16 (Z.land x (set1_epi8 0x55)) 1) in
  let x := Z.lor (srli_epi16 (Z.land x (set1_epi8 0xcc)) 2) (slli_epi16 (Z.land x (set1_epi8 0x33)) 2) in
  let x := Z.lor (srli_epi16 (Z.land x (set1_epi8 0xf0)) 4) (slli_epi16 (Z.land x (set1_epi8 0x0f)) 4) in
  x.
(** galois128-x86.c:14-41 *)
Definition galois128_mul_x86 (x y : Z) : Z :=
  let p := 0x87 in
  let x := bytes_mirror_x86 x in
  let y := bytes_mirror_x86 y in
  let a := clmulepi64 x y 0x00 in
  let b := clmulepi64 x y 0x01 in
  let b := Z.lxor b (clmulepi64 x y 0x10) in
  let a := Z.lxor a (shl128 b 64) in
  let c := clmulepi64 p b 0x10 in
  let a := Z.lxor a c in
  let b := clmulepi64 x y 0x11 in
  let c := clmulepi64 p b 0x00 in
  let a := Z.lxor a c in
  let c := clmulepi64 p b 0x10 in
  let a := Z.lxor a (shl128 c 64) in
  let c := clmulepi64 p c 0x10 in
  let a := Z.lxor a c in
  bytes_mirror_x86 a.
(** galois128-x86.c:43-53; X is NULL or not *)
Definition hash1block_x86 (Y H : list Z) (X : option (list Z)) : list Z :=
  let y := le_val Y in
  let y := match X with Some X => Z.lxor y (le_val X) | None => y end in
  let h := le_val H in
  le_bytes 16 (galois128_mul_x86 y h).

(** ** Arm *)
(** galois128-arm.c:8-31; the mask is built by doubling *)
Definition mask_of (m : Z) : Z :=
  let mask := m in
  let mask := Z.lor (shl128 mask 16) mask in
  let mask := Z.lor (shl128 mask 32) mask in
  let mask := Z.lor (shl128 mask 64) mask in mask.
Definition bytes_mirror_arm (x : Z) : Z :=
  let mask := mask_of 0xaaaa in
  let x := Z.lor (Z.shiftr (Z.land x mask) 1) (shl128 (Z.land x (Z.shiftr mask 1)) 1) in
  let mask := mask_of 0xcccc in
  let x := Z.lor (Z.shiftr (Z.land x mask) 2) (shl128 (Z.land x (Z.shiftr mask 2)) 2) in
  let mask := mask_of 0xf0f0 in
  let x := Z.lor (Z.shiftr (Z.land x mask) 4) (shl128 (Z.land x (Z.shiftr mask 4)) 4) in
  x.
(** galois128-arm.c:33-58 *)
Definition galois128_mul_arm (x y : Z) : Z :=
  let p := 0x87 in
  let x := bytes_mirror_arm x in
  let y := bytes_mirror_arm y in
  let a := mul64 x y in
  let b := mul64 x (Z.shiftr y 64) in
  let b := Z.lxor b (mul64 (Z.shiftr x 64) y) in
  let a := Z.lxor a (shl128 b 64) in
  let c := mul64 p (Z.shiftr b 64) in
  let a := Z.lxor a c in
  let b := mul64 (Z.shiftr x 64) (Z.shiftr y 64) in
  let c := mul64 p b in
  let a := Z.lxor a c in
  let c := mul64 p (Z.shiftr b 64) in
  let a := Z.lxor a (shl128 c 64) in
  let c := mul64 p (Z.shiftr c 64) in
  let a := Z.lxor a c in
  bytes_mirror_arm a.
(** galois128-arm.c:66-74, galois128-ppc.c:73-83: two little-endian 64-bit loads *)
Definition load2 (b : list Z) : Z :=
  let y := 0 in
  let y := Z.lxor y (le_val (firstn 8 (skipn 8 b))) in
  let y := shl128 y 64 in
  Z.lxor y (le_val (firstn 8 b)).
(** galois128-arm.c:79-81, galois128-ppc.c:85-87 *)
Definition store2 (y : Z) : list Z := le_bytes 8 (y mod 2 ^ 64) ++ le_bytes 8 (Z.shiftr y 64 mod 2 ^ 64).
(** galois128-arm.c:60-82 *)
Definition hash1block_arm (Y H : list Z) (X : option (list Z)) : list Z :=
  let y := load2 Y in
  let y := match X with Some X => Z.lxor y (load2 X) | None => y end in
  let h := load2 H in
  store2 (galois128_mul_arm y h).

(** ** Power *)
(** galois128-ppc.c:11-34: as on Arm *)
Definition bytes_mirror_ppc (x : Z) : Z := bytes_mirror_arm x.
(** galois128-ppc.c:36-61 *)
Definition galois128_mul_ppc (x y : Z) : Z :=
  let p := (0, 0x87) in
  let x := bytes_mirror_ppc x in
  let y := bytes_mirror_ppc y in
  let a := pmsum (0, x) (0, y) in
  let b := pmsum (x, Z.shiftr x 64) (Z.shiftr y 64, y) in
  let a := Z.lxor a (shl128 b 64) in
  let c := pmsum p (0, Z.shiftr b 64) in
  let a := Z.lxor a c in
  let b := pmsum (0, Z.shiftr x 64) (0, Z.shiftr y 64) in
  let c := pmsum p (0, b) in
  let a := Z.lxor a c in
  let c := pmsum p (0, Z.shiftr b 64) in
  let a := Z.lxor a (shl128 c 64) in
  let c := pmsum p (0, Z.shiftr c 64) in
  let a := Z.lxor a c in
  bytes_mirror_ppc a.
(** galois128-ppc.c:63-88 *)
Definition hash1block_ppc (Y H : list Z) (X : option (list Z)) : list Z :=
  let y := load2 Y in
  let y := match X with Some X => Z.lxor y (load2 X) | None => y end in
  let h := load2 H in
  store2 (galois128_mul_ppc y h).
