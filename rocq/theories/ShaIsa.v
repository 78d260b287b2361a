(** The processor instructions used by fips-180-x86.c and fips-180-arm.c, as their
    manufacturers document them (Intel SDM vol. 2, Arm ARM "shared pseudocode"); the
    SHA-1/SHA-256 ones of x86 are also written out in C in fips-180-x86.c:6-165
    (TEST_WITH_MOCK).  A vector is the list of its lanes, lane 0 first; the lanes are
    unsigned.  SHAchoose, SHAmajority, SHAparity of the Arm manual are Ch, Maj, Parity. *)
From Verif Require Import Base HashSpec.

Definition BS0_256 (x : Z) : Z := x3 (rotr 32 2 x) (rotr 32 13 x) (rotr 32 22 x).
Definition BS1_256 (x : Z) : Z := x3 (rotr 32 6 x) (rotr 32 11 x) (rotr 32 25 x).
Definition ss0_256 (x : Z) : Z := x3 (rotr 32 7 x) (rotr 32 18 x) (x / 2 ^ 3).
Definition ss1_256 (x : Z) : Z := x3 (rotr 32 17 x) (rotr 32 19 x) (x / 2 ^ 10).
Definition BS0_512 (x : Z) : Z := x3 (rotr 64 28 x) (rotr 64 34 x) (rotr 64 39 x).
Definition BS1_512 (x : Z) : Z := x3 (rotr 64 14 x) (rotr 64 18 x) (rotr 64 41 x).
Definition ss0_512 (x : Z) : Z := x3 (rotr 64 1 x) (rotr 64 8 x) (x / 2 ^ 7).
Definition ss1_512 (x : Z) : Z := x3 (rotr 64 19 x) (rotr 64 61 x) (x / 2 ^ 6).

(** ** Common *)
(** lane-wise sum (PADDD, VADD) and exclusive or *)
Definition vadd (w : Z) (u v : list Z) : list Z := map (fun p => add_w w (fst p) (snd p)) (combine u v).
Definition vxor (u v : list Z) : list Z := map (fun p => Z.lxor (fst p) (snd p)) (combine u v).
(** n octets seen as little-endian lanes of wb octets *)
Definition lanes (wb n : nat) (b : list Z) : list Z := map (fun k => le_val (firstn wb (skipn (wb * k) b))) (seq 0 n).

(** ** x86 *)
(** PSHUFB with an index vector given as to _mm_set_epi8, most significant octet first *)
Definition pshufb (v idx : list Z) : list Z := map (fun j => nthZ (Z.to_nat j) v) (rev idx).
(** PSHUFD *)
Definition pshufd (v : list Z) (imm : Z) : list Z :=
  map (fun k => nthZ (Z.to_nat (imm / 4 ^ k mod 4)) v) [0; 1; 2; 3].
(** PALIGNR by 4 octets: lanes 1 to 4 of the eight lanes of lo, hi *)
Definition palignr4 (hi lo : list Z) : list Z := firstn 4 (skipn 1 (lo ++ hi)).

Definition x86_f (t : Z) (x y z : Z) : Z :=
  if t =? 0 then Ch 32 x y z else if t =? 1 then Parity x y z else if t =? 2 then Maj x y z else Parity x y z.
Definition x86_k (t : Z) : Z :=
  if t =? 0 then 0x5a827999 else if t =? 1 then 0x6ed9eba1 else if t =? 2 then 0x8f1bbcdc else 0xca62c1d6.
(** SHA1RNDS4; fips-180-x86.c:12-59.  Lanes of src1: d, c, b, a; the first word is lane 3 of src2 *)
Definition x86_rnd (t : Z) (v : Z * Z * Z * Z * Z) (w : Z) : Z * Z * Z * Z * Z :=
  let '(a, b, c, d, e) := v in
  ((x86_f t b c d + rotl 32 5 a + w + e + x86_k t) mod 2 ^ 32, a, rotl 32 30 b, c, d).
Definition sha1rnds4 (src1 src2 : list Z) (t : Z) : list Z :=
  let '(a, b, c, d, _) := fold_left (x86_rnd t) (rev src2) (nthZ 3 src1, nthZ 2 src1, nthZ 1 src1, nthZ 0 src1, 0) in
  [d; c; b; a].
(** SHA1NEXTE; :61-69 *)
Definition sha1nexte (src1 src2 : list Z) : list Z :=
  vadd 32 src2 [0; 0; 0; rotl 32 30 (nthZ 3 src1)].
(** SHA1MSG1; :71-81 *)
Definition sha1msg1 (u v : list Z) : list Z :=
  [Z.lxor (nthZ 0 u) (nthZ 2 v); Z.lxor (nthZ 1 u) (nthZ 3 v); Z.lxor (nthZ 2 u) (nthZ 0 u); Z.lxor (nthZ 3 u) (nthZ 1 u)].
(** SHA1MSG2; :83-93 *)
Definition sha1msg2 (u v : list Z) : list Z :=
  let w3 := rotl 32 1 (Z.lxor (nthZ 3 u) (nthZ 2 v)) in
  let w2 := rotl 32 1 (Z.lxor (nthZ 2 u) (nthZ 1 v)) in
  let w1 := rotl 32 1 (Z.lxor (nthZ 1 u) (nthZ 0 v)) in
  let w0 := rotl 32 1 (Z.lxor (nthZ 0 u) w3) in
  [w0; w1; w2; w3].
(** SHA256RNDS2; :103-137.  Lanes of src1: h, g, d, c; of src2: f, e, b, a *)
Definition x86_rnd2 (v : Z * Z * Z * Z * Z * Z * Z * Z) (k : Z) :=
  let '(a, b, c, d, e, f, g, h) := v in
  ((Ch 32 e f g + Maj a b c + BS1_256 e + k + h + BS0_256 a) mod 2 ^ 32, a, b, c,
   (Ch 32 e f g + BS1_256 e + k + h + d) mod 2 ^ 32, e, f, g).
Definition sha256rnds2 (src1 src2 msg : list Z) : list Z :=
  let '(a, b, c, d, e, f, g, h) :=
    fold_left x86_rnd2 [nthZ 0 msg; nthZ 1 msg]
      (nthZ 3 src2, nthZ 2 src2, nthZ 3 src1, nthZ 2 src1, nthZ 1 src2, nthZ 0 src2, nthZ 1 src1, nthZ 0 src1) in
  [f; e; b; a].
(** SHA256MSG1; :139-151 *)
Definition sha256msg1 (u v : list Z) : list Z :=
  [add_w 32 (nthZ 0 u) (ss0_256 (nthZ 1 u)); add_w 32 (nthZ 1 u) (ss0_256 (nthZ 2 u));
   add_w 32 (nthZ 2 u) (ss0_256 (nthZ 3 u)); add_w 32 (nthZ 3 u) (ss0_256 (nthZ 0 v))].
(** SHA256MSG2; :153-165 *)
Definition sha256msg2 (u v : list Z) : list Z :=
  let w0 := add_w 32 (nthZ 0 u) (ss1_256 (nthZ 2 v)) in
  let w1 := add_w 32 (nthZ 1 u) (ss1_256 (nthZ 3 v)) in
  let w2 := add_w 32 (nthZ 2 u) (ss1_256 w0) in
  let w3 := add_w 32 (nthZ 3 u) (ss1_256 w1) in
  [w0; w1; w2; w3].

(** ** Arm *)
(** VREV32.8 / VREV64.8: reverse the octets of every group of wb octets *)
Definition vrev (wb : nat) (b : list Z) : list Z :=
  flat_map (fun k => rev (firstn wb (skipn (wb * k) b))) (seq 0 (16 / wb)).
(** EXT on two 64-bit lanes by one lane *)
Definition vext1_64 (a b : list Z) : list Z := [nthZ 1 a; nthZ 0 b].
(** SHA1C, SHA1P, SHA1M: X = a..d, Y = e *)
Definition arm_sha1_rnd (f : Z -> Z -> Z -> Z) (v : Z * Z * Z * Z * Z) (w : Z) : Z * Z * Z * Z * Z :=
  let '(x0, x1, x2, x3, y) := v in
  ((y + rotl 32 5 x0 + f x1 x2 x3 + w) mod 2 ^ 32, x0, rotl 32 30 x1, x2, x3).
Definition arm_sha1 (f : Z -> Z -> Z -> Z) (X : list Z) (Y : Z) (W : list Z) : list Z :=
  let '(x0, x1, x2, x3, _) := fold_left (arm_sha1_rnd f) W (nthZ 0 X, nthZ 1 X, nthZ 2 X, nthZ 3 X, Y) in
  [x0; x1; x2; x3].
Definition vsha1c : list Z -> Z -> list Z -> list Z := arm_sha1 (Ch 32).
Definition vsha1p : list Z -> Z -> list Z -> list Z := arm_sha1 Parity.
Definition vsha1m : list Z -> Z -> list Z -> list Z := arm_sha1 Maj.
Definition vsha1h (x : Z) : Z := rotl 32 30 x.
Definition vsha1su0 (d n m : list Z) : list Z :=
  vxor (vxor [nthZ 2 d; nthZ 3 d; nthZ 0 n; nthZ 1 n] d) m.
Definition vsha1su1 (d n : list Z) : list Z :=
  let T := vxor d [nthZ 1 n; nthZ 2 n; nthZ 3 n; 0] in
  [rotl 32 1 (nthZ 0 T); rotl 32 1 (nthZ 1 T); rotl 32 1 (nthZ 2 T); Z.lxor (rotl 32 1 (nthZ 3 T)) (rotl 32 2 (nthZ 0 T))].
(** SHA256H, SHA256H2: the pseudocode SHA256hash(X, Y, W, part1) *)
Definition arm_sha256_rnd (v : Z * Z * Z * Z * Z * Z * Z * Z) (w : Z) :=
  let '(x0, x1, x2, x3, y0, y1, y2, y3) := v in
  let t := (y3 + BS1_256 y0 + Ch 32 y0 y1 y2 + w) mod 2 ^ 32 in
  let x3' := (t + x3) mod 2 ^ 32 in
  let y3' := (t + BS0_256 x0 + Maj x0 x1 x2) mod 2 ^ 32 in
  (y3', x0, x1, x2, x3', y0, y1, y2).
Definition SHA256hash (X Y W : list Z) :=
  fold_left arm_sha256_rnd W
    (nthZ 0 X, nthZ 1 X, nthZ 2 X, nthZ 3 X, nthZ 0 Y, nthZ 1 Y, nthZ 2 Y, nthZ 3 Y).
Definition vsha256h (abcd efgh wk : list Z) : list Z :=
  let '(x0, x1, x2, x3, y0, y1, y2, y3) := SHA256hash abcd efgh wk in [x0; x1; x2; x3].
Definition vsha256h2 (efgh abcd wk : list Z) : list Z :=
  let '(x0, x1, x2, x3, y0, y1, y2, y3) := SHA256hash abcd efgh wk in [y0; y1; y2; y3].
Definition vsha256su0 (d n : list Z) : list Z :=
  [add_w 32 (ss0_256 (nthZ 1 d)) (nthZ 0 d); add_w 32 (ss0_256 (nthZ 2 d)) (nthZ 1 d);
   add_w 32 (ss0_256 (nthZ 3 d)) (nthZ 2 d); add_w 32 (ss0_256 (nthZ 0 n)) (nthZ 3 d)].
Definition vsha256su1 (d n m : list Z) : list Z :=
  let r0 := (ss1_256 (nthZ 2 m) + nthZ 0 d + nthZ 1 n) mod 2 ^ 32 in
  let r1 := (ss1_256 (nthZ 3 m) + nthZ 1 d + nthZ 2 n) mod 2 ^ 32 in
  let r2 := (ss1_256 r0 + nthZ 2 d + nthZ 3 n) mod 2 ^ 32 in
  let r3 := (ss1_256 r1 + nthZ 3 d + nthZ 0 m) mod 2 ^ 32 in
  [r0; r1; r2; r3].
(** SHA512H, SHA512H2, SHA512SU0, SHA512SU1 *)
Definition vsha512h (d n m : list Z) : list Z :=
  let hi := (Ch 64 (nthZ 1 m) (nthZ 0 n) (nthZ 1 n) + BS1_512 (nthZ 1 m) + nthZ 1 d) mod 2 ^ 64 in
  let tmp := (hi + nthZ 0 m) mod 2 ^ 64 in
  let lo := (Ch 64 tmp (nthZ 1 m) (nthZ 0 n) + BS1_512 tmp + nthZ 0 d) mod 2 ^ 64 in
  [lo; hi].
Definition vsha512h2 (d n m : list Z) : list Z :=
  let hi := (Maj (nthZ 0 n) (nthZ 1 m) (nthZ 0 m) + BS0_512 (nthZ 0 m) + nthZ 1 d) mod 2 ^ 64 in
  let lo := (Maj hi (nthZ 0 m) (nthZ 1 m) + BS0_512 hi + nthZ 0 d) mod 2 ^ 64 in
  [lo; hi].
Definition vsha512su0 (d n : list Z) : list Z :=
  [add_w 64 (nthZ 0 d) (ss0_512 (nthZ 1 d)); add_w 64 (nthZ 1 d) (ss0_512 (nthZ 0 n))].
Definition vsha512su1 (d n m : list Z) : list Z :=
  [(nthZ 0 d + ss1_512 (nthZ 0 n) + nthZ 0 m) mod 2 ^ 64; (nthZ 1 d + ss1_512 (nthZ 1 n) + nthZ 1 m) mod 2 ^ 64].
