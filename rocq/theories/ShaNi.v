(** The SHA-1 and SHA-2 compression functions that use processor instructions:
    fips-180-x86.c, fips-180-arm.c.  Vectors are lists of lanes (ShaIsa.v); the array w is the
    list of its vectors; the message block is the list of its octets (the code is given it as
    an array of words and loads it octet-wise or reverses the octets). *)
From Verif Require Import Base Hash HashSpec ShaIsa.

(** a 16-octet load at octet offset 16*i *)
Definition ldv (msg : list Z) (i : nat) : list Z := firstn 16 (skipn (16 * i) msg).
Definition vget (w : list (list Z)) (i : nat) : list Z := nth i w [].
(** a load of n table entries *)
Definition ldk (n : nat) (K : list Z) (i : nat) : list Z := firstn n (skipn (n * i) K).

(** ** x86 *)
(** fips-180-x86.c:190-197 *)
Definition x86_sha1_load (msg : list Z) : list (list Z) :=
  map (fun i => lanes 4 4 (pshufb (ldv msg i) [0; 1; 2; 3; 4; 5; 6; 7; 8; 9; 10; 11; 12; 13; 14; 15])) (seq 0 4).
(** fips-180-x86.c:204-218: the body of the loop; state is (abcd, e, save, w) *)
Definition x86_sha1_body (s : list Z * list Z * list Z * list (list Z)) (i : nat) : list Z * list Z * list Z * list (list Z) :=
  let '(abcd, e, save, w) := s in
  let e := abcd in
  let abcd := if (0 <=? i)%nat && (i <? 5)%nat then sha1rnds4 abcd save 0 else abcd in
  let abcd := if (5 <=? i)%nat && (i <? 10)%nat then sha1rnds4 abcd save 1 else abcd in
  let abcd := if (10 <=? i)%nat && (i <? 15)%nat then sha1rnds4 abcd save 2 else abcd in
  let abcd := if (15 <=? i)%nat && (i <? 20)%nat then sha1rnds4 abcd save 3 else abcd in
  let w := if (1 <=? i)%nat then upd ((i - 1) mod 4) (sha1msg1 (vget w ((i - 1) mod 4)) (vget w (i mod 4))) w else w in
  let w := if (2 <=? i)%nat then upd ((i - 2) mod 4) (vxor (vget w ((i - 2) mod 4)) (vget w (i mod 4))) w else w in
  let w := if (3 <=? i)%nat then upd ((i - 3) mod 4) (sha1msg2 (vget w ((i - 3) mod 4)) (vget w (i mod 4))) w else w in
  let save := sha1nexte e (vget w ((i + 1) mod 4)) in
  (abcd, e, save, w).
(** fips-180-x86.c:183-225 *)
Definition x86_sha1 (H msg : list Z) : list Z :=
  let w := x86_sha1_load msg in
  let abcd := rev [nthZ 0 H; nthZ 1 H; nthZ 2 H; nthZ 3 H] in
  let e := rev [nthZ 4 H; 0; 0; 0] in
  let save := vadd 32 e (vget w 0) in
  let '(abcd, e, save, w) := fold_left x86_sha1_body (seq 0 20) (abcd, e, save, w) in
  map (fun i => wrap 32 (nthZ i H + nthZ (3 - i) abcd)) (seq 0 4)
  ++ [wrap 32 (nthZ 4 H + cROTL 32 (nthZ 3 e) 30)].

(** fips-180-x86.c:236-243 *)
Definition x86_sha256_load (msg : list Z) : list (list Z) :=
  map (fun i => lanes 4 4 (pshufb (ldv msg i) [12; 13; 14; 15; 8; 9; 10; 11; 4; 5; 6; 7; 0; 1; 2; 3])) (seq 0 4).
(** fips-180-x86.c:248-267: the body of the loop; state is (abef, cdgh, w) *)
Definition x86_sha256_body (s : list Z * list Z * list (list Z)) (i : nat) : list Z * list Z * list (list Z) :=
  let '(abef, cdgh, w) := s in
  let save := vadd 32 (vget w (i mod 4)) (ldk 4 K_sha256 i) in
  let cdgh := sha256rnds2 cdgh abef save in
  let save := pshufd save 0x0e in
  let abef := sha256rnds2 abef cdgh save in
  let w := if (3 <=? i)%nat then
      let save := vget w (i mod 4) in
      let save := palignr4 save (vget w ((i - 1) mod 4)) in
      let w := upd ((i - 3) mod 4) (vadd 32 (vget w ((i - 3) mod 4)) save) w in
      upd ((i - 3) mod 4) (sha256msg2 (vget w ((i - 3) mod 4)) (vget w (i mod 4))) w
    else w in
  let w := if (1 <=? i)%nat then upd ((i - 1) mod 4) (sha256msg1 (vget w ((i - 1) mod 4)) (vget w (i mod 4))) w else w in
  (abef, cdgh, w).
(** fips-180-x86.c:229-279 *)
Definition x86_sha256 (H msg : list Z) : list Z :=
  let w := x86_sha256_load msg in
  let abef := rev [nthZ 0 H; nthZ 1 H; nthZ 4 H; nthZ 5 H] in
  let cdgh := rev [nthZ 2 H; nthZ 3 H; nthZ 6 H; nthZ 7 H] in
  let '(abef, cdgh, w) := fold_left x86_sha256_body (seq 0 16) (abef, cdgh, w) in
  let H := upd 0 (wrap 32 (nthZ 0 H + nthZ 3 abef)) H in
  let H := upd 1 (wrap 32 (nthZ 1 H + nthZ 2 abef)) H in
  let H := upd 4 (wrap 32 (nthZ 4 H + nthZ 1 abef)) H in
  let H := upd 5 (wrap 32 (nthZ 5 H + nthZ 0 abef)) H in
  let H := upd 2 (wrap 32 (nthZ 2 H + nthZ 3 cdgh)) H in
  let H := upd 3 (wrap 32 (nthZ 3 H + nthZ 2 cdgh)) H in
  let H := upd 6 (wrap 32 (nthZ 6 H + nthZ 1 cdgh)) H in
  let H := upd 7 (wrap 32 (nthZ 7 H + nthZ 0 cdgh)) H in
  H.
(** fips-180-x86.c:281-285: compressfunc_sha512_ni calls compressfunc_sha512_ci *)
Definition x86_sha512 (H msg : list Z) : list Z := compressfunc_sha2 sha512_params H msg.

(** ** Arm *)
(** fips-180-arm.c:17-26, 84-93 (little-endian build) *)
Definition arm_load32 (msg : list Z) : list (list Z) := map (fun i => lanes 4 4 (vrev 4 (ldv msg i))) (seq 0 4).
(** fips-180-arm.c:33-66: state is (abcd, e, w) *)
Definition arm_sha1_body (s : list Z * Z * list (list Z)) (i : nat) : list Z * Z * list (list Z) :=
  let '(abcd, e, w) := s in
  let dup k := [k; k; k; k] in
  let save := [] in
  let save := if (0 <=? i)%nat && (i <? 5)%nat
    then let save := vadd 32 (vget w (i mod 4)) (dup 0x5a827999) in vsha1c abcd e save else save in
  let save := if (5 <=? i)%nat && (i <? 10)%nat
    then let save := vadd 32 (vget w (i mod 4)) (dup 0x6ed9eba1) in vsha1p abcd e save else save in
  let save := if (10 <=? i)%nat && (i <? 15)%nat
    then let save := vadd 32 (vget w (i mod 4)) (dup 0x8f1bbcdc) in vsha1m abcd e save else save in
  let save := if (15 <=? i)%nat && (i <? 20)%nat
    then let save := vadd 32 (vget w (i mod 4)) (dup 0xca62c1d6) in vsha1p abcd e save else save in
  let e := vsha1h (nthZ 0 abcd) in
  let abcd := save in
  let w := upd (i mod 4) (vsha1su0 (vget w (i mod 4)) (vget w ((i + 1) mod 4)) (vget w ((i + 2) mod 4))) w in
  let w := upd (i mod 4) (vsha1su1 (vget w (i mod 4)) (vget w ((i + 3) mod 4))) w in
  (abcd, e, w).
(** fips-180-arm.c:10-72 *)
Definition arm_sha1_ni (H msg : list Z) : list Z :=
  let w := arm_load32 msg in
  let abcd := firstn 4 H in
  let e := nthZ 4 H in
  let '(abcd, e, w) := fold_left arm_sha1_body (seq 0 20) (abcd, e, w) in
  map (fun i => wrap 32 (nthZ i H + nthZ i abcd)) (seq 0 4) ++ [wrap 32 (nthZ 4 H + e)].

(** fips-180-arm.c:98-107: state is (abcd, efgh, w) *)
Definition arm_sha256_body (s : list Z * list Z * list (list Z)) (i : nat) : list Z * list Z * list (list Z) :=
  let '(abcd, efgh, w) := s in
  let temp := vadd 32 (vget w (i mod 4)) (ldk 4 K_sha256 i) in
  let save := vsha256h abcd efgh temp in
  let efgh := vsha256h2 efgh abcd temp in
  let abcd := save in
  let w := upd (i mod 4) (vsha256su0 (vget w (i mod 4)) (vget w ((i + 1) mod 4))) w in
  let w := upd (i mod 4) (vsha256su1 (vget w (i mod 4)) (vget w ((i + 2) mod 4)) (vget w ((i + 3) mod 4))) w in
  (abcd, efgh, w).
(** fips-180-arm.c:77-114 *)
Definition arm_sha256_ni (H msg : list Z) : list Z :=
  let w := arm_load32 msg in
  let abcd := firstn 4 H in
  let efgh := firstn 4 (skipn 4 H) in
  let '(abcd, efgh, w) := fold_left arm_sha256_body (seq 0 16) (abcd, efgh, w) in
  map (fun i => wrap 32 (nthZ i H + nthZ i abcd)) (seq 0 4)
  ++ map (fun i => wrap 32 (nthZ (i + 4) H + nthZ i efgh)) (seq 0 4).

(** fips-180-arm.c:124-133 (little-endian build) *)
Definition arm_load64 (msg : list Z) : list (list Z) := map (fun i => lanes 8 2 (vrev 8 (ldv msg i))) (seq 0 8).
(** fips-180-arm.c:140-156: state is (ab, cd, ef, gh, w) *)
Definition arm_sha512_body (s : list Z * list Z * list Z * list Z * list (list Z)) (i : nat) :=
  let '(ab, cd, ef, gh, w) := s in
  let tmp1 := vadd 64 (vget w (i mod 8)) (ldk 2 K_sha512 i) in
  let tmp1 := vadd 64 (vext1_64 tmp1 tmp1) gh in
  let tmp2 := vext1_64 cd ef in
  let tmp3 := vext1_64 ef gh in
  let save := vsha512h tmp1 tmp3 tmp2 in
  let tmp1 := vsha512h2 save cd ab in
  let gh := ef in
  let ef := vadd 64 cd save in
  let cd := ab in
  let ab := tmp1 in
  let tmp1 := vext1_64 (vget w ((i + 4) mod 8)) (vget w ((i + 5) mod 8)) in
  let w := upd (i mod 8) (vsha512su0 (vget w (i mod 8)) (vget w ((i + 1) mod 8))) w in
  let w := upd (i mod 8) (vsha512su1 (vget w (i mod 8)) (vget w ((i + 7) mod 8)) tmp1) w in
  (ab, cd, ef, gh, w).
(** fips-180-arm.c:116-170 *)
Definition arm_sha512_ni (H msg : list Z) : list Z :=
  let w := arm_load64 msg in
  let ab := firstn 2 H in
  let cd := firstn 2 (skipn 2 H) in
  let ef := firstn 2 (skipn 4 H) in
  let gh := firstn 2 (skipn 6 H) in
  let '(ab, cd, ef, gh, w) := fold_left arm_sha512_body (seq 0 40) (ab, cd, ef, gh, w) in
  [wrap 64 (nthZ 0 H + nthZ 0 ab); wrap 64 (nthZ 1 H + nthZ 1 ab);
   wrap 64 (nthZ 2 H + nthZ 0 cd); wrap 64 (nthZ 3 H + nthZ 1 cd);
   wrap 64 (nthZ 4 H + nthZ 0 ef); wrap 64 (nthZ 5 H + nthZ 1 ef);
   wrap 64 (nthZ 6 H + nthZ 0 gh); wrap 64 (nthZ 7 H + nthZ 1 gh)].

(** sha.c:21-80, 95-152, 217-276 call one compression function through the same code whatever it is;
    a build that selects the _ni variants differs from the portable one in it alone. *)
Definition with_compress (a : md_alg) (c : list Z -> list Z -> list Z) : md_alg :=
  {| md_wb := md_wb a; md_compress := c; md_iv := md_iv a; md_out := md_out a |}.
(** the algorithms and the variants that replace their compression functions *)
Definition ni_algs : list (md_alg * (list Z -> list Z -> list Z)) :=
  [(alg_sha1, x86_sha1); (alg_sha1, arm_sha1_ni);
   (alg_sha224, x86_sha256); (alg_sha224, arm_sha256_ni); (alg_sha256, x86_sha256); (alg_sha256, arm_sha256_ni);
   (alg_sha384, x86_sha512); (alg_sha384, arm_sha512_ni); (alg_sha512, x86_sha512); (alg_sha512, arm_sha512_ni);
   (alg_sha512t224, x86_sha512); (alg_sha512t224, arm_sha512_ni); (alg_sha512t256, x86_sha512); (alg_sha512t256, arm_sha512_ni)].
