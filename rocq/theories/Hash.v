(** Model of the Merkle-Damgard hashes: src/2-hash/sha.c, src/2-hash/sm3.c and the
    portable compression functions src/1-symm/fips-180.c and
    src/1-symm-national/gbt-32905.c.

    Simplifications: a uint32_t/uint64_t is a Z below 2^32/2^64, an array a list;
    Msg32/Msg64 are read through be32toh/be64toh and written through
    htobe32/htobe64 only, so the union is modelled by its octets Msg8 (this is
    the same on either host endianness). The hardware-accelerated variants
    (fips-180-x86.c, fips-180-arm.c) are in ShaNi.v. *)
From Verif Require Import Base.

(** [wrap w x]: conversion to the w-bit unsigned type. *)
Definition wrap (w x : Z) : Z := x mod 2 ^ w.
(** C's ~x on a w-bit unsigned x. *)
Definition cnot (w x : Z) : Z := Z.lxor x (2 ^ w - 1).

(** fips-180.c:10-11, 149: ROTL/ROTR, with the width as a parameter. *)
Definition cROTL (w x n : Z) : Z := Z.lor (wrap w (Z.shiftl x n)) (Z.shiftr x (w - n)).
Definition cROTR (w x n : Z) : Z := Z.lor (Z.shiftr x n) (wrap w (Z.shiftl x (w - n))).

(** fips-180.c:6-8 *)
Definition cCh (w x y z : Z) : Z := Z.lxor (Z.land x y) (Z.land (cnot w x) z).
Definition cMaj (x y z : Z) : Z := Z.lxor (Z.lxor (Z.land x y) (Z.land x z)) (Z.land y z).
Definition cParity (x y z : Z) : Z := Z.lxor (Z.lxor x y) z.

(** be32toh(Msg32[t]) / be64toh(Msg64[t]): the t-th wb-octet big-endian word. *)
Definition be_word (wb : nat) (msg : list Z) (t : nat) : Z := be_val (firstn wb (skipn (wb * t) msg)).
Definition load_words (wb n : nat) (msg : list Z) : list Z := map (be_word wb msg) (seq 0 n).

(* ---------------- SHA-1 ---------------- *)

(** fips-180.c:13-16 *)
Definition K_sha1 (t : nat) : Z :=
  if (t <? 20)%nat then 0x5a827999 else if (t <? 40)%nat then 0x6ed9eba1
  else if (t <? 60)%nat then 0x8f1bbcdc else 0xca62c1d6.

(** fips-180.c:35-53, one iteration: working variables and the circular W[16]. *)
Definition sha1_step (st : list Z * list Z) (t : nat) : list Z * list Z :=
  let '(v, W) := st in
  let a := nthZ 0 v in let b := nthZ 1 v in let c := nthZ 2 v in
  let d := nthZ 3 v in let e := nthZ 4 v in
  let W := if (t <? 16)%nat then W else
    upd (t mod 16) (cROTL 32 (Z.lxor (Z.lxor (Z.lxor (nthZ ((t - 3) mod 16) W) (nthZ ((t - 8) mod 16) W))
                     (nthZ ((t - 14) mod 16) W)) (nthZ ((t - 16) mod 16) W)) 1) W in
  let T := wrap 32 (cROTL 32 a 5 +
     (if (t <? 20)%nat then cCh 32 b c d else if (t <? 40)%nat then cParity b c d
      else if (t <? 60)%nat then cMaj b c d else cParity b c d)
     + e + K_sha1 t + nthZ (t mod 16) W) in
  ([T; a; cROTL 32 b 30; c; d], W).

(** H[i] += v[i] (fips-180.c:57-61, 130-137, 221-228) *)
Fixpoint accum (w : Z) (H v : list Z) : list Z :=
  match H, v with
  | h :: H', x :: v' => wrap w (h + x) :: accum w H' v'
  | _, _ => []
  end.

(** fips-180.c:18-62 *)
Definition compressfunc_sha1 (H msg : list Z) : list Z :=
  let '(v, _) := fold_left sha1_step (seq 0 80) (H, load_words 4 16 msg) in accum 32 H v.

(* ---------------- SHA-2 ---------------- *)

(** The two SHA-2 functions (fips-180.c:83-143 and 174-234) have the same text
    up to word width, rotation amounts, round count and the constants K. *)
Record sha2_params := {
  s2_w : Z; s2_wb : nat; s2_rounds : nat; s2_K : list Z;
  s2_S0 : Z * Z * Z; s2_S1 : Z * Z * Z;      (* Sigma: three rotations *)
  s2_s0 : Z * Z * Z; s2_s1 : Z * Z * Z       (* sigma: two rotations, one shift *)
}.
Definition cSigma (w : Z) (r : Z * Z * Z) (x : Z) : Z :=
  let '(i, j, k) := r in Z.lxor (Z.lxor (cROTR w x i) (cROTR w x j)) (cROTR w x k).
Definition csigma (w : Z) (r : Z * Z * Z) (x : Z) : Z :=
  let '(i, j, k) := r in Z.lxor (Z.lxor (cROTR w x i) (cROTR w x j)) (Z.shiftr x k).

(** fips-180.c:109-126 / 200-217, one iteration. *)
Definition sha2_step (p : sha2_params) (st : list Z * list Z) (t : nat) : list Z * list Z :=
  let w := s2_w p in
  let '(v, W) := st in
  let a := nthZ 0 v in let b := nthZ 1 v in let c := nthZ 2 v in let d := nthZ 3 v in
  let e := nthZ 4 v in let f := nthZ 5 v in let g := nthZ 6 v in let h := nthZ 7 v in
  let W := if (t <? 16)%nat then W else
    upd (t mod 16) (wrap w (csigma w (s2_s1 p) (nthZ ((t - 2) mod 16) W) + nthZ ((t - 7) mod 16) W +
                            csigma w (s2_s0 p) (nthZ ((t - 15) mod 16) W) + nthZ ((t - 16) mod 16) W)) W in
  let T1 := wrap w (h + cSigma w (s2_S1 p) e + cCh w e f g + nthZ t (s2_K p) + nthZ (t mod 16) W) in
  let T2 := wrap w (cSigma w (s2_S0 p) a + cMaj a b c) in
  ([wrap w (T1 + T2); a; b; c; wrap w (d + T1); e; f; g], W).

Definition compressfunc_sha2 (p : sha2_params) (H msg : list Z) : list Z :=
  let '(v, _) := fold_left (sha2_step p) (seq 0 (s2_rounds p)) (H, load_words (s2_wb p) 16 msg) in
  accum (s2_w p) H v.

(** fips-180.c:64-81 *)
Definition K_sha256 : list Z := [
    0x428a2f98; 0x71374491; 0xb5c0fbcf; 0xe9b5dba5;
    0x3956c25b; 0x59f111f1; 0x923f82a4; 0xab1c5ed5;
    0xd807aa98; 0x12835b01; 0x243185be; 0x550c7dc3;
    0x72be5d74; 0x80deb1fe; 0x9bdc06a7; 0xc19bf174;
    0xe49b69c1; 0xefbe4786; 0x0fc19dc6; 0x240ca1cc;
    0x2de92c6f; 0x4a7484aa; 0x5cb0a9dc; 0x76f988da;
    0x983e5152; 0xa831c66d; 0xb00327c8; 0xbf597fc7;
    0xc6e00bf3; 0xd5a79147; 0x06ca6351; 0x14292967;
    0x27b70a85; 0x2e1b2138; 0x4d2c6dfc; 0x53380d13;
    0x650a7354; 0x766a0abb; 0x81c2c92e; 0x92722c85;
    0xa2bfe8a1; 0xa81a664b; 0xc24b8b70; 0xc76c51a3;
    0xd192e819; 0xd6990624; 0xf40e3585; 0x106aa070;
    0x19a4c116; 0x1e376c08; 0x2748774c; 0x34b0bcb5;
    0x391c0cb3; 0x4ed8aa4a; 0x5b9cca4f; 0x682e6ff3;
    0x748f82ee; 0x78a5636f; 0x84c87814; 0x8cc70208;
    0x90befffa; 0xa4506ceb; 0xbef9a3f7; 0xc67178f2].
(** fips-180.c:151-172 *)
Definition K_sha512 : list Z := [
    0x428a2f98d728ae22; 0x7137449123ef65cd; 0xb5c0fbcfec4d3b2f; 0xe9b5dba58189dbbc;
    0x3956c25bf348b538; 0x59f111f1b605d019; 0x923f82a4af194f9b; 0xab1c5ed5da6d8118;
    0xd807aa98a3030242; 0x12835b0145706fbe; 0x243185be4ee4b28c; 0x550c7dc3d5ffb4e2;
    0x72be5d74f27b896f; 0x80deb1fe3b1696b1; 0x9bdc06a725c71235; 0xc19bf174cf692694;
    0xe49b69c19ef14ad2; 0xefbe4786384f25e3; 0x0fc19dc68b8cd5b5; 0x240ca1cc77ac9c65;
    0x2de92c6f592b0275; 0x4a7484aa6ea6e483; 0x5cb0a9dcbd41fbd4; 0x76f988da831153b5;
    0x983e5152ee66dfab; 0xa831c66d2db43210; 0xb00327c898fb213f; 0xbf597fc7beef0ee4;
    0xc6e00bf33da88fc2; 0xd5a79147930aa725; 0x06ca6351e003826f; 0x142929670a0e6e70;
    0x27b70a8546d22ffc; 0x2e1b21385c26c926; 0x4d2c6dfc5ac42aed; 0x53380d139d95b3df;
    0x650a73548baf63de; 0x766a0abb3c77b2a8; 0x81c2c92e47edaee6; 0x92722c851482353b;
    0xa2bfe8a14cf10364; 0xa81a664bbc423001; 0xc24b8b70d0f89791; 0xc76c51a30654be30;
    0xd192e819d6ef5218; 0xd69906245565a910; 0xf40e35855771202a; 0x106aa07032bbd1b8;
    0x19a4c116b8d2d0c8; 0x1e376c085141ab53; 0x2748774cdf8eeb99; 0x34b0bcb5e19b48a8;
    0x391c0cb3c5c95a63; 0x4ed8aa4ae3418acb; 0x5b9cca4f7763e373; 0x682e6ff3d6b2b8a3;
    0x748f82ee5defb2fc; 0x78a5636f43172f60; 0x84c87814a1f0ab72; 0x8cc702081a6439ec;
    0x90befffa23631e28; 0xa4506cebde82bde9; 0xbef9a3f7b2c67915; 0xc67178f2e372532b;
    0xca273eceea26619c; 0xd186b8c721c0c207; 0xeada7dd6cde0eb1e; 0xf57d4f7fee6ed178;
    0x06f067aa72176fba; 0x0a637dc5a2c898a6; 0x113f9804bef90dae; 0x1b710b35131c471b;
    0x28db77f523047d84; 0x32caab7b40c72493; 0x3c9ebe0a15c9bebc; 0x431d67c49c100d4c;
    0x4cc5d4becb3e42b6; 0x597f299cfc657e2a; 0x5fcb6fab3ad6faec; 0x6c44198c4a475817].

(** fips-180.c:85-88, 109 *)
Definition sha256_params : sha2_params := {|
  s2_w := 32; s2_wb := 4; s2_rounds := 64; s2_K := K_sha256;
  s2_S0 := (2, 13, 22); s2_S1 := (6, 11, 25); s2_s0 := (7, 18, 3); s2_s1 := (17, 19, 10) |}.
(** fips-180.c:176-179, 200 *)
Definition sha512_params : sha2_params := {|
  s2_w := 64; s2_wb := 8; s2_rounds := 80; s2_K := K_sha512;
  s2_S0 := (28, 34, 39); s2_S1 := (14, 18, 41); s2_s0 := (1, 8, 7); s2_s1 := (19, 61, 6) |}.

(* ---------------- SM3 ---------------- *)

(** gbt-32905.c:6-53 *)
Definition sm3_T (j : nat) : Z := if (j <=? 15)%nat then 0x79cc4519 else if (j <=? 63)%nat then 0x7a879d8a else 0.
Definition sm3_FF (j : nat) (X Y W : Z) : Z :=
  if (j <=? 15)%nat then Z.lxor (Z.lxor X Y) W
  else if (j <=? 63)%nat then Z.lor (Z.lor (Z.land X Y) (Z.land X W)) (Z.land Y W) else 0.
Definition sm3_GG (j : nat) (X Y W : Z) : Z :=
  if (j <=? 15)%nat then Z.lxor (Z.lxor X Y) W
  else if (j <=? 63)%nat then Z.lor (Z.land X Y) (Z.land (cnot 32 X) W) else 0.
Definition sm3_P0 (X : Z) : Z := Z.lxor (Z.lxor X (cROTL 32 X 9)) (cROTL 32 X 17).
Definition sm3_P1 (X : Z) : Z := Z.lxor (Z.lxor X (cROTL 32 X 15)) (cROTL 32 X 23).

(** gbt-32905.c:73-117, one iteration. *)
Definition sm3_step (st : list Z * list Z) (j : nat) : list Z * list Z :=
  let '(v, W) := st in
  let A := nthZ 0 v in let B := nthZ 1 v in let C := nthZ 2 v in let D := nthZ 3 v in
  let E := nthZ 4 v in let F := nthZ 5 v in let G := nthZ 6 v in let H := nthZ 7 v in
  let i := (j mod 32)%nat in
  let SS1 := sm3_T j in
  let SS1 := if Nat.eqb i 0 then SS1 else cROTL 32 SS1 (Z.of_nat i) in
  let SS1 := wrap 32 (SS1 + wrap 32 (cROTL 32 A 12 + E)) in
  let SS1 := cROTL 32 SS1 7 in
  let SS2 := Z.lxor SS1 (cROTL 32 A 12) in
  let i := (j mod 16)%nat in
  let TT1 := Z.lxor (nthZ i W) (nthZ ((i + 4) mod 16) W) in
  let TT1 := wrap 32 (TT1 + wrap 32 (sm3_FF j A B C + D + SS2)) in
  let TT2 := wrap 32 (sm3_GG j E F G + H + SS1 + nthZ i W) in
  let W := upd i (Z.lxor (Z.lxor
                   (sm3_P1 (Z.lxor (Z.lxor (nthZ i W) (nthZ ((i + 7) mod 16) W)) (cROTL 32 (nthZ ((i + 13) mod 16) W) 15)))
                   (cROTL 32 (nthZ ((i + 3) mod 16) W) 7)) (nthZ ((i + 10) mod 16) W)) W in
  ([TT1; A; cROTL 32 B 9; C; sm3_P0 TT2; E; cROTL 32 F 19; G], W).

(** gbt-32905.c:55-127 *)
Definition compressfunc_sm3 (V msg : list Z) : list Z :=
  let '(v, _) := fold_left sm3_step (seq 0 64) (V, load_words 4 16 msg) in xorb_list V v.

(* ---------------- contexts (sha.h:12-22, 31-40, 52-61; sm3.h) ---------------- *)

(** One algorithm: word octets (4 or 8; a block is 16 words), compression
    function, initial H, digest octets. *)
Record md_alg := {
  md_wb : nat; md_compress : list Z -> list Z -> list Z; md_iv : list Z; md_out : nat }.
Definition md_block (a : md_alg) : nat := 16 * md_wb a.

Record md_ctx := { md_finalized : bool; md_filled : nat; md_len : Z; md_H : list Z; md_Msg : list Z }.

(** *_Init (sha.c:9-19, 157-170, 186-199, 281-294, 310-323, 339-352, 368-381;
    sm3.c:70-83).  Msg is not written by Init: [junk] is whatever it held. *)
Definition md_init (a : md_alg) (junk : list Z) : md_ctx :=
  {| md_finalized := false; md_filled := 0; md_len := 0; md_H := md_iv a; md_Msg := junk |}.

(** The loop of SHA1_Update (sha.c:31-40), sha256_update (104-113),
    sha512_update (227-236), SM3_Update (sm3.c:17-26). *)
Fixpoint md_update_loop (a : md_alg) (x : md_ctx) (data : list Z) : md_ctx :=
  match data with
  | [] => x
  | b :: data' =>
      let msg := upd (md_filled x) b (md_Msg x) in
      let fl := S (md_filled x) in
      if Nat.eqb fl (md_block a)
      then md_update_loop a {| md_finalized := md_finalized x; md_filled := 0; md_len := md_len x;
                               md_H := md_compress a (md_H x) msg; md_Msg := msg |} data'
      else md_update_loop a {| md_finalized := md_finalized x; md_filled := fl; md_len := md_len x;
                               md_H := md_H x; md_Msg := msg |} data'
  end.
(** ... and "len += (uint64_t)(ptr - data) * 8" (sha.c:42, 115, 238; sm3.c:28). *)
Definition md_update (a : md_alg) (x : md_ctx) (data : list Z) : md_ctx :=
  let y := md_update_loop a x data in
  {| md_finalized := md_finalized y; md_filled := md_filled y;
     md_len := u64 (md_len y + u64 (Z.of_nat (length data) * 8)); md_H := md_H y; md_Msg := md_Msg y |}.

(** "while( filled < sizeof(Msg8) ) Msg8[filled++] = 0;" [k] = sizeof - filled. *)
Fixpoint zero_fill (k filled : nat) (msg : list Z) : list Z :=
  match k with
  | O => msg
  | S k' => zero_fill k' (S filled) (upd filled 0 msg)
  end.

(** Storing octets [bs] at offset [off] (htobe32/64 stores into Msg32/Msg64). *)
Fixpoint store (off : nat) (bs msg : list Z) : list Z :=
  match bs with
  | [] => msg
  | b :: bs' => store (S off) bs' (upd off b msg)
  end.

(** SHA1_Final (sha.c:55-82), sha256_final (127-154), sha512_final (250-278),
    sm3_final (sm3.c:40-67).  For the 4-octet words the length is stored as
    htobe32(len>>32), htobe32(len); for the 8-octet ones as htobe64(0),
    htobe64(len): together the 2*wb-octet big-endian encoding of the 64-bit len. *)
Definition md_final_pad (a : md_alg) (x : md_ctx) : md_ctx :=
  if md_finalized x then x else
  let B := md_block a in
  let msg := upd (md_filled x) 0x80 (md_Msg x) in
  let msg := zero_fill (B - S (md_filled x)) (S (md_filled x)) msg in
  let '(h, msg) :=
    if (14 <=? md_filled x / md_wb a)%nat
    then (md_compress a (md_H x) msg, zero_fill B 0 msg)
    else (md_H x, msg) in
  let msg := if Nat.eqb (md_wb a) 4
             then store 60 (be_bytes 4 (u32 (md_len x))) (store 56 (be_bytes 4 (u32 (Z.shiftr (md_len x) 32))) msg)
             else store (15 * 8) (be_bytes 8 (md_len x)) (store (14 * 8) (be_bytes 8 0) msg) in
  let h := md_compress a h msg in
  {| md_finalized := true; md_filled := 0; md_len := md_len x; md_H := h;
     md_Msg := store 0 (flat_map (be_bytes (md_wb a)) h) msg |}.

(** *_Final with out != NULL: "ptr[i] = i<outlen ? Msg8[i] : 0" for i < t
    (sha.c:84-89, 179-183, ...; sm3.c:92-96). With out == NULL only the context changes. *)
Definition md_final (a : md_alg) (x : md_ctx) (t : nat) : md_ctx * list Z :=
  let y := md_final_pad a x in
  (y, map (fun i => if (i <? md_out a)%nat then nthZ i (md_Msg y) else 0) (seq 0 t)).

(** sha.c:13-17, 45 *)
Definition alg_sha1 : md_alg := {| md_wb := 4; md_compress := compressfunc_sha1; md_out := 20;
  md_iv := [0x67452301; 0xefcdab89; 0x98badcfe; 0x10325476; 0xc3d2e1f0] |}.
(** sha.c:161-168, 182 *)
Definition alg_sha224 : md_alg := {| md_wb := 4; md_compress := compressfunc_sha2 sha256_params; md_out := 28;
  md_iv := [0xc1059ed8; 0x367cd507; 0x3070dd17; 0xf70e5939; 0xffc00b31; 0x68581511; 0x64f98fa7; 0xbefa4fa4] |}.
(** sha.c:190-197, 211 *)
Definition alg_sha256 : md_alg := {| md_wb := 4; md_compress := compressfunc_sha2 sha256_params; md_out := 32;
  md_iv := [0x6a09e667; 0xbb67ae85; 0x3c6ef372; 0xa54ff53a; 0x510e527f; 0x9b05688c; 0x1f83d9ab; 0x5be0cd19] |}.
(** sha.c:285-292, 306 *)
Definition alg_sha384 : md_alg := {| md_wb := 8; md_compress := compressfunc_sha2 sha512_params; md_out := 48;
  md_iv := [0xcbbb9d5dc1059ed8; 0x629a292a367cd507; 0x9159015a3070dd17; 0x152fecd8f70e5939;
            0x67332667ffc00b31; 0x8eb44a8768581511; 0xdb0c2e0d64f98fa7; 0x47b5481dbefa4fa4] |}.
(** sha.c:314-321, 335 *)
Definition alg_sha512 : md_alg := {| md_wb := 8; md_compress := compressfunc_sha2 sha512_params; md_out := 64;
  md_iv := [0x6a09e667f3bcc908; 0xbb67ae8584caa73b; 0x3c6ef372fe94f82b; 0xa54ff53a5f1d36f1;
            0x510e527fade682d1; 0x9b05688c2b3e6c1f; 0x1f83d9abfb41bd6b; 0x5be0cd19137e2179] |}.
(** sha.c:343-350, 364 *)
Definition alg_sha512t224 : md_alg := {| md_wb := 8; md_compress := compressfunc_sha2 sha512_params; md_out := 28;
  md_iv := [0x8C3D37C819544DA2; 0x73E1996689DCD4D6; 0x1DFAB7AE32FF9C82; 0x679DD514582F9FCF;
            0x0F6D2B697BD44DA8; 0x77E36F7304C48942; 0x3F9D85A86A1D36C8; 0x1112E6AD91D692A1] |}.
(** sha.c:372-379, 393 *)
Definition alg_sha512t256 : md_alg := {| md_wb := 8; md_compress := compressfunc_sha2 sha512_params; md_out := 32;
  md_iv := [0x22312194FC2BF72C; 0x9F555FA3C84C64C2; 0x2393B86B6F53B151; 0x963877195940EABD;
            0x96283EE2A88EFFE3; 0xBE5E1E2553863992; 0x2B0199FC2C85B8AA; 0x0EB72DDC81C52CA2] |}.
(** sm3.c:74-81, 95 *)
Definition alg_sm3 : md_alg := {| md_wb := 4; md_compress := compressfunc_sm3; md_out := 32;
  md_iv := [0x7380166f; 0x4914b2b9; 0x172442d7; 0xda8a0600; 0xa96f30bc; 0x163138aa; 0xe38dee4d; 0xb0fb0e4e] |}.
