(** Model of src/2-hash/blake2.c and blake-common.c.h on a little-endian or big-endian host alike
    (m[] is read through le32toh/le64toh).  One parametrised model for the two copies of each function;
    [lg] = true for the BLAKE2b one. *)
From Verif Require Import Base Hash.

(** (x>>n)|(x<<(w-n)) on w-bit words *)
Definition cROTR (w x n : Z) : Z := Z.lor (Z.shiftr x n) (wrap w (Z.shiftl x (w - n))).
(** blake-common.c.h:3-17: qround_word / qround_long on four variables *)
Definition qround (w r1 r2 r3 r4 : Z) (a b c d x y : Z) : Z * Z * Z * Z :=
  let a := wrap w (a + wrap w (b + x)) in let d := Z.lxor d a in let d := cROTR w d r1 in
  let c := wrap w (c + d) in let b := Z.lxor b c in let b := cROTR w b r2 in
  let a := wrap w (a + wrap w (b + y)) in let d := Z.lxor d a in let d := cROTR w d r3 in
  let c := wrap w (c + d) in let b := Z.lxor b c in let b := cROTR w b r4 in
  (a, b, c, d).
Definition qround_word := qround 32 16 12 8 7.
Definition qround_long := qround 64 32 24 16 63.
Definition qround_at (q : Z -> Z -> Z -> Z -> Z -> Z -> Z * Z * Z * Z) (st : list Z) (ia ib ic id : nat) (x y : Z) : list Z :=
  let '(a, b, c, d) := q (nthZ ia st) (nthZ ib st) (nthZ ic st) (nthZ id st) x y in
  upd id d (upd ic c (upd ib b (upd ia a st))).
(** blake2.c:27-55, blake3.c:77-89: [m] the 16 words, [s] the permutation *)
Definition inner_block (q : Z -> Z -> Z -> Z -> Z -> Z -> Z * Z * Z * Z) (st m : list Z) (s : list nat) : list Z :=
  let msg i := nthZ (nth i s 0%nat) m in
  let st := qround_at q st 0 4 8 12 (msg 0%nat) (msg 1%nat) in
  let st := qround_at q st 1 5 9 13 (msg 2%nat) (msg 3%nat) in
  let st := qround_at q st 2 6 10 14 (msg 4%nat) (msg 5%nat) in
  let st := qround_at q st 3 7 11 15 (msg 6%nat) (msg 7%nat) in
  let st := qround_at q st 0 5 10 15 (msg 8%nat) (msg 9%nat) in
  let st := qround_at q st 1 6 11 12 (msg 10%nat) (msg 11%nat) in
  let st := qround_at q st 2 7 8 13 (msg 12%nat) (msg 13%nat) in
  qround_at q st 3 4 9 14 (msg 14%nat) (msg 15%nat).
(** blake2.c:7-18 *)
Definition sigma2 : list (list nat) := [
    [ 0; 1; 2; 3; 4; 5; 6; 7; 8; 9; 10; 11; 12; 13; 14; 15 ];
    [ 14; 10; 4; 8; 9; 15; 13; 6; 1; 12; 0; 2; 11; 7; 5; 3 ];
    [ 11; 8; 12; 0; 5; 2; 15; 13; 10; 14; 3; 6; 7; 1; 9; 4 ];
    [ 7; 9; 3; 1; 13; 12; 11; 14; 2; 6; 5; 10; 4; 0; 15; 8 ];
    [ 9; 0; 5; 7; 2; 4; 10; 15; 14; 1; 11; 12; 6; 8; 3; 13 ];
    [ 2; 12; 6; 10; 0; 11; 8; 3; 4; 13; 7; 5; 15; 14; 1; 9 ];
    [ 12; 5; 1; 15; 14; 13; 4; 10; 0; 7; 6; 3; 9; 2; 8; 11 ];
    [ 13; 11; 7; 14; 12; 1; 3; 9; 5; 0; 15; 4; 8; 6; 2; 10 ];
    [ 6; 15; 14; 9; 11; 3; 0; 8; 12; 2; 13; 7; 1; 4; 10; 5 ];
    [ 10; 2; 8; 4; 7; 6; 1; 5; 15; 11; 9; 14; 3; 12; 13; 0 ]]%nat.
(** blake-common.c.h:19-35 *)
Definition blake_IV : list Z := [0x6a09e667; 0xbb67ae85; 0x3c6ef372; 0xa54ff53a; 0x510e527f; 0x9b05688c; 0x1f83d9ab; 0x5be0cd19].
Definition blake_IVl : list Z := [0x6a09e667f3bcc908; 0xbb67ae8584caa73b; 0x3c6ef372fe94f82b; 0xa54ff53a5f1d36f1;
  0x510e527fade682d1; 0x9b05688c2b3e6c1f; 0x1f83d9abfb41bd6b; 0x5be0cd19137e2179].
(** the 16 little-endian words of a buffer *)
Definition msg_words (wb : nat) (m : list Z) : list Z := map (fun i => le_val (firstn wb (skipn (wb * i) m))) (seq 0 16).

(** blake2.c:57-83 ([lg] = false) and 85-111 *)
Definition blake2_compress (lg : bool) (h m : list Z) (t : Z) (f : bool) : list Z :=
  let w := if lg then 64 else 32 in
  let IV := if lg then blake_IVl else blake_IV in
  let mw := msg_words (if lg then 8 else 4) m in
  let v := map (fun i => nthZ i h) (seq 0 8) ++ IV in
  let v := upd 12 (Z.lxor (nthZ 12 v) (wrap w t)) v in
  let v := if lg then v else upd 13 (Z.lxor (nthZ 13 v) (Z.shiftr t 32)) v in
  let v := if f then upd 14 (2 ^ w - 1 - nthZ 14 v) v else v in
  let v := fold_left (fun v i => inner_block (if lg then qround_long else qround_word) v mw (nth (i mod 10) sigma2 [])) (seq 0 (if lg then 12 else 10)) v in
  map (fun i => Z.lxor (nthZ i h) (Z.lxor (nthZ i v) (nthZ (i + 8) v))) (seq 0 8).

(** blake2.h:9-31 *)
Record blake2 := { bk_b : list Z; bk_h : list Z; bk_t : Z; bk_filled : nat; bk_outlen : nat; bk_keylen : nat; bk_fin : bool }.
(** sizeof(x->b) *)
Definition bk_size (lg : bool) : nat := if lg then 128%nat else 64%nat.
(** blake2.c:160-176, 251-267: one octet *)
Definition blake2_update1 (lg : bool) (x : blake2) (c : Z) : blake2 :=
  let x := if (bk_filled x =? bk_size lg)%nat then
    let t := u64 (bk_t x + Z.of_nat (bk_filled x)) in
    {| bk_b := bk_b x; bk_h := blake2_compress lg (bk_h x) (bk_b x) t false; bk_t := t; bk_filled := 0;
       bk_outlen := bk_outlen x; bk_keylen := bk_keylen x; bk_fin := bk_fin x |} else x in
  {| bk_b := upd (bk_filled x) c (bk_b x); bk_h := bk_h x; bk_t := bk_t x; bk_filled := S (bk_filled x);
     bk_outlen := bk_outlen x; bk_keylen := bk_keylen x; bk_fin := bk_fin x |}.
Definition blake2_update (lg : bool) (x : blake2) (data : list Z) : blake2 := fold_left (blake2_update1 lg) data x.
(** blake2.c:113-148, 204-239; the context needs no previous contents *)
Definition blake2_init (lg : bool) (outlen : nat) (k : list Z) : option blake2 :=
  let mx := if lg then 64%nat else 32%nat in
  if ((mx <? outlen)%nat || (outlen <? 1)%nat || (mx <? length k)%nat)%bool then None
  else
    let IV := if lg then blake_IVl else blake_IV in
    let h := upd 0 (Z.lxor (nthZ 0 IV) (Z.lxor (Z.lxor 0x01010000 (Z.shiftl (Z.of_nat (length k)) 8)) (Z.of_nat outlen))) IV in
    let x := {| bk_b := repeat 0 (bk_size lg); bk_h := h; bk_t := 0; bk_filled := 0; bk_outlen := outlen; bk_keylen := length k; bk_fin := false |} in
    if (0 <? length k)%nat then
      let x := blake2_update lg x k in
      Some {| bk_b := bk_b x; bk_h := bk_h x; bk_t := bk_t x; bk_filled := bk_size lg; bk_outlen := bk_outlen x; bk_keylen := bk_keylen x; bk_fin := bk_fin x |}
    else Some x.
(** blake2.c:178-202, 269-293; [t] = requested octets *)
Definition blake2_final (lg : bool) (x : blake2) (t : nat) : blake2 * list Z :=
  let x :=
    if bk_fin x then x
    else
      let tt := u64 (bk_t x + Z.of_nat (bk_filled x)) in
      let b := fold_left (fun b i => upd i 0 b) (seq (bk_filled x) (bk_size lg - bk_filled x)) (bk_b x) in
      let h := blake2_compress lg (bk_h x) b tt true in
      let wb := if lg then 8%nat else 4%nat in
      let hb := concat (map (le_bytes wb) h) in
      {| bk_b := hb ++ skipn (length hb) b; bk_h := h; bk_t := tt; bk_filled := bk_size lg;
         bk_outlen := bk_outlen x; bk_keylen := bk_keylen x; bk_fin := true |} in
  (x, map (fun i => if (i <? bk_outlen x)%nat then nthZ i (bk_b x) else 0) (seq 0 t)).
