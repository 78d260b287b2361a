(** The AES implementations that use processor instructions: rijndael-x86.c,
    rijndael-arm.c, rijndael-ppc.c.  A vector register is the list of its 16 octets in
    memory order; the intrinsics are the functions of AesSpec2.v. *)
From Verif Require Import Base CipherSpec AesSpec2.

(** loading the 16 octets at w + 16*i (vld1q_u8, _mm_loadu_si128, vec_xl_be) *)
Definition ld16 (w : list Z) (i : nat) : list Z := firstn 16 (skipn (i * 16) w).

(** rijndael-x86.c:12-32; i runs over 1 .. Nr-1 *)
Definition x86_Cipher (Nr : nat) (w inp : list Z) : list Z :=
  let state := inp in
  let rk := ld16 w 0 in
  let state := pxor state rk in
  let state := fold_left (fun state i => let rk := ld16 w i in aesenc state rk) (seq 1 (Nr - 1)) state in
  let rk := ld16 w Nr in
  aesenclast state rk.
(** rijndael-x86.c:40-61; i runs over Nr-1 .. 1 *)
Definition x86_InvCipher (Nr : nat) (w inp : list Z) : list Z :=
  let state := inp in
  let rk := ld16 w Nr in
  let state := pxor state rk in
  let state := fold_left (fun state i => let rk := ld16 w i in let rk := aesimc rk in aesdec state rk) (rev (seq 1 (Nr - 1))) state in
  let rk := ld16 w 0 in
  aesdeclast state rk.

(** rijndael-arm.c:14-34 *)
Definition arm_Cipher (Nr : nat) (w inp : list Z) : list Z :=
  let state := inp in
  let rk := ld16 w 0 in
  let state := vaese state rk in
  let state := fold_left (fun state i => let rk := ld16 w i in let state := vaesmc state in vaese state rk) (seq 1 (Nr - 1)) state in
  let rk := ld16 w Nr in
  pxor state rk.
(** rijndael-arm.c:42-63 *)
Definition arm_InvCipher (Nr : nat) (w inp : list Z) : list Z :=
  let state := inp in
  let rk := ld16 w Nr in
  let state := vaesd state rk in
  let state := fold_left (fun state i => let rk := ld16 w i in let rk := vaesimc rk in
                                         let state := vaesimc state in vaesd state rk) (rev (seq 1 (Nr - 1))) state in
  let rk := ld16 w 0 in
  pxor state rk.

(** rijndael-ppc.c:14-35 *)
Definition ppc_Cipher (Nr : nat) (w inp : list Z) : list Z :=
  let state := inp in
  let rk := ld16 w 0 in
  let state := pxor state rk in
  let state := fold_left (fun state i => let rk := ld16 w i in vcipher state rk) (seq 1 (Nr - 1)) state in
  let rk := ld16 w Nr in
  vcipherlast state rk.
(** rijndael-ppc.c:43-64 *)
Definition ppc_InvCipher (Nr : nat) (w inp : list Z) : list Z :=
  let state := inp in
  let rk := ld16 w Nr in
  let state := pxor state rk in
  let state := fold_left (fun state i => let rk := ld16 w i in vncipher state rk) (rev (seq 1 (Nr - 1))) state in
  let rk := ld16 w 0 in
  vncipherlast state rk.

(** rijndael.c:268-276: the six entry points NI_AES{128,192,256}_{Cipher,InvCipher} are one of
    the pairs above with these round counts. *)
Definition NI_rounds : list nat := [10; 12; 14]%nat.
