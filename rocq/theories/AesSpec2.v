(** FIPS 197 section 5.3 (the inverse round functions), and the AES instructions of three
    processors, in the octet order of a 16-octet memory block.  Independent of the model. *)
From Verif Require Import Base CipherSpec.

(** 5.3.2: the inverse of the S-box, as the octet that the S-box takes to y. *)
Definition fips_invsbox (y : Z) : Z :=
  match find (fun x => fips_sbox x =? y) (map Z.of_nat (seq 0 256)) with Some x => x | None => 0 end.
Definition fips_InvSubBytes (s : list Z) : list Z := build (fun r c => fips_invsbox (st r c s)).
(** 5.3.1 *)
Definition fips_InvShiftRows (s : list Z) : list Z := build (fun r c => st r ((c + 4 - r) mod 4) s).
(** 5.3.3 *)
Definition fips_InvMixColumns (s : list Z) : list Z :=
  build (fun r c => Z.lxor (Z.lxor (gf_mul 0x0e (st r c s)) (gf_mul 0x0b (st ((r + 1) mod 4) c s)))
                           (Z.lxor (gf_mul 0x0d (st ((r + 2) mod 4) c s)) (gf_mul 0x09 (st ((r + 3) mod 4) c s)))).

(** Intel SDM: AESENC, AESENCLAST, AESDEC, AESDECLAST, AESIMC, PXOR. *)
Definition pxor (a b : list Z) : list Z := xorb_list a b.
Definition aesenc (s k : list Z) : list Z := pxor (fips_MixColumns (fips_SubBytes (fips_ShiftRows s))) k.
Definition aesenclast (s k : list Z) : list Z := pxor (fips_SubBytes (fips_ShiftRows s)) k.
Definition aesdec (s k : list Z) : list Z := pxor (fips_InvMixColumns (fips_InvSubBytes (fips_InvShiftRows s))) k.
Definition aesdeclast (s k : list Z) : list Z := pxor (fips_InvSubBytes (fips_InvShiftRows s)) k.
Definition aesimc (k : list Z) : list Z := fips_InvMixColumns k.

(** Arm ARM: AESE, AESMC, AESD, AESIMC (the key is added first). *)
Definition vaese (s k : list Z) : list Z := fips_SubBytes (fips_ShiftRows (pxor s k)).
Definition vaesmc (s : list Z) : list Z := fips_MixColumns s.
Definition vaesd (s k : list Z) : list Z := fips_InvSubBytes (fips_InvShiftRows (pxor s k)).
Definition vaesimc (s : list Z) : list Z := fips_InvMixColumns s.

(** Power ISA: vcipher, vcipherlast, vncipher (the key is added before InvMixColumns), vncipherlast. *)
Definition vcipher (s k : list Z) : list Z := pxor (fips_MixColumns (fips_ShiftRows (fips_SubBytes s))) k.
Definition vcipherlast (s k : list Z) : list Z := pxor (fips_ShiftRows (fips_SubBytes s)) k.
Definition vncipher (s k : list Z) : list Z := fips_InvMixColumns (pxor (fips_InvSubBytes (fips_InvShiftRows s)) k).
Definition vncipherlast (s k : list Z) : list Z := pxor (fips_InvSubBytes (fips_InvShiftRows s)) k.
