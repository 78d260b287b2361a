(** Model of src/1-symm/galois128.c (portable code path) and src/2-encryption/gcm.c. *)
From Verif Require Import Base.

(** galois128.c:6-8 *)
Definition galois128_t : Type := Z * Z.
(** galois128.c:10-17; be64toh of the two uint64_t *)
Definition galois128_load (p : list Z) : galois128_t := (be_val (firstn 8 p), be_val (firstn 8 (skipn 8 p))).
(** galois128.c:19-24 *)
Definition galois128_store (v : galois128_t) : list Z := be_bytes 8 (fst v) ++ be_bytes 8 (snd v).
(** galois128.c:26-37 *)
Definition galois128_x (Y : galois128_t) : galois128_t :=
  let mask := Z.land (snd Y) 1 in
  let mask := u64 (Z.lnot (u64 (mask - 1))) in
  let x := Z.land 0xE100000000000000 mask in
  let w1 := Z.lor (Z.shiftr (snd Y) 1) (u64 (Z.shiftl (fst Y) 63)) in
  let w0 := Z.lxor (Z.shiftr (fst Y) 1) x in
  (w0, w1).
(** galois128.c:39-57 *)
Definition galois128_step (X : galois128_t) (ZY : galois128_t * galois128_t) (i : nat) : galois128_t * galois128_t :=
  let '(Zc, Y) := ZY in
  let mask := Z.shiftr (if (i / 64 =? 0)%nat then fst X else snd X) (63 - Z.land (Z.of_nat i) 63) in
  let mask := Z.land mask 1 in
  let mask := u64 (Z.lnot (u64 (mask - 1))) in
  ((Z.lxor (fst Zc) (Z.land (fst Y) mask), Z.lxor (snd Zc) (Z.land (snd Y) mask)), galois128_x Y).
Definition galois128_mul (X Y : galois128_t) : galois128_t :=
  fst (fold_left (galois128_step X) (seq 0 128) ((0, 0), Y)).
(** galois128.c:59-74, galois128_hash1block_ci with all three pointers non-NULL: the new Y. *)
Definition galois128_hash1block (Y H X : list Z) : list Z :=
  let y := galois128_load Y in
  let h := galois128_load H in
  let x := galois128_load X in
  galois128_store (galois128_mul (Z.lxor (fst y) (fst x), Z.lxor (snd y) (snd x)) h).

(** gcm_t (gcm.h:12-20): the block encryption under the scheduled key, and H. *)
Record gcm := { gcm_enc : list Z -> list Z; gcm_H : list Z }.
(** gcm.h:21-26 GCM_INIT and gcm.c:164-176 GCM_T_Init (klen already right): H = E(0^128). *)
Definition GCM_Init (E : list Z -> list Z) : gcm := {| gcm_enc := E; gcm_H := E (repeat 0 16) |}.

(** gcm.c:45-47, 124-126: X[i] = i+j < alen ? aad[i+j] : 0 *)
Definition gcm_block (d : list Z) (j : nat) : list Z :=
  map (fun i => if (i + j <? length d)%nat then nthZ (i + j) d else 0) (seq 0 16).
(** gcm.c:43-49, 122-128, 131-137: for(j=0; j<alen; j+=16) *)
Fixpoint gcm_absorb (fuel : nat) (H S d : list Z) (j : nat) : list Z :=
  match fuel with
  | O => S
  | Datatypes.S fuel => if (j <? length d)%nat then gcm_absorb fuel H (galois128_hash1block S H (gcm_block d j)) d (j + 16) else S
  end.
(** CB[3] = htobe32(be32toh(CB[3])+1) *)
Definition gcm_inc (CB : list Z) : list Z := firstn 12 CB ++ be_bytes 4 (u32 (be_val (skipn 12 CB) + 1)).
(** gcm.c:55-64; [out] = octets written so far, in order. *)
Fixpoint gcm_enc_loop (fuel : nat) (g : gcm) (CB S p out : list Z) (j : nat) : list Z * list Z :=
  match fuel with
  | O => (S, out)
  | Datatypes.S fuel =>
    if (j <? length p)%nat then
      let CB := gcm_inc CB in
      let X := gcm_enc g CB in
      let X := map (fun i => if (i + j <? length p)%nat then Z.lxor (nthZ (i + j) p) (nthZ i X) else 0) (seq 0 16) in
      let out := out ++ firstn (length p - j) X in
      gcm_enc_loop fuel g CB (galois128_hash1block S (gcm_H g) X) p out (j + 16)
    else (S, out)
  end.
(** gcm.c:150-156 *)
Fixpoint gcm_dec_loop (fuel : nat) (g : gcm) (CB p out : list Z) (j : nat) : list Z :=
  match fuel with
  | O => out
  | Datatypes.S fuel =>
    if (j <? length p)%nat then
      let CB := gcm_inc CB in
      let X := gcm_enc g CB in
      let out := out ++ map (fun i => Z.lxor (nthZ (i + j) p) (nthZ i X)) (seq 0 (Nat.min 16 (length p - j))) in
      gcm_dec_loop fuel g CB p out (j + 16)
    else out
  end.
(** gcm.c:66-69: htobe64(alen*8), htobe64(len*8); size_t is 64 bits *)
Definition gcm_lens (alen len : nat) : list Z := be_bytes 8 (u64 (Z.of_nat alen * 8)) ++ be_bytes 8 (u64 (Z.of_nat len * 8)).
(** gcm.c:30-35, 107-112 *)
Definition gcm_refuse (ivlen alen len : nat) : bool :=
  negb (ivlen =? 12)%nat || (2 ^ 61 <=? Z.of_nat alen) || (2 ^ 36 - 31 <=? Z.of_nat len).
(** for(i=0; i<tlen; i++) ... i<16 ? X[i] : 0 *)
Definition gcm_tag_octets (X : list Z) (tlen : nat) : list Z := map (fun i => if (i <? 16)%nat then nthZ i X else 0) (seq 0 tlen).

(** gcm.c:8-77.  None = NULL (nothing written); Some (out, T).  in and out are distinct buffers or the same
    one: every octet is read before it is written. *)
Definition GCM_Encrypt (g : gcm) (iv aad p : list Z) (tlen : nat) : option (list Z * list Z) :=
  if gcm_refuse (length iv) (length aad) (length p) then None
  else
    let J0 := firstn 12 iv ++ be_bytes 4 1 in
    let Sg := gcm_absorb (length aad) (gcm_H g) (repeat 0 16) aad 0 in
    let '(Sg, out) := gcm_enc_loop (length p) g J0 Sg p [] 0 in
    let Sg := galois128_hash1block Sg (gcm_H g) (gcm_lens (length aad) (length p)) in
    let X := xorb_list (gcm_enc g J0) Sg in
    Some (out, gcm_tag_octets X tlen).

(** gcm.c:79-159.  [T] holds the tlen octets to compare.  The result is what is returned
    together with the octets written to out: None = NULL, nothing written. *)
Fixpoint or_cmp (T X : list Z) (i k : nat) (b : Z) : Z :=
  match k with
  | O => b
  | S k => or_cmp T X (S i) k (Z.lor b (Z.lxor (nthZ i T) (if (i <? 16)%nat then nthZ i X else 0)))
  end.
Definition GCM_Decrypt (g : gcm) (iv aad c T : list Z) : option (list Z) :=
  if gcm_refuse (length iv) (length aad) (length c) then None
  else
    let J0 := firstn 12 iv ++ be_bytes 4 1 in
    let Sg := gcm_absorb (length aad) (gcm_H g) (repeat 0 16) aad 0 in
    let Sg := gcm_absorb (length c) (gcm_H g) Sg c 0 in
    let Sg := galois128_hash1block Sg (gcm_H g) (gcm_lens (length aad) (length c)) in
    let X := xorb_list (gcm_enc g J0) Sg in
    if negb (or_cmp T X 0 (length T) 0 =? 0) then None
    else Some (gcm_dec_loop (length c) g J0 c [] 0).
