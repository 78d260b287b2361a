(** Models of HMAC (src/2-mac/hmac.c, hmac.h), CMAC (src/2-mac/cmac.c, cmac.h) and
    HMAC_DRBG (src/2-prng/hmac-drbg.c, hmac-drbg.h).
    Simplifications: the hash context reached through [offset] is a field; function
    pointers are the operations of a [hash_impl] (HMAC) or a function [enc] on
    16-octet blocks, the key already expanded (CMAC). *)
From Verif Require Import Base HashIface.

(* ---------------- HMAC ---------------- *)
Section Hmac.
  Variable h : hash_impl.

  (** hmac.h:12-24 *)
  Record hmac := Hm {
    hm_K0 : list Z;          (* K0[256] *)
    hm_tag : list Z;         (* tag[64] *)
    hm_finalized : bool;
    hm_aux : hi_ctx h
  }.

  (** hmac.h:34-46 HMAC_INIT; the hash context behind it keeps its old contents [aux]. *)
  Definition HMAC_INIT (aux : hi_ctx h) : hmac := Hm (repeat 0 256) (repeat 0 64) false aux.

  (** "for(i=0; i<B; i++) K0[i] ^= c" (hmac.c:33, 35, 55 (own lines)) *)
  Definition xor_pad (c : Z) (K0 : list Z) : list Z :=
    map (fun b => Z.lxor b c) (firstn (hi_block h) K0) ++ skipn (hi_block h) K0.

  (** hmac.c:9-38.  The boolean is false when NULL is returned. *)
  Definition HMAC_SetKey (x : hmac) (key : list Z) : hmac * bool :=
    let K0 := repeat 0 (length (hm_K0 x)) in
    let tag := repeat 0 (length (hm_tag x)) in
    if (length key <=? hi_block h)%nat then
      let K0 := key ++ skipn (length key) K0 in
      let aux := hi_init h (hm_aux x) in
      let K0 := xor_pad 0x36 K0 in
      let aux := hi_update h aux (firstn (hi_block h) K0) in
      let K0 := xor_pad 0x36 K0 in
      (Hm K0 tag (hm_finalized x) aux, true)
    else (Hm K0 tag (hm_finalized x) (hm_aux x), false).

  (** hmac.c.h:4-12, hmac.c:73-82: HMAC_*_Init, HMAC_T_Init *)
  Definition HMAC_Init (aux : hi_ctx h) (key : list Z) : hmac * bool := HMAC_SetKey (HMAC_INIT aux) key.

  (** hmac.c:40-43 *)
  Definition HMAC_Update (x : hmac) (data : list Z) : hmac :=
    Hm (hm_K0 x) (hm_tag x) (hm_finalized x) (hi_update h (hm_aux x) data).

  (** hmac.c:45-67; the list is what is stored at [out]. *)
  Definition HMAC_Final (x : hmac) (t : nat) : hmac * list Z :=
    let x :=
      if hm_finalized x then x else
      let '(aux, o) := hi_final h (hm_aux x) (hi_out h) in
      let tag := o ++ skipn (hi_out h) (hm_tag x) in
      let aux := hi_init h aux in
      let K0 := xor_pad 0x5c (hm_K0 x) in
      let aux := hi_update h aux (firstn (hi_block h) K0) in
      let K0 := repeat 0 (hi_block h) ++ skipn (hi_block h) K0 in
      let aux := hi_update h aux (firstn (hi_out h) tag) in
      let '(aux, _) := hi_final h aux 0 in
      Hm K0 tag true aux in
    let '(aux, o) := hi_final h (hm_aux x) t in
    (Hm (hm_K0 x) (hm_tag x) (hm_finalized x) aux, o).
End Hmac.
Arguments Hm {h}. Arguments hm_K0 {h}. Arguments hm_tag {h}. Arguments hm_finalized {h}. Arguments hm_aux {h}.

(* ---------------- CMAC ---------------- *)
Section Cmac.
  Variable enc : list Z -> list Z.   (* cmac->enc under the expanded key *)

  (** cmac.h:17-33; flags is a uint8_t. *)
  Record cmac := Cm { cm_T : list Z; cm_K1 : list Z; cm_K2 : list Z; cm_filled : nat; cm_flags : Z }.

  (** cmac.c:24-27 and 30-33: shift left by one bit, conditionally xor R_128. *)
  Definition cmac_shift (K : list Z) : list Z :=
    let b := Z.shiftr (nthZ 0 K) 7 in
    map (fun i => if (i <? 15)%nat
                  then u8 (Z.lor (Z.shiftl (nthZ i K) 1) (Z.shiftr (nthZ (i + 1) K) 7))
                  else u8 (Z.lxor (Z.shiftl (nthZ i K) 1) (Z.land 0x87 (u32 (0 - b))))) (seq 0 16).

  (** cmac.c:8-40 for the key length the cipher wants ([keybytes] & 077 = keylen);
      the flag bit 0400 that SetKey clears does not fit a uint8_t. *)
  Definition CMAC_SetKey (keybytes : Z) : cmac :=
    let K1 := cmac_shift (enc (repeat 0 16)) in
    let K2 := cmac_shift K1 in
    Cm (repeat 0 16) K1 K2 0 (Z.land (Z.land keybytes 63) 255).

  (** cmac.c:47-51, 58-62 *)
  Definition cmac_flush (x : cmac) : cmac := Cm (enc (cm_T x)) (cm_K1 x) (cm_K2 x) 0 (cm_flags x).
  (** cmac.c:53-63 *)
  Fixpoint cmac_loop (x : cmac) (data : list Z) : cmac :=
    match data with
    | [] => x
    | b :: data' =>
      let x := Cm (upd (cm_filled x) (Z.lxor (nthZ (cm_filled x) (cm_T x)) b) (cm_T x))
                  (cm_K1 x) (cm_K2 x) (cm_filled x + 1) (cm_flags x) in
      let x := if (16 <=? cm_filled x)%nat && negb (length data' =? 0)%nat then cmac_flush x else x in
      cmac_loop x data'
    end.
  (** cmac.c:42-64 *)
  Definition CMAC_Update (x : cmac) (data : list Z) : cmac :=
    let x := if (16 <=? cm_filled x)%nat && negb (length data =? 0)%nat then cmac_flush x else x in
    cmac_loop x data.

  (** cmac.c:66-96.  "flags & 0400" promotes the uint8_t; "flags |= 0400" stores back
      into a uint8_t. *)
  Definition CMAC_Final (x : cmac) (t : nat) : cmac * list Z :=
    let x :=
      if negb (Z.land (cm_flags x) 256 =? 0) then x else
      let x :=
        if (16 <=? cm_filled x)%nat
        then Cm (enc (xorb_list (cm_T x) (cm_K1 x))) (cm_K1 x) (cm_K2 x) (cm_filled x) (cm_flags x)
        else
          let T := upd (cm_filled x) (Z.lxor (nthZ (cm_filled x) (cm_T x)) 0x80) (cm_T x) in
          Cm (enc (xorb_list T (cm_K2 x))) (cm_K1 x) (cm_K2 x) 0 (cm_flags x) in
      Cm (cm_T x) (cm_K1 x) (cm_K2 x) (cm_filled x) (u8 (Z.lor (cm_flags x) 256)) in
    (x, map (fun i => if (i <? 16)%nat then nthZ i (cm_T x) else 0) (seq 0 t)).
End Cmac.

(* ---------------- HMAC_DRBG ---------------- *)
Section HmacDrbg.
  Variable h : hash_impl.

  (** hmac-drbg.h:11-27: K, V and the PRF context. *)
  Record hdrbg := Hd { hd_K : list Z; hd_V : list Z; hd_H : hmac h }.

  (** PRF_INIT(H, K, outlen); prf_update...; prf_final(H, out, outlen) with the HMAC
      functions above; prf_outlen = OUT_BYTES (hmac-drbg.h:36, hmac.h cHMAC). *)
  Definition drbg_prf (H : hmac h) (K : list Z) (chunks : list (list Z)) : hmac h * list Z :=
    let '(H, _) := HMAC_Init h (hm_aux H) K in
    HMAC_Final h (fold_left (HMAC_Update h) chunks H) (hi_out h).

  (** hmac-drbg.c:11-47 (own lines) *)
  Definition HMAC_DRBG_Update (x : hdrbg) (str : list Z) : hdrbg :=
    let '(H, K) := drbg_prf (hd_H x) (hd_K x) [hd_V x; [0]; str] in
    let '(H, V) := drbg_prf H K [hd_V x] in
    if (length str =? 0)%nat then Hd K V H else
    let '(H, K) := drbg_prf H K [V; [1]; str] in
    let '(H, V) := drbg_prf H K [V] in
    Hd K V H.

  (** hmac-drbg.c:49-60 *)
  Definition HMAC_DRBG_Seed (x : hdrbg) (seedstr : list Z) : hdrbg :=
    HMAC_DRBG_Update (Hd (repeat 0 (hi_out h)) (repeat 1 (hi_out h)) (hd_H x)) seedstr.
  (** hmac-drbg.c:62-68 *)
  Definition HMAC_DRBG_Reseed (x : hdrbg) (seedstr : list Z) : hdrbg := HMAC_DRBG_Update x seedstr.

  (** hmac-drbg.c:84-92: the loop "while( tmplen < len )"; [fuel] bounds the number of
      iterations, len of them suffice as outlen > 0. *)
  Fixpoint drbg_gen_loop (fuel : nat) (x : hdrbg) (len : nat) : hdrbg * list Z :=
    match fuel with
    | O => (x, [])
    | S fuel =>
      if (len =? 0)%nat then (x, []) else
      let '(H, V) := drbg_prf (hd_H x) (hd_K x) [hd_V x] in
      let n := Nat.min (hi_out h) len in
      let '(x', o) := drbg_gen_loop fuel (Hd (hd_K x) V H) (len - n) in
      (x', firstn n V ++ o)
    end.
  (** hmac-drbg.c:70-95 *)
  Definition HMAC_DRBG_Generate (x : hdrbg) (len : nat) : hdrbg * list Z :=
    let '(x, o) := drbg_gen_loop len x len in
    (HMAC_DRBG_Update x [], o).
End HmacDrbg.
Arguments Hd {h}. Arguments hd_K {h}. Arguments hd_V {h}. Arguments hd_H {h}.
