(** Model of src/2-ec/ecMt.c, curve25519.c, curve448.c and of the key agreement in
    src/3-rfc-7748,8032/rfc-7748.c. *)
From Verif Require Import Base Vlong EcMod Der.

(** ecMt.c:8-21, cswap on registers of one width: dummy = -swap & (a ^ b). *)
Definition cswap_words (swap : Z) (a b : list Z) : list Z * list Z :=
  let d i := Z.land (u32 (- swap)) (Z.lxor (nthZ i a) (nthZ i b)) in
  (map (fun i => Z.lxor (nthZ i a) (d i)) (seq 0 (length a)), map (fun i => Z.lxor (nthZ i b) (d i)) (seq 0 (length b))).

(** curves-Mt.h / ecMt.h, ecMt_curve_t. *)
Record mt_curve : Type := { mt_bits : nat; mt_a : Z; mt_u : Z; mt_sslen : nat; mt_w : nat; mt_p : list Z; mt_g : modfun }.
(** the A24 macros of rfc-7748.c:15 and curve*.c *)
Definition mt_a24 (c : mt_curve) : Z := (mt_a c - 2) / 4.

Section Curve.
  Variable c : mt_curve.
  Local Notation mul a b := (fst (vlong_mulv_masked (mt_w c) a b 1 (Some (mt_g c)))).
  Local Notation add a b := (vlong_addv (mt_w c) a b).
  Local Notation sub a b := (vlong_subv (mt_w c) a b).
  Local Notation modf a := (fst (mt_g c a)).
  Local Notation imod a := (ecp_imod_inplace (mt_g c) (mt_p c) a).

  (** ecMt.c:70-122, the body after the two cswaps. *)
  Definition mt_step (x1 : list Z) (st : list Z * list Z * list Z * list Z) : list Z * list Z * list Z * list Z :=
    let '(x2, z2, x3, z3) := st in
    let a := add x2 z2 in
    let b := sub x2 z2 in
    let a := modf a in
    let b := imod b in
    let c_ := mul a a in
    let d := mul b b in
    let x2 := mul c_ d in
    let e := imod (sub c_ d) in
    let c_ := modf (vlong_muls c_ e (mt_a24 c) true) in
    let z2 := mul e c_ in
    let c_ := modf (add x3 z3) in
    let d := imod (sub x3 z3) in
    let da := mul d a in
    let cb := mul c_ b in
    let tmp := modf (add da cb) in
    let x3 := mul tmp tmp in
    let tmp := imod (sub da cb) in
    let e := mul tmp tmp in
    let z3 := mul x1 e in
    (x2, z2, x3, z3).

  (** ecMt.c:57-123: t counts down from bits - 1. *)
  Fixpoint mt_loop (k x1 : list Z) (t : nat) (swap : Z) (st : list Z * list Z * list Z * list Z) : Z * (list Z * list Z * list Z * list Z) :=
    match t with
    | O => (swap, st)
    | S t' =>
        let kt := Z.land (Z.shiftr (nthZ (t' / 32) k) (Z.of_nat (t' mod 32))) 1 in
        let swap := Z.lxor swap kt in
        let '(x2, z2, x3, z3) := st in
        let '(x2, x3) := cswap_words swap x2 x3 in
        let '(z2, z3) := cswap_words swap z2 z3 in
        mt_loop k x1 t' kt (mt_step x1 (x2, z2, x3, z3))
    end.

  (** ecMt.c:23-135, ecMt_point_scale: the new value of x1. *)
  Definition ecMt_point_scale (k x1 : list Z) : list Z :=
    let x1 := modf x1 in
    let one := 1 :: repeat 0 (mt_w c - 1) in
    let '(swap, (x2, z2, x3, z3)) := mt_loop k x1 (mt_bits c) 0 (one, repeat 0 (mt_w c), x1, one) in
    let '(x2, x3) := cswap_words swap x2 x3 in
    let '(z2, z3) := cswap_words swap z2 z3 in
    let tmp := vlong_modexpv_shiftadded (mt_w c) z2 (mt_g c) (mt_p c) (-2) 0 in
    mul x2 tmp.
End Curve.

(** curve25519.c:34-41, curve448.c:32-39; widths VLONG_BITS_WCNT (vlong.h:39). *)
Definition Curve25519 : mt_curve :=
  {| mt_bits := 255; mt_a := 486662; mt_u := 9; mt_sslen := 32; mt_w := 11; mt_p := Fp_25519; mt_g := remv_25519 |}.
Definition Curve448 : mt_curve :=
  {| mt_bits := 448; mt_a := 156326; mt_u := 5; mt_sslen := 56; mt_w := 17; mt_p := Fp_448; mt_g := remv_448 |}.

(** curve25519.c:19-25 and curve448.c:19-23: the octets of the private key, clamped. *)
Definition clamp25519 (sk : list Z) : list Z :=
  let sk := upd 0 (Z.land (nthZ 0 sk) 248) sk in
  let sk := upd 31 (Z.land (nthZ 31 sk) 127) sk in
  upd 31 (Z.lor (nthZ 31 sk) 64) sk.
Definition clamp448 (sk : list Z) : list Z :=
  let sk := upd 0 (Z.land (nthZ 0 sk) 252) sk in
  upd 55 (Z.lor (nthZ 55 sk) 128) sk.
Definition clamp (c : mt_curve) (sk : list Z) : list Z := if mt_a c =? 486662 then clamp25519 sk else clamp448 sk.
(** xecdh_gen_scl: k from the generator's octets, and K scaled by k. *)
Definition gen_scl_k (c : mt_curve) (sk : list Z) : list Z := vlong_DecLSB (mt_w c) (clamp c sk).

(** rfc-7748.c:28-60 and 78-98, XECDH_Keygen / XECDH_Decode_PrivateKey: (k, K). *)
Definition XECDH_Keygen (c : mt_curve) (sk : list Z) : list Z * list Z :=
  let k := gen_scl_k c sk in (k, ecMt_point_scale c k (mt_u c :: repeat 0 (mt_w c - 1))).
(** rfc-7748.c:118-147 and 257-270, XECDH_Decode_PublicKey and XECDH_Decode_Ciphertext: the u-coordinate register. *)
Definition XECDH_Decode_u (c : mt_curve) (enc : list Z) : list Z :=
  let vl := vlong_DecLSB (mt_w c) enc in
  if (mt_a c =? 486662) && (mt_u c =? 9) && (mt_sslen c =? 32)%nat then upd 7 (Z.land (nthZ 7 vl) (2^31 - 1)) vl else vl.
(** rfc-7748.c:104-115 and 241-251, XECDH_Encode_PublicKey and XECDH_Encode_Ciphertext with the expected length. *)
Definition XECDH_Encode_u (c : mt_curve) (u : list Z) : list Z := vlong_EncLSB u (mt_sslen c).
(** rfc-7748.c:149-193, XECDH_Enc with *sslen = SSLEN and the generator's octets sk: the shared secret and
    the ciphertext register. *)
Definition XECDH_Enc (c : mt_curve) (K sk : list Z) : list Z * list Z :=
  let k := gen_scl_k c sk in
  (vlong_EncLSB (ecMt_point_scale c k (vlong_cpy (mt_w c) K)) (mt_sslen c),
   ecMt_point_scale c k (mt_u c :: repeat 0 (mt_w c - 1))).
(** rfc-7748.c:199-237, XECDH_Dec with *sslen = SSLEN. *)
Definition XECDH_Dec (c : mt_curve) (k P : list Z) : list Z := vlong_EncLSB (ecMt_point_scale c k P) (mt_sslen c).
