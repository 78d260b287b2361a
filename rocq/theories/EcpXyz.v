(** Model of src/2-ec/ecp-xyz.c: short Weierstrass points in homogeneous
    coordinates. *)
From Verif Require Import Base Vlong EcMod.

(** ecp-xyz.h:36-45, ecp_curve_t, the fields used by the point arithmetic:
    [cv_w] is the word count VLONG_BITS_WCNT of every register, [cv_g] is
    imod_aux->modfunc and [cv_p] imod_aux->mod_ctx (equal to p). *)
Record ecp_curve : Type := { cv_w : nat; cv_a : Z; cv_b : list Z; cv_p : list Z; cv_n : list Z; cv_g : modfun }.
(** ecp-xyz.h:14-16, ecp_xyz_t. *)
Record ecp_xyz : Type := { px : list Z; py : list Z; pz : list Z }.

Section Curve.
  Variable c : ecp_curve.
  Local Notation mul a b := (fst (vlong_mulv_masked (cv_w c) a b 1 (Some (cv_g c)))).
  Local Notation add a b := (vlong_addv (cv_w c) a b).
  Local Notation sub a b := (vlong_subv (cv_w c) a b).
  Local Notation modf a := (fst (cv_g c a)).
  Local Notation imod a := (ecp_imod_inplace (cv_g c) (cv_p c) a).
  Local Notation cpy a := (vlong_cpy (cv_w c) a).
  (** vlong_imuls / vlong_muls without accumulation never read the output register;
      the first argument only gives its width. *)
  Local Notation imuls a k := (vlong_imuls (repeat 0 (cv_w c)) a k false).
  Local Notation muls a k := (vlong_muls (repeat 0 (cv_w c)) a k false).

  (** ecp-xyz.c:9-128, ecp_point_add_rcb15.  [out] does not alias the inputs
      (restrict); the registers r,s,t,u,v,w of the operation context are
      t0..t5; each let is one call of the C function, in order. *)
  Definition ecp_point_add_rcb15 (p1 p2 : ecp_xyz) : ecp_xyz :=
    let x1 := px p1 in let y1 := py p1 in let z1 := pz p1 in
    let x2 := px p2 in let y2 := py p2 in let z2 := pz p2 in
    (* 1. 2. 3. *)
    let t0 := mul x1 x2 in
    let t1 := mul y1 y2 in
    let t2 := mul z1 z2 in
    (* 4. 5. 6. *)
    let t3 := add x1 y1 in
    let t3 := modf t3 in
    let t4 := add x2 y2 in
    let t5 := mul t3 t4 in
    let t3 := cpy t5 in
    (* 7. 8. 9. *)
    let t4 := add t0 t1 in
    let t4 := modf t4 in
    let t3 := imod (sub t3 t4) in
    let t4 := add x1 z1 in
    let t4 := modf t4 in
    (* 10. 11. 12. *)
    let t5 := add x2 z2 in
    let t5 := modf t5 in
    let x := mul t4 t5 in
    let t4 := cpy x in
    let t5 := add t0 t2 in
    let t5 := modf t5 in
    (* 13. 14. 15. *)
    let t4 := imod (sub t4 t5) in
    let t5 := add y1 z1 in
    let t5 := modf t5 in
    let x := add y2 z2 in
    let x := modf x in
    (* 16. 17. 18. *)
    let y := mul t5 x in
    let t5 := cpy y in
    let x := add t1 t2 in
    let x := modf x in
    let t5 := imod (sub t5 x) in
    (* 19. 20. 21. *)
    let z := imod (imuls t4 (cv_a c)) in
    let x := mul (cv_b c) t2 in
    let x := imuls x 3 in
    let z := add x z in
    let z := modf z in
    (* 22. 23. 24. *)
    let x := imod (sub t1 z) in
    let z := add t1 z in
    let y := mul x z in
    (* 25. 26. 27. *)
    let t1 := imuls t0 3 in
    let t1 := modf t1 in
    let t2 := imod (imuls t2 (cv_a c)) in
    (* 29. 30. 31. *)
    let t1 := add t1 t2 in
    let t1 := modf t1 in
    let t2 := imod (sub t0 t2) in
    let t2 := imod (imuls t2 (cv_a c)) in
    (* 28. 32. *)
    let t0 := mul t4 (cv_b c) in
    let t4 := imuls t0 3 in
    let t4 := add t4 t2 in
    let t4 := modf t4 in
    (* 33. 34. *)
    let t0 := mul t1 t4 in
    let y := add y t0 in
    let y := modf y in
    (* 36. 35. 37. *)
    let t0 := mul t3 x in
    let x := mul t5 t4 in
    let x := imod (sub t0 x) in
    (* 39. 38. 40. *)
    let t0 := mul t5 z in
    let z := mul t3 t1 in
    let z := add t0 z in
    let z := modf z in
    {| px := x; py := y; pz := z |}.

  (** ecp-xyz.c:133-201, ecp_point_dbl_fast. *)
  Definition ecp_point_dbl_fast (p1 : ecp_xyz) : ecp_xyz :=
    let x1 := px p1 in let y1 := py p1 in let z1 := pz p1 in
    let w := mul x1 x1 in
    let w := muls w 3 in
    let w := imod w in
    let t := mul z1 z1 in
    let s := imod (imuls t (cv_a c)) in
    let w := add w s in
    let w := modf w in
    let y := mul w x1 in
    let y := muls y 3 in
    let y := modf y in
    let t := mul y1 y1 in
    let s := mul t z1 in
    let s := muls s 2 in
    let s := modf s in
    let y := imod (sub y s) in
    let s := mul y t in
    let y := mul s z1 in
    let y := muls y 4 in
    let y := modf y in
    let s := mul t z1 in
    let x := mul s x1 in
    let x := muls x 8 in
    let x := modf x in
    let s := mul w w in
    let x := imod (sub s x) in
    let t := mul s w in
    let y := imod (sub y t) in
    let t := mul y1 z1 in
    let s := muls x 2 in
    let s := modf s in
    let x := mul t s in
    let s := mul t t in
    let z := mul s t in
    let z := muls z 8 in
    let z := modf z in
    {| px := x; py := y; pz := z |}.

  (** ecp-xyz.c:203-210, ecp_xyz_copy. *)
  Definition ecp_xyz_copy (src : ecp_xyz) : ecp_xyz :=
    {| px := cpy (px src); py := cpy (py src); pz := cpy (pz src) |}.

  (** ecp-xyz.c:212-226, ecp_xyz_inf. *)
  Definition ecp_xyz_inf : ecp_xyz :=
    {| px := repeat 0 (cv_w c); py := 1 :: repeat 0 (cv_w c - 1); pz := repeat 0 (cv_w c) |}.

  (** ecp-xyz.c:228-268, ecp_xyz_substitute; bmask = -mask and amask = ~bmask as uint32_t. *)
  Definition subst_words (a b : list Z) (mask : Z) : list Z :=
    let bmask := u32 (- mask) in
    let amask := 2 ^ 32 - 1 - bmask in
    map (fun i => Z.lor (Z.land amask (nthZ i a)) (Z.land bmask (if (i <? length b)%nat then nthZ i b else 0))) (seq 0 (length a)).
  Definition ecp_xyz_substitute (a b : ecp_xyz) (mask : Z) : ecp_xyz :=
    {| px := subst_words (px a) (px b) mask; py := subst_words (py a) (py b) mask; pz := subst_words (pz a) (pz b) mask |}.

  (** ecp-xyz.c:270-315, the loop of ecp_point_scale_accumulate; [k] = iterations left, i = current bit. *)
  Fixpoint scale_loop (scalar : list Z) (k i : nat) (accum tmp1 : ecp_xyz) : ecp_xyz :=
    match k with
    | O => accum
    | S k' =>
        let mask := Z.land (Z.shiftr (nthZ (i / 32) scalar) (Z.of_nat (i mod 32))) 1 in
        let tmp2 := ecp_point_add_rcb15 tmp1 accum in
        let accum := ecp_xyz_substitute accum tmp2 mask in
        match k' with
        | O => accum
        | _ => scale_loop scalar k' (S i) accum (ecp_point_dbl_fast tmp1)
        end
    end.
  Definition ecp_point_scale_accumulate (accum base : ecp_xyz) (scalar : list Z) : ecp_xyz :=
    scale_loop scalar (length scalar * 32) 0 accum (ecp_xyz_copy base).
End Curve.

(** curve-secp256r1.c:87-149 *)
Definition secp256r1 : ecp_curve :=
  {| cv_w := 11; cv_a := -3;
     cv_b := [0x27D2604B; 0x3BCE3C3E; 0xCC53B0F6; 0x651D06B0; 0x769886BC; 0xB3EBBD55; 0xAA3A93E7; 0x5AC635D8];
     cv_p := Fp_secp256r1;
     cv_n := [0xFC632551; 0xF3B9CAC2; 0xA7179E84; 0xBCE6FAAD; 0xFFFFFFFF; 0xFFFFFFFF; 0; 0xFFFFFFFF];
     cv_g := remv_secp256r1 |}.
(** curve-secp384r1.c:81-153 *)
Definition secp384r1 : ecp_curve :=
  {| cv_w := 15; cv_a := -3;
     cv_b := [0xD3EC2AEF; 0x2A85C8ED; 0x8A2ED19D; 0xC656398D; 0x5013875A; 0x0314088F; 0xFE814112; 0x181D9C6E; 0xE3F82D19; 0x988E056B; 0xE23EE7E4; 0xB3312FA7];
     cv_p := Fp_secp384r1;
     cv_n := [0xCCC52973; 0xECEC196A; 0x48B0A77A; 0x581A0DB2; 0xF4372DDF; 0xC7634D81; 0xFFFFFFFF; 0xFFFFFFFF; 0xFFFFFFFF; 0xFFFFFFFF; 0xFFFFFFFF; 0xFFFFFFFF];
     cv_g := remv_secp384r1 |}.
(** curveSM2.c:77-133 *)
Definition curveSM2 : ecp_curve :=
  {| cv_w := 11; cv_a := -3;
     cv_b := [0x4D940E93; 0xDDBCBD41; 0x15AB8F92; 0xF39789F5; 0xCF6509A7; 0x4D5A9E4B; 0x9D9F5E34; 0x28E9FA9E];
     cv_p := Fp_SM2;
     cv_n := [0x39D54123; 0x53BBF409; 0x21C6052B; 0x7203DF6B; 0xFFFFFFFF; 0xFFFFFFFF; 0xFFFFFFFF; 0xFFFFFFFE];
     cv_g := remv_SM2 |}.

(** The base points G: curve-secp256r1.c:101-121, curve-secp384r1.c:113-141, curveSM2.c:101-121. *)
Definition G_secp256r1 : ecp_xyz :=
  {| px := [0xD898C296; 0xF4A13945; 0x2DEB33A0; 0x77037D81; 0x63A440F2; 0xF8BCE6E5; 0xE12C4247; 0x6B17D1F2; 0; 0; 0];
     py := [0x37BF51F5; 0xCBB64068; 0x6B315ECE; 0x2BCE3357; 0x7C0F9E16; 0x8EE7EB4A; 0xFE1A7F9B; 0x4FE342E2; 0; 0; 0];
     pz := 1 :: repeat 0 10 |}.
Definition G_secp384r1 : ecp_xyz :=
  {| px := [0x72760AB7; 0x3A545E38; 0xBF55296C; 0x5502F25D; 0x82542A38; 0x59F741E0; 0x8BA79B98; 0x6E1D3B62; 0xF320AD74; 0x8EB1C71E; 0xBE8B0537; 0xAA87CA22; 0; 0; 0];
     py := [0x90EA0E5F; 0x7A431D7C; 0x1D7E819D; 0x0A60B1CE; 0xB5F0B8C0; 0xE9DA3113; 0x289A147C; 0xF8F41DBD; 0x9292DC29; 0x5D9E98BF; 0x96262C6F; 0x3617DE4A; 0; 0; 0];
     pz := 1 :: repeat 0 14 |}.
Definition G_SM2 : ecp_xyz :=
  {| px := [0x334C74C7; 0x715A4589; 0xF2660BE1; 0x8FE30BBF; 0x6A39C994; 0x5F990446; 0x1F198119; 0x32C4AE2C; 0; 0; 0];
     py := [0x2139F0A0; 0x02DF32E5; 0xC62A4740; 0xD0A9877C; 0x6B692153; 0x59BDCEE3; 0xF4F6779C; 0xBC3736A2; 0; 0; 0];
     pz := 1 :: repeat 0 10 |}.
