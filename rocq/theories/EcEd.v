(** Model of src/2-ec/ecEd.c: twisted Edwards points in extended coordinates. *)
From Verif Require Import Base Vlong EcMod EcpXyz.

(** ecEd.h:31-42, ecEd_curve_t: the fields used by the point arithmetic. *)
Record ed_curve : Type := { ed_w : nat; ed_a : Z; ed_over : Z; ed_under : Z; ed_p : list Z; ed_L : list Z; ed_g : modfun }.
(** ecEd.h:13-15, ecEd_xytz_t. *)
Record ed_xytz : Type := { ex : list Z; ey : list Z; et : list Z; ez : list Z }.

Section Curve.
  Variable c : ed_curve.
  Local Notation mul a b := (fst (vlong_mulv_masked (ed_w c) a b 1 (Some (ed_g c)))).
  Local Notation add a b := (vlong_addv (ed_w c) a b).
  Local Notation sub a b := (vlong_subv (ed_w c) a b).
  Local Notation modf a := (fst (ed_g c a)).
  Local Notation imod a := (ecp_imod_inplace (ed_g c) (ed_p c) a).
  Local Notation cpy a := (vlong_cpy (ed_w c) a).
  Local Notation imuls a k := (vlong_imuls (repeat 0 (ed_w c)) a k false).
  Local Notation muls a k := (vlong_muls (repeat 0 (ed_w c)) a k false).

  (** ecEd.c:6-97, ecEd_point_add.  All inputs are read before the first output
      register is written, so [out] may alias them. *)
  Definition ecEd_point_add (p1 p2 : ed_xytz) : ed_xytz :=
    let x1 := ex p1 in let y1 := ey p1 in let t1 := et p1 in let z1 := ez p1 in
    let x2 := ex p2 in let y2 := ey p2 in let t2 := et p2 in let z2 := ez p2 in
    let r := mul x1 y2 in
    let s := mul x2 y1 in
    let w := add r s in
    let w := modf w in
    let r := mul x1 x2 in
    let s := mul y1 y2 in
    let u := imod (sub s (imuls r (ed_a c))) in
    let r := mul z1 z2 in
    let s := mul t1 t2 in
    let v := imod (vlong_imuls (muls r (ed_under c)) s (- ed_over c) true) in
    let x3 := mul w v in
    let t3 := mul u w in
    let w := imod (vlong_imuls (muls r (ed_under c)) s (ed_over c) true) in
    let y3 := mul u w in
    let z3 := mul v w in
    let x3 := modf (muls x3 (ed_under c)) in
    let y3 := modf (muls y3 (ed_under c)) in
    let t3 := modf (muls t3 (ed_under c)) in
    let t3 := modf (muls t3 (ed_under c)) in
    {| ex := x3; ey := y3; et := t3; ez := z3 |}.

  (** ecEd.c:99-165, ecEd_point_dbl, [out] distinct from p1 (ecEd.h:59 says
      restrict: y3 is written before y1 is last read). *)
  Definition ecEd_point_dbl (p1 : ed_xytz) : ed_xytz :=
    let x1 := ex p1 in let y1 := ey p1 in let z1 := ez p1 in
    let r := mul x1 x1 in
    let s := mul y1 y1 in
    let r := imod (imuls r (ed_a c)) in
    let u := add s r in
    let v := imod (sub s r) in
    let u := modf u in
    let y3 := mul u v in
    let s := mul x1 y1 in
    let s := add s s in
    let s := modf s in
    let t3 := mul s v in
    let r := mul z1 z1 in
    let r := add r r in
    let w := imod (sub r u) in
    let x3 := mul s w in
    let z3 := mul u w in
    {| ex := x3; ey := y3; et := t3; ez := z3 |}.

  (** ecEd.c:167-175, ecEd_xytz_copy. *)
  Definition ecEd_xytz_copy (q : ed_xytz) : ed_xytz := {| ex := cpy (ex q); ey := cpy (ey q); et := cpy (et q); ez := cpy (ez q) |}.
  (** ecEd.c:177-195, ecEd_xytz_inf. *)
  Definition ecEd_xytz_inf : ed_xytz :=
    {| ex := repeat 0 (ed_w c); ey := 1 :: repeat 0 (ed_w c - 1); et := repeat 0 (ed_w c); ez := 1 :: repeat 0 (ed_w c - 1) |}.
  (** ecEd.c:197-246, ecEd_xytz_substitute. *)
  Definition ecEd_xytz_substitute (a b : ed_xytz) (mask : Z) : ed_xytz :=
    {| ex := subst_words (ex a) (ex b) mask; ey := subst_words (ey a) (ey b) mask;
       et := subst_words (et a) (et b) mask; ez := subst_words (ez a) (ez b) mask |}.

  (** ecEd.c:248-290, ecEd_point_scale_accumulate. *)
  Fixpoint ed_scale_loop (scalar : list Z) (k i : nat) (accum tmp1 : ed_xytz) : ed_xytz :=
    match k with
    | O => accum
    | S k' =>
        let mask := Z.land (Z.shiftr (nthZ (i / 32) scalar) (Z.of_nat (i mod 32))) 1 in
        let tmp2 := ecEd_point_add tmp1 accum in
        let accum := ecEd_xytz_substitute accum tmp2 mask in
        match k' with
        | O => accum
        | _ => ed_scale_loop scalar k' (S i) accum (ecEd_point_dbl tmp1)
        end
    end.
  Definition ecEd_point_scale_accumulate (accum base : ed_xytz) (scalar : list Z) : ed_xytz :=
    ed_scale_loop scalar (length scalar * 32) 0 accum (ecEd_xytz_copy base).
End Curve.

(** curve-Ed25519.c:11-64 *)
Definition CurveEd25519 : ed_curve :=
  {| ed_w := 11; ed_a := -1; ed_over := -121665; ed_under := 121666; ed_p := Fp_25519;
     ed_L := [0x5cf5d3ed; 0x5812631a; 0xa2f79cd6; 0x14def9de; 0; 0; 0; 0x10000000]; ed_g := remv_25519 |}.
Definition B_Ed25519 : ed_xytz :=
  {| ex := [0x8f25d51a; 0xc9562d60; 0x9525a7b2; 0x692cc760; 0xfdd6dc5c; 0xc0a4e231; 0xcd6e53fe; 0x216936d3; 0; 0; 0];
     ey := [0x66666658; 0x66666666; 0x66666666; 0x66666666; 0x66666666; 0x66666666; 0x66666666; 0x66666666; 0; 0; 0];
     et := [0xa5b7dda3; 0x6dde8ab3; 0x775152f5; 0x20f09f80; 0x64abe37d; 0x66ea4e8e; 0xd78b7665; 0x67875f0f; 0; 0; 0];
     ez := 1 :: repeat 0 10 |}.
(** curve-Ed448.c:11-88 *)
Definition CurveEd448 : ed_curve :=
  {| ed_w := 17; ed_a := 1; ed_over := -39081; ed_under := 1; ed_p := Fp_448;
     ed_L := [0xab5844f3; 0x2378c292; 0x8dc58f55; 0x216cc272; 0xaed63690; 0xc44edb49; 0x7cca23e9; 0xffffffff; 0xffffffff; 0xffffffff; 0xffffffff; 0xffffffff; 0xffffffff; 0x3fffffff];
     ed_g := remv_448 |}.
Definition B_Ed448 : ed_xytz :=
  {| ex := [0xc70cc05e; 0x2626a82b; 0x8b00938e; 0x433b80e1; 0x2ab66511; 0x12ae1af7; 0xa3d3a464; 0xea6de324; 0x470f1767; 0x9e146570; 0x22bf36da; 0x221d15a6; 0x6bed0ded; 0x4f1970c6; 0; 0; 0];
     ey := [0xf230fa14; 0x9808795b; 0x4ed7c8ad; 0xfdbd132c; 0xe67c39c4; 0x3ad3ff1c; 0x05a0c2d7; 0x87789c1e; 0x6ca39840; 0x4bea7373; 0x56c9c762; 0x88762037; 0x6eb6bc24; 0x693f4671; 0; 0; 0];
     et := [0x82af95f3; 0xeb06624e; 0x85662d1d; 0xf78fa07d; 0xb5b27da1; 0xf179de90; 0xe2356d58; 0x60d71667; 0x3f8451d2; 0xc5056a18; 0x508d91c9; 0xcec39d2d; 0xee221c6c; 0xc75eb58a; 0; 0; 0];
     ez := 1 :: repeat 0 16 |}.
