(** Model of src/2-ec/ecp-pubkey-codec.c, src/3-ecc-common/ecc-common.c,
    src/3-sec1/ecdsa.c, src/3-sm2/sm2sig.c and src/3-sec1/ecdh-kem.c. *)
From Verif Require Import Base Vlong EcMod EcpXyz Der.

(** Domain parameters: the curve, curve->plen and curve->G (ecp-xyz.h:36-45).  Every
    register d, k, r, s, t, u, v, w and every coordinate has the width cv_w:
    VLONG_BYTES_WCNT(plen) = VLONG_BITS_WCNT(8 plen), ecc-common.c:58-77. *)
Record ec_domain : Type := { ed_c : ecp_curve; ed_plen : nat; ed_G : ecp_xyz }.

(** vlong.c: vlong_one *)
Definition vlong_one : list Z := [1].

(** "for(t=0,w=0; t<vl->c; t++) w |= vl->v[t];" and the test of w. *)
Definition words_or (v : list Z) : Z := fold_left Z.lor v 0.

Section Domain.
  Variable D : ec_domain.
  Notation c := (ed_c D).
  Notation wd := (cv_w (ed_c D)).
  Notation plen := (ed_plen D).
  Definition modn : modfun := fun v => vlong_remv_inplace v (cv_n c).
  Local Notation mulp x y := (fst (vlong_mulv_masked wd x y 1 (Some (cv_g c)))).
  Local Notation muln x y := (fst (vlong_mulv_masked wd x y 1 (Some modn))).

  (** * ecp-pubkey-codec.c *)

  (** ecp-pubkey-codec.c:39-57: {u} = x^3 + a x + b. *)
  Definition curve_rhs (x : list Z) : list Z :=
    let v := mulp x x in
    let u := mulp x v in
    let u := vlong_imuls u x (cv_a c) true in
    let u := ecp_imod_inplace (cv_g c) (cv_p c) u in
    let u := vlong_addv wd u (cv_b c) in
    fst (cv_g c u).

  (** ecp-pubkey-codec.c:59-76: y from the octets, or from u.  Octets beyond the end of enc,
      which the C code would read for x before looking at the length, are taken as missing:
      what they are does not matter, as decoding fails then. *)
  Definition decode_y (enc u : list Z) : option (list Z) :=
    let os := nthZ 0 enc in
    if (os =? 4) && Nat.eqb (length enc) (1 + plen * 2) then
      Some (vlong_OS2IP wd (firstn plen (skipn (1 + plen) enc)))
    else if ((os =? 2) || (os =? 3)) && Nat.eqb (length enc) (1 + plen) then
      match vlong_sqrt_c3m4 wd u (cv_g c) (cv_p c) with
      | None => None
      | Some y =>
          if Z.land os 1 =? Z.land (nthZ 0 y) 1 then Some y
          else Some (fst (cv_g c (vlong_subv wd (cv_p c) y)))
      end
    else None.

  (** ecp-pubkey-codec.c:7-109, ecp_point_decode, for tinf distinct from Q. *)
  Definition ecp_point_decode (enc : list Z) : option ecp_xyz :=
    let z := vlong_cpy wd vlong_one in
    let x := vlong_OS2IP wd (firstn plen (skipn 1 enc)) in
    let u := curve_rhs x in
    match decode_y enc u with
    | None => None
    | Some y =>
        let v := mulp y y in
        if negb (vlong_cmpv_shifted v u 0 =? 0) then None
        else
          let Q := {| px := x; py := y; pz := z |} in
          let tinf := ecp_point_scale_accumulate c (ecp_xyz_inf c) Q (cv_n c) in
          if negb (words_or (pz tinf) =? 0) then None else Some Q
    end.

  (** ecp-xyz.c:28-60 of ecp_point_add_rcb15: what is left in the register {u} = t3. *)
  Definition rcb15_t3 (p1 p2 : ecp_xyz) : list Z :=
    let t0 := mulp (px p1) (px p2) in
    let t1 := mulp (py p1) (py p2) in
    let t3 := fst (cv_g c (vlong_addv wd (px p1) (py p1))) in
    let t4 := vlong_addv wd (px p2) (py p2) in
    let t3 := vlong_cpy wd (mulp t3 t4) in
    let t4 := fst (cv_g c (vlong_addv wd t0 t1)) in
    ecp_imod_inplace (cv_g c) (cv_p c) (vlong_subv wd t3 t4).
  (** The accumulator and the doubled base that meet in the last addition of
      ecp_point_scale_accumulate (the last call is an addition: ecp-xyz.c:301-311). *)
  Fixpoint scale_last (scalar : list Z) (k i : nat) (accum tmp1 : ecp_xyz) : ecp_xyz * ecp_xyz :=
    match k with
    | O => (tmp1, accum)
    | S O => (tmp1, accum)
    | S k' =>
        let mask := Z.land (Z.shiftr (nthZ (i / 32) scalar) (Z.of_nat (i mod 32))) 1 in
        let tmp2 := ecp_point_add_rcb15 c tmp1 accum in
        let accum := ecp_xyz_substitute accum tmp2 mask in
        scale_last scalar k' (S i) accum (ecp_point_dbl_fast c tmp1)
    end.

  (** ecp-pubkey-codec.c:7-109 called with tinf == Q, as ECDH_KEM_Decode_Ciphertext does
      (ecdh-kem.c:270-288): the point at infinity overwrites Q before the order of Q is looked
      at; then the octets are decoded once more, without any check, y coming from the register
      {u} as the point operations left it. *)
  Definition ecp_point_decode_inplace (enc : list Z) : option ecp_xyz :=
    let z := vlong_cpy wd vlong_one in
    let x := vlong_OS2IP wd (firstn plen (skipn 1 enc)) in
    let u := curve_rhs x in
    match decode_y enc u with
    | None => None
    | Some y =>
        let v := mulp y y in
        if negb (vlong_cmpv_shifted v u 0 =? 0) then None
        else
          let Q := ecp_xyz_inf c in
          let tinf := ecp_point_scale_accumulate c Q Q (cv_n c) in
          if negb (words_or (pz tinf) =? 0) then None
          else
            let '(l1, l2) := scale_last (cv_n c) (length (cv_n c) * 32) 0 Q (ecp_xyz_copy c Q) in
            match decode_y enc (rcb15_t3 l1 l2) with
            | None => None
            | Some y => Some {| px := x; py := y; pz := z |}
            end
    end.

  (** ecp-pubkey-codec.c:111-136, ecp_point_encode; the result is the octets written. *)
  Definition ecp_point_encode (Q : ecp_xyz) (enclen : nat) : option (list Z) :=
    if Nat.eqb enclen (1 + plen * 2) then
      Some (4 :: vlong_I2OSP (px Q) plen ++ vlong_I2OSP (py Q) plen)
    else if Nat.eqb enclen (1 + plen) then
      Some (Z.lor 2 (Z.land (nthZ 0 (py Q)) 1) :: vlong_I2OSP (px Q) plen)
    else None.

  (** * ecc-common.c *)

  (** ecc-common.c:8-17, topword_modmask, the mask. *)
  Definition modmask (m : Z) : Z :=
    let w := m in
    let w := Z.lor w (Z.shiftr w 16) in
    let w := Z.lor w (Z.shiftr w 8) in
    let w := Z.lor w (Z.shiftr w 4) in
    let w := Z.lor w (Z.shiftr w 2) in
    Z.lor w (Z.shiftr w 1).
  Definition topword_modmask (x : list Z) : list Z :=
    let i := ((plen - 1) / 4)%nat in
    upd i (Z.land (nthZ i x) (modmask (nthZ i (cv_p c)))) x.

  (** "vlong_cmpv_shifted(k, n, 0) != 2 ... vlong_cmpv_shifted(vlong_one, k, 0) == 1": k is
      accepted when 1 <= k < n.  ecc-common.c:104-108, ecdsa.c:172-176 and 345-355. *)
  Definition in_range (k : list Z) : bool :=
    (vlong_cmpv_shifted k (cv_n c) 0 =? 2) && negb (vlong_cmpv_shifted vlong_one k 0 =? 1).

  (** ecc-common.c:19-52, ecc_canon_pubkey. *)
  Definition ecc_canon_pubkey (Q : ecp_xyz) : ecp_xyz :=
    let w := vlong_inv_fermat wd (pz Q) (cv_g c) (cv_p c) in
    let u := mulp (px Q) w in
    let v := mulp (py Q) w in
    {| px := vlong_cpy wd u; py := vlong_cpy wd v; pz := vlong_cpy wd vlong_one |}.

  (** ecc-common.c:111-118 and 161-168: Q = d G, made affine. *)
  Definition ecc_pubkey (d : list Z) : ecp_xyz :=
    ecc_canon_pubkey (ecp_point_scale_accumulate c (ecp_xyz_inf c) (ed_G D) d).

  (** ecc-common.c:83-119, ecc_gen_privkey; [rnd] lists what successive calls of prng_gen deliver
      (None: the list runs out before a key is found). *)
  Fixpoint ecc_gen_privkey (rnd : list (list Z)) : option (list Z * ecp_xyz) :=
    match rnd with
    | [] => None
    | H :: rnd' =>
        let d := topword_modmask (vlong_OS2IP wd H) in
        if in_range d then Some (d, ecc_pubkey d) else ecc_gen_privkey rnd'
    end.

  (** ecc-common.c:136-172, ecc_dec_privkey. *)
  Definition ecc_dec_privkey (enc : list Z) : option (list Z * ecp_xyz) :=
    if negb (Nat.eqb (length enc) plen) then None
    else let d := vlong_OS2IP wd enc in
         if in_range d then Some (d, ecc_pubkey d) else None.

  (** The keypairs, signature registers and status of ECC_Hash_Ctx_Hdr_t. *)
  Record ecc_ctx : Type := { e_d : list Z; e_Q : ecp_xyz; e_k : list Z; e_R : ecp_xyz; e_r : list Z; e_s : list Z; e_status : Z }.

  (** x = X/Z: ecdsa.c:208-221, sm2sig.c, ecdh-kem.c:122-135. *)
  Definition affine_x (R : ecp_xyz) : list Z :=
    mulp (vlong_inv_fermat wd (pz R) (cv_g c) (cv_p c)) (px R).

  (** * ecdsa.c *)

  (** ecdsa.c:160-187: the nonce.  Result: k, R and the unused randomness. *)
  Fixpoint ecdsa_nonce (rnd : list (list Z)) : option (list Z * ecp_xyz * list (list Z)) :=
    match rnd with
    | [] => None
    | H :: rnd' =>
        let k := topword_modmask (vlong_OS2IP wd H) in
        if in_range k then
          let R := ecp_point_scale_accumulate c (ecp_xyz_inf c) (ed_G D) k in
          if words_or (px R) =? 0 then ecdsa_nonce rnd' else Some (k, R, rnd')
        else ecdsa_nonce rnd'
    end.

  (** ecdsa.c:206-262: r and s; H = the first slen octets of the digest. *)
  Definition ecdsa_rs (d k : list Z) (R : ecp_xyz) (H : list Z) : list Z * list Z :=
    let r := affine_x R in
    let u := muln r d in
    let v := vlong_OS2IP wd H in
    let w := vlong_addv wd u v in
    let w := fst (modn w) in
    let t := vlong_inv_fermat wd k modn (cv_n c) in
    let s := muln t w in
    (r, s).

  (** ecdsa.c:137-273, HMP1994_Sign: each round takes randomness until k is found; the round is
      repeated while s = 0 ([fuel] rounds at most; every round uses up randomness, so
      fuel = length rnd is no restriction).  The digest is taken to be the same each time
      hfinalfunc is called again. *)
  Fixpoint hmp_sign_loop (fuel : nat) (x : ecc_ctx) (digest : list Z) (rnd : list (list Z)) : option ecc_ctx :=
    match fuel with
    | O => None
    | S fuel' =>
        match ecdsa_nonce rnd with
        | None => None
        | Some (k, R, rnd') =>
            let H := firstn plen digest in
            let '(r, s) := ecdsa_rs (e_d x) k R H in
            if words_or s =? 0 then hmp_sign_loop fuel' x digest rnd'
            else Some {| e_d := e_d x; e_Q := e_Q x; e_k := k; e_R := R; e_r := r; e_s := s; e_status := 1 |}
        end
    end.
  Definition HMP1994_Sign (x : ecc_ctx) (digest : list Z) (rnd : list (list Z)) : option ecc_ctx :=
    hmp_sign_loop (length rnd) x digest rnd.

  (** ecdsa.c:323-448, HMP1994_Verify: the new context and the verdict. *)
  Definition HMP1994_Verify (x : ecc_ctx) (digest : list Z) : ecc_ctx * bool :=
    let reject x := ({| e_d := e_d x; e_Q := e_Q x; e_k := e_k x; e_R := e_R x; e_r := e_r x; e_s := e_s x; e_status := -1 |}, false) in
    if negb (in_range (e_r x) && in_range (e_s x)) then reject x
    else
      let H := firstn plen digest in
      let w := vlong_OS2IP wd H in
      let save := vlong_I2OSP (e_r x) plen in
      let t := vlong_inv_fermat wd (e_s x) modn (cv_n c) in
      let d := muln w t in
      let k := muln (e_r x) t in
      let R := ecp_point_scale_accumulate c (ecp_xyz_inf c) (ed_G D) d in
      let R := ecp_point_scale_accumulate c R (e_Q x) k in
      let x' := {| e_d := d; e_Q := e_Q x; e_k := k; e_R := R; e_r := e_r x; e_s := e_s x; e_status := e_status x |} in
      if words_or (pz R) =? 0 then reject x'
      else
        let t := affine_x R in
        let r := vlong_OS2IP wd save in
        let x' := {| e_d := d; e_Q := e_Q x; e_k := k; e_R := R; e_r := r; e_s := e_s x; e_status := e_status x |} in
        if negb (vlong_cmpv_shifted t r 0 =? 0) then reject x'
        else ({| e_d := d; e_Q := e_Q x; e_k := k; e_R := R; e_r := r; e_s := e_s x; e_status := 1 |}, true).

  (** ecdsa.c:279-296, ECDSA_Verify: hash is the hash function of the context (HashIface). *)
  Definition ECDSA_Verify (hash : list Z -> list Z) (x : ecc_ctx) (msg : list Z) : ecc_ctx * bool :=
    if e_status x =? 1 then (x, true)
    else if e_status x =? -1 then (x, false)
    else HMP1994_Verify x (hash msg).
  (** ecdsa.c:97-113, ECDSA_Sign; entered with status 2 (a previous call having run out of
      randomness is not modelled) or not, the digest is that of msg. *)
  Definition ECDSA_Sign (hash : list Z -> list Z) (x : ecc_ctx) (msg : list Z) (rnd : list (list Z)) : option ecc_ctx :=
    HMP1994_Sign x (hash msg) rnd.
  (** ecdsa.c:476-485, ECDSA_Decode_Signature after the DER layer: r and s are loaded, status = 0. *)
  Definition load_signature (x : ecc_ctx) (r s : list Z) : ecc_ctx :=
    {| e_d := e_d x; e_Q := e_Q x; e_k := e_k x; e_R := e_R x; e_r := r; e_s := s; e_status := 0 |}.

  (** * sm2sig.c *)

  (** sm2sig.c:228-271: the nonce; no topword_modmask. *)
  Fixpoint sm2_nonce (rnd : list (list Z)) : option (list Z * ecp_xyz * list (list Z)) :=
    match rnd with
    | [] => None
    | H :: rnd' =>
        let k := vlong_OS2IP wd H in
        if in_range k then Some (k, ecp_point_scale_accumulate c (ecp_xyz_inf c) (ed_G D) k, rnd')
        else sm2_nonce rnd'
    end.

  (** sm2sig.c:283-300: r = (e + x_R) mod n. *)
  Definition sm2_r (R : ecp_xyz) (H : list Z) : list Z :=
    fst (modn (vlong_addv wd (affine_x R) (vlong_OS2IP wd H))).
  (** sm2sig.c:322-367: s = (1 + d)^-1 (k - r d) mod n. *)
  Definition sm2_s (d k r : list Z) : list Z :=
    let s := vlong_adds wd d 1 0 in
    let s := fst (modn s) in
    let t := vlong_inv_fermat wd s modn (cv_n c) in
    let s := muln r d in
    let w := vlong_subv wd k s in
    let w := vlong_imod_inplace w (cv_n c) in
    muln t w.

  (** sm2sig.c:206-375, GMT0003pt2_Sign; "goto start" while r = 0, r + k = n or s = 0. *)
  Fixpoint sm2_sign_loop (fuel : nat) (x : ecc_ctx) (digest : list Z) (rnd : list (list Z)) : option ecc_ctx :=
    match fuel with
    | O => None
    | S fuel' =>
        match sm2_nonce rnd with
        | None => None
        | Some (k, R, rnd') =>
            let r := sm2_r R (firstn plen digest) in
            if words_or r =? 0 then sm2_sign_loop fuel' x digest rnd'
            else if vlong_cmpv_shifted (vlong_addv wd r k) (cv_n c) 0 =? 0 then sm2_sign_loop fuel' x digest rnd'
            else
              let s := sm2_s (e_d x) k r in
              if words_or s =? 0 then sm2_sign_loop fuel' x digest rnd'
              else Some {| e_d := e_d x; e_Q := e_Q x; e_k := k; e_R := R; e_r := r; e_s := s; e_status := 1 |}
        end
    end.
  Definition GMT0003pt2_Sign (x : ecc_ctx) (digest : list Z) (rnd : list (list Z)) : option ecc_ctx :=
    sm2_sign_loop (length rnd) x digest rnd.

  (** sm2sig.c:427-541, GMT0003pt2_Verify. *)
  Definition GMT0003pt2_Verify (x : ecc_ctx) (digest : list Z) : ecc_ctx * bool :=
    let reject x := ({| e_d := e_d x; e_Q := e_Q x; e_k := e_k x; e_R := e_R x; e_r := e_r x; e_s := e_s x; e_status := -1 |}, false) in
    if negb (in_range (e_r x) && in_range (e_s x)) then reject x
    else
      let H := firstn plen digest in
      let d := vlong_cpy wd (e_s x) in
      let k := fst (modn (vlong_addv wd (e_r x) (e_s x))) in
      let x' := {| e_d := d; e_Q := e_Q x; e_k := k; e_R := e_R x; e_r := e_r x; e_s := e_s x; e_status := e_status x |} in
      if words_or k =? 0 then reject x'
      else
        let R := ecp_point_scale_accumulate c (ecp_xyz_inf c) (ed_G D) d in
        let R := ecp_point_scale_accumulate c R (e_Q x) k in
        let x' := {| e_d := d; e_Q := e_Q x; e_k := k; e_R := R; e_r := e_r x; e_s := e_s x; e_status := e_status x |} in
        if words_or (pz R) =? 0 then reject x'
        else
          let r := vlong_addv wd (affine_x R) (vlong_OS2IP wd H) in
          let r := vlong_imod_inplace (vlong_subv wd k r) (cv_n c) in
          let x' := {| e_d := d; e_Q := e_Q x; e_k := k; e_R := R; e_r := r; e_s := e_s x; e_status := e_status x |} in
          if negb (vlong_cmpv_shifted d r 0 =? 0) then reject x'
          else ({| e_d := d; e_Q := e_Q x; e_k := k; e_R := R; e_r := r; e_s := e_s x; e_status := 1 |}, true).

  (** sm2sig.c:381-399, SM2SIG_Verify; uinfo is the hash Z of the signer. *)
  Definition SM2SIG_Verify (hash : list Z -> list Z) (uinfo : list Z) (x : ecc_ctx) (msg : list Z) : ecc_ctx * bool :=
    if e_status x =? 1 then (x, true)
    else if e_status x =? -1 then (x, false)
    else GMT0003pt2_Verify x (hash (uinfo ++ msg)).
  (** sm2sig.c:164-181, SM2SIG_Sign. *)
  Definition SM2SIG_Sign (hash : list Z -> list Z) (uinfo : list Z) (x : ecc_ctx) (msg : list Z) (rnd : list (list Z)) : option ecc_ctx :=
    GMT0003pt2_Sign x (hash (uinfo ++ msg)) rnd.

  (** * ecdh-kem.c *)

  (** ecdh-kem.c:71-162, ECDH_KEM_Enc: ciphertext point R and shared secret of plen octets.
      The do-while loop: "continue" until k is in range; then one attempt. *)
  Fixpoint ECDH_KEM_Enc (Q : ecp_xyz) (rnd : list (list Z)) : option (ecp_xyz * list Z) :=
    match rnd with
    | [] => None
    | H :: rnd' =>
        let k := topword_modmask (vlong_OS2IP wd H) in
        if in_range k then
          let R := ecp_point_scale_accumulate c (ecp_xyz_inf c) Q k in
          if words_or (pz R) =? 0 then None
          else
            let ss := vlong_I2OSP (affine_x R) plen in
            Some (ecc_canon_pubkey (ecp_point_scale_accumulate c (ecp_xyz_inf c) (ed_G D) k), ss)
        else ECDH_KEM_Enc Q rnd'
    end.
  (** ecdh-kem.c:171-239, ECDH_KEM_Dec. *)
  Definition ECDH_KEM_Dec (d : list Z) (R : ecp_xyz) : option (list Z) :=
    let R := ecp_point_scale_accumulate c (ecp_xyz_inf c) (ecp_xyz_copy c R) d in
    if words_or (pz R) =? 0 then None else Some (vlong_I2OSP (affine_x R) plen).
End Domain.

(** The domain parameters: curve-secp256r1.c:87-149, curve-secp384r1.c:81-153, curveSM2.c:77-133. *)
Definition dom_secp256r1 : ec_domain := {| ed_c := secp256r1; ed_plen := 32; ed_G := G_secp256r1 |}.
Definition dom_secp384r1 : ec_domain := {| ed_c := secp384r1; ed_plen := 48; ed_G := G_secp384r1 |}.
Definition dom_SM2 : ec_domain := {| ed_c := curveSM2; ed_plen := 32; ed_G := G_SM2 |}.
