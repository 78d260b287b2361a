(** Model of src/3-rfc-7748,8032/eddsa.c and eddsa-misc.c. *)
From Verif Require Import Base Vlong EcMod EcpXyz EcEd Der EcMt.

(** The curve's definition as EdDSA uses it (ecEd.h:31-42): the arithmetic parameters, pbits, the base point. *)
Record eddsa_params : Type := { dp_c : ed_curve; dp_bits : nat; dp_B : ed_xytz }.
(** curve-Ed25519.c:55-64, curve-Ed448.c:79-88 *)
Definition dp_25519 : eddsa_params := {| dp_c := CurveEd25519; dp_bits := 255; dp_B := B_Ed25519 |}.
Definition dp_448 : eddsa_params := {| dp_c := CurveEd448; dp_bits := 448; dp_B := B_Ed448 |}.

(** eddsa-misc.c:175-185, po2_25519 *)
Definition po2_25519 : list Z := [0x4a0ea0b0; 0xc4ee1b27; 0xad2fe478; 0x2f431806; 0x3dfbd7a7; 0x2b4d0099; 0x4fc1df0b; 0x2b832480].

Section Params.
  Variable D : eddsa_params.
  (** The hash calls Init, Update..., XFinal, Final(n) as a function of the concatenation of the updates;
      the histories themselves are C01-C09 and C12. *)
  Variable hash : list Z -> nat -> list Z.
  Local Notation c := (dp_c D).
  Local Notation n := (ed_w (dp_c D)).
  Local Notation p := (ed_p (dp_c D)).
  Local Notation g := (ed_g (dp_c D)).
  Local Notation L := (ed_L (dp_c D)).
  Local Notation pbits := (dp_bits D).
  Local Notation mul a b := (fst (vlong_mulv_masked n a b 1 (Some g))).
  Local Notation imod a := (ecp_imod_inplace g p a).
  Local Notation cpy a := (vlong_cpy n a).
  (** "(pbits + 8) / 8" throughout eddsa.c, "(pbits + 7) / 8" in eddsa-misc.c *)
  Definition plen : nat := (pbits + 8) / 8.
  Definition pbytes : nat := (pbits + 7) / 8.
  (** eddsa-misc.c:11-19 *)
  Definition cond_p25519 : bool := (pbits =? 255)%nat && (ed_over c =? -121665) && (ed_under c =? 121666).
  Definition cond_p448 : bool := (pbits =? 448)%nat && (ed_over c =? -39081) && (ed_under c =? 1).

  (** eddsa-misc.c:111-151, eddsa_canon_pubkey. *)
  Definition eddsa_canon_pubkey (Q : ed_xytz) : ed_xytz :=
    let s := vlong_modexpv_shiftadded n (ez Q) g p (-2) 0 in
    let u := mul (ex Q) s in
    let v := mul (ey Q) s in
    let w := mul (et Q) s in
    {| ex := cpy u; ey := cpy v; et := cpy w; ez := cpy [1] |}.

  (** eddsa-misc.c:153-173, eddsa_point_enc.  For pbits = 448 octet 56 of the buffer is not written before
      it is masked with 0; it is modelled as 0 from the start. *)
  Definition eddsa_point_enc (Q : ed_xytz) : list Z :=
    let buf := vlong_EncLSB (ey Q) pbytes ++ repeat 0 (plen - pbytes) in
    let buf := upd (pbits / 8) (Z.land (nthZ (pbits / 8) buf) (Z.shiftl 1 (Z.of_nat (pbits mod 8)) - 1)) buf in
    let par := Z.land (nthZ 0 (ex Q)) 1 in
    upd (pbits / 8) (Z.lor (nthZ (pbits / 8) buf) (Z.shiftl par 7)) buf.

  (** eddsa-misc.c:187-262, getx_p25519. *)
  Definition getx_p25519 (y : list Z) : option (list Z) :=
    let u := mul y y in
    let v := cpy u in
    let u := vlong_adds n u (-1) 0 in
    let u := vlong_imuls u u (ed_under c) false in
    let v := vlong_imuls v v (ed_over c) false in
    let v := vlong_adds n v (ed_under c) 0 in
    let u := imod u in
    let v := imod v in
    let r := mul v v in
    let s := mul r v in
    let a := cpy s in
    let r := mul s s in
    let s := mul r v in
    let r := mul s u in
    let s := vlong_modexpv_shiftadded n r g p (-5) 3 in
    let r := mul s a in
    let x := mul r u in
    let w := mul x x in
    let r := mul v w in
    if vlong_cmpv_shifted r u 0 =? 0 then Some x
    else
      let r := vlong_subv n p r in
      if vlong_cmpv_shifted r u 0 =? 0 then Some (cpy (mul x po2_25519)) else None.

  (** eddsa-misc.c:264-334, getx_p448. *)
  Definition getx_p448 (y : list Z) : option (list Z) :=
    let u := mul y y in
    let v := cpy u in
    let u := vlong_adds n u (-1) 0 in
    let u := vlong_imuls u u (ed_under c) false in
    let v := vlong_imuls v v (ed_over c) false in
    let v := vlong_adds n v (- ed_under c) 0 in
    let u := imod u in
    let v := imod v in
    let r := mul v v in
    let s := mul r v in
    let a := mul u u in
    let r := mul a a in
    let w := mul r u in
    let r := mul w s in
    let s := vlong_modexpv_shiftadded n r g p (-3) 2 in
    let r := mul s a in
    let s := mul r u in
    let x := mul s v in
    let w := mul x x in
    let r := mul v w in
    if vlong_cmpv_shifted r u 0 =? 0 then Some x else None.

  (** eddsa-misc.c:336-387, eddsa_point_dec.  "(1 << (pbits % 32)) - 1" is evaluated as unsigned. *)
  Definition eddsa_point_dec (buf : list Z) : option ed_xytz :=
    let par := Z.land (Z.shiftr (nthZ (pbits / 8) buf) 7) 1 in
    let y := vlong_DecLSB n (firstn pbytes buf) in
    let y := upd (pbits / 32) (Z.land (nthZ (pbits / 32) y) (Z.shiftl 1 (Z.of_nat (pbits mod 32)) - 1)) y in
    match (if cond_p25519 then getx_p25519 y else if cond_p448 then getx_p448 y else None) with
    | None => None
    | Some x =>
        if forallb (Z.eqb 0) x && (par =? 1) then None
        else
          let x := if Z.lxor (Z.land 1 (nthZ 0 x)) par =? 0 then x else vlong_subv n p x in
          Some {| ex := x; ey := y; et := mul x y; ez := cpy [1] |}
    end.

  (** eddsa-misc.c:48-94, eddsa_privkey_reload on the octets of the private key: (s, prefix, A). *)
  Definition eddsa_clamp (buf : list Z) : list Z :=
    if cond_p25519 then
      let buf := upd 0 (Z.land (nthZ 0 buf) 0xf8) buf in
      upd 31 (Z.lor 0x40 (Z.land (nthZ 31 buf) 0x7f)) buf
    else if cond_p448 then
      let buf := upd 0 (Z.land (nthZ 0 buf) 0xfc) buf in
      let buf := upd 55 (Z.lor (nthZ 55 buf) 0x80) buf in
      upd 56 0 buf
    else buf.
  Record eddsa_key : Type := { ek_s : list Z; ek_prefix : list Z; ek_A : ed_xytz }.
  Definition eddsa_privkey_reload (sk : list Z) : eddsa_key :=
    let buf := eddsa_clamp (hash sk (plen * 2)) in
    let s := vlong_DecLSB n (firstn plen buf) in
    {| ek_s := s; ek_prefix := firstn plen (skipn plen buf);
       ek_A := eddsa_canon_pubkey (ecEd_point_scale_accumulate c (ecEd_xytz_inf c) (dp_B D) s) |}.

  (** eddsa.c:8-9, the domain strings. *)
  Definition DomStr25519 : list Z :=
    [83; 105; 103; 69; 100; 50; 53; 53; 49; 57; 32; 110; 111; 32; 69; 100; 50; 53; 53; 49; 57; 32; 99; 111; 108; 108; 105; 115; 105; 111; 110; 115].
  Definition DomStr448 : list Z := [83; 105; 103; 69; 100; 52; 52; 56].
  (** eddsa.c:200-212, 247-259, 383-395: the updates for dom(F, C); ctxstr without its length octet. *)
  Definition eddsa_dom (flags : Z) (ctxstr : list Z) : list Z :=
    if negb (plen =? 32)%nat || (0 <? Z.of_nat (length ctxstr)) || negb (flags =? 0) then
      (if (plen =? 32)%nat then DomStr25519 else DomStr448) ++ [flags] ++ (Z.of_nat (length ctxstr) :: ctxstr)
    else [].
  (** eddsa.c:222-225 and 271-273, 408-410: a digest of 2 plen octets reduced modulo the order. *)
  Definition eddsa_mod_L (digest : list Z) : list Z := cpy (fst (vlong_remv_inplace (vlong_DecLSB 32 digest) L)).

  (** eddsa.c:170-297, RFC8032_Sign: (R, S). *)
  Definition RFC8032_Sign (K : eddsa_key) (flags : Z) (ctxstr em : list Z) : ed_xytz * list Z :=
    let r := eddsa_mod_L (hash (eddsa_dom flags ctxstr ++ ek_prefix K ++ em) (plen * 2)) in
    let R := ecEd_point_scale_accumulate c (ecEd_xytz_inf c) (dp_B D) r in
    let R := eddsa_canon_pubkey R in
    let k := eddsa_mod_L (hash (eddsa_dom flags ctxstr ++ eddsa_point_enc R ++ eddsa_point_enc (ek_A K) ++ em) (plen * 2)) in
    let w := fst (vlong_mulv_masked n k (ek_s K) 1 (Some (fun v => vlong_remv_inplace v L))) in
    let s := fst (vlong_remv_inplace (vlong_addv n r w) L) in
    (R, s).
  (** eddsa.c:121-128, EdDSA_Sign, and 142-157, EdDSA_IncSign_Final. *)
  Definition EdDSA_Sign (K : eddsa_key) (ctxstr msg : list Z) : ed_xytz * list Z := RFC8032_Sign K 0 ctxstr msg.
  Definition EdDSA_IncSign (K : eddsa_key) (ctxstr msg : list Z) : ed_xytz * list Z := RFC8032_Sign K 1 ctxstr (hash msg 64).

  (** eddsa.c:461-484, EdDSA_Encode_Signature. *)
  Definition EdDSA_Encode_Signature (sg : ed_xytz * list Z) : list Z := eddsa_point_enc (fst sg) ++ vlong_EncLSB (snd sg) plen.
  (** eddsa.c:517-558, EdDSA_Decode_Signature: None is the NULL return (status -1). *)
  Definition EdDSA_Decode_Signature (sig : list Z) : option (ed_xytz * list Z) :=
    if negb (plen * 2 =? length sig)%nat then None
    else match eddsa_point_dec (firstn plen sig) with
         | None => None
         | Some R => let r := vlong_DecLSB n (firstn plen (skipn plen sig)) in
                     if vlong_cmpv_shifted r L 0 =? 2 then Some (R, r) else None
         end.
  (** eddsa.c:71-84 and 88-109, EdDSA_Encode_PublicKey and EdDSA_Decode_PublicKey (right length). *)
  Definition EdDSA_Encode_PublicKey (A : ed_xytz) : list Z := eddsa_point_enc A.
  Definition EdDSA_Decode_PublicKey (enc : list Z) : option ed_xytz :=
    if negb (plen =? length enc)%nat then None else eddsa_point_dec enc.

  (** eddsa.c:358-455, RFC8032_Verify. *)
  Definition RFC8032_Verify (A R : ed_xytz) (S : list Z) (flags : Z) (ctxstr em : list Z) : bool :=
    let k := eddsa_mod_L (hash (eddsa_dom flags ctxstr ++ eddsa_point_enc R ++ eddsa_point_enc A ++ em) (plen * 2)) in
    let R := ecEd_point_scale_accumulate c R A k in
    let sk := eddsa_point_enc (eddsa_canon_pubkey R) in
    let R := ecEd_point_scale_accumulate c (ecEd_xytz_inf c) (dp_B D) S in
    let prefix := eddsa_point_enc (eddsa_canon_pubkey R) in
    fold_left Z.lor (map (fun i => Z.lxor (nthZ i sk) (nthZ i prefix)) (seq 0 plen)) 0 =? 0.

  (** The context as Verify sees it: the decoded key, the decoded signature, the status. *)
  Record eddsa_ctx : Type := { dx_A : ed_xytz; dx_R : ed_xytz; dx_S : list Z; dx_status : Z }.
  (** eddsa.c:306-316, EdDSA_Verify: whether msg (not NULL) is returned, and the new status.
      (R, S and the key buffers are overwritten too; a later call answers from the status alone.) *)
  Definition EdDSA_Verify (x : eddsa_ctx) (ctxstr msg : list Z) : bool * eddsa_ctx :=
    if dx_status x =? 1 then (true, x)
    else if dx_status x =? -1 then (false, x)
    else let ok := RFC8032_Verify (dx_A x) (dx_R x) (dx_S x) 0 ctxstr msg in
         (ok, {| dx_A := dx_A x; dx_R := dx_R x; dx_S := dx_S x; dx_status := if ok then 1 else -1 |}).
  (** Decode_Signature followed by nothing else: status 0 or -1. *)
  Definition eddsa_load (A : ed_xytz) (sig : list Z) : eddsa_ctx :=
    match EdDSA_Decode_Signature sig with
    | Some (R, s) => {| dx_A := A; dx_R := R; dx_S := s; dx_status := 0 |}
    | None => {| dx_A := A; dx_R := A; dx_S := []; dx_status := -1 |}
    end.
End Params.
