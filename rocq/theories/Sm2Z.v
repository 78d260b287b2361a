(** Model of sm2sig_setZ (src/3-sm2/sm2sig.c:13-63): the octets given to updatefunc, in order, and the digest stored in
    x->uinfo.  The hash is a function of all octets it was updated with (the streaming interfaces of the hashes: C01-C06). *)
From Verif Require Import Base Vlong EcpXyz Der Ecc.

(** sm2sig.c:28-31: idlen has come in as uint16_t (callers pass a size_t: sm2sig.c:595, 632) *)
Definition setZ_entl (idlen : Z) : list Z := [u8 (Z.shiftr (idlen * 8) 8); u8 (idlen * 8)].

(** sm2sig.c:33-37: a, in a register *)
Definition setZ_a (D : ec_domain) : list Z :=
  let c := ed_c D in
  let vl := if 0 <=? cv_a c then map (fun _ => 0) (seq 0 (cv_w c)) else vlong_cpy (cv_w c) (cv_p c) in
  vlong_adds (cv_w c) vl (cv_a c) 0.

(** sm2sig.c:27-57, the calls of updatefunc *)
Definition setZ_updates (D : ec_domain) (Q : ecp_xyz) (id : list Z) : list (list Z) :=
  let idlen := Z.of_nat (length id) mod 2 ^ 16 in
  let plen := ed_plen D in
  [ setZ_entl idlen; firstn (Z.to_nat idlen) id;
    vlong_I2OSP (setZ_a D) plen; vlong_I2OSP (cv_b (ed_c D)) plen;
    vlong_I2OSP (px (ed_G D)) plen; vlong_I2OSP (py (ed_G D)) plen;
    vlong_I2OSP (px Q) plen; vlong_I2OSP (py Q) plen ].

(** sm2sig.c:13-63, sm2sig_setZ; also SM2SIG_set_signer_id of SM2SIG_Sign_Xctrl and SM2SIG_Verify_Xctrl
    (sm2sig.c:582-602, 619-639): what becomes of x->uinfo *)
Definition sm2sig_setZ (D : ec_domain) (hash : list Z -> list Z) (Q : ecp_xyz) (id : list Z) : list Z :=
  hash (concat (setZ_updates D Q id)).
