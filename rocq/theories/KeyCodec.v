(** Model of the private-key octets of the curve-based schemes: src/3-ecc-common/ecc-common.c:173-199 (ECDSA, SM2 and
    ECDH-KEM delegate to it: ecdsa.c:38-68, sm2sig.c:93-120, ecdh-kem.c), src/3-rfc-7748,8032/eddsa.c:35-70 and
    rfc-7748.c:65-98.  Contexts are represented by the key registers that are written; [None] is the return value -1. *)
From Verif Require Import Base Vlong EcMod EcpXyz Der Ecc EcEd EdDsa EcMt.

(** ecc-common.c:173-185, ECC_Encode_PrivateKey with enc not NULL (otherwise plen is returned) *)
Definition ECC_Encode_PrivateKey (D : ec_domain) (d : list Z) (enclen : nat) : option (list Z) :=
  if negb (Nat.eqb enclen (ed_plen D)) then None else Some (vlong_I2OSP d (ed_plen D)).
(** ecc-common.c:187-199, ECC_Decode_PrivateKey *)
Definition ECC_Decode_PrivateKey (D : ec_domain) (enc : list Z) : option (list Z * ecp_xyz) := ecc_dec_privkey D enc.

(** eddsa.c:35-49, EdDSA_Encode_PrivateKey: x->sk is copied *)
Definition EdDSA_Encode_PrivateKey (D : eddsa_params) (sk : list Z) (enclen : nat) : option (list Z) :=
  if negb (Nat.eqb enclen (plen D)) then None else Some (map (fun i => nthZ i sk) (seq 0 enclen)).
(** eddsa.c:51-70, EdDSA_Decode_PrivateKey: x->sk (its first plen octets), and what eddsa_privkey_reload derives *)
Definition EdDSA_Decode_PrivateKey (D : eddsa_params) (hash : list Z -> nat -> list Z) (enc : list Z) : option (list Z * eddsa_key) :=
  if negb (Nat.eqb (length enc) (plen D)) then None
  else let sk := map (fun i => nthZ i enc) (seq 0 (length enc)) in Some (sk, eddsa_privkey_reload D hash sk).

(** rfc-7748.c:65-76, XECDH_Encode_PrivateKey *)
Definition XECDH_Encode_PrivateKey (c : mt_curve) (k : list Z) (enclen : nat) : option (list Z) :=
  if negb (Nat.eqb enclen (mt_sslen c)) then None else Some (vlong_EncLSB k enclen).
(** rfc-7748.c:78-98, XECDH_Decode_PrivateKey (stubprng delivers enc) *)
Definition XECDH_Decode_PrivateKey (c : mt_curve) (enc : list Z) : option (list Z * list Z) :=
  if negb (Nat.eqb (length enc) (mt_sslen c)) then None else Some (XECDH_Keygen c enc).
