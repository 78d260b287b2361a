(** Specification of RSASSA-PSS and RSASSA-PKCS1-v1_5 (RFC 8017), independent of the model. *)
From Verif Require Import Base.

Definition ceil_div (a b : nat) : nat := (a + b - 1) / b.

(** B.2.1 MGF1: T = Hash(seed || I2OSP(0,4)) || Hash(seed || I2OSP(1,4)) || ... cut to len octets. *)
Definition rfc_mgf1 (H : list Z -> list Z) (hLen : nat) (seed : list Z) (len : nat) : list Z :=
  firstn len (concat (map (fun c => H (seed ++ be_bytes 4 (Z.of_nat c))) (seq 0 (ceil_div len hLen)))).

(** Set the leftmost 8*emLen - emBits bits of the leftmost octet to zero. *)
Definition clear_top (emLen emBits : nat) (db : list Z) : list Z :=
  match db with [] => [] | b :: r => (b mod 2 ^ (8 - (8 * Z.of_nat emLen - Z.of_nat emBits))) :: r end.

(** 9.1.1 EMSA-PSS-ENCODE, steps 5 to 12, for a given mHash and salt. *)
Definition emsa_pss (H : list Z -> list Z) (mgf : list Z -> nat -> list Z) (emBits : nat) (mHash salt : list Z) : list Z :=
  let emLen := ceil_div emBits 8 in
  let hLen := length mHash in
  let h := H (repeat 0 8 ++ mHash ++ salt) in
  let db := repeat 0 (emLen - length salt - hLen - 2) ++ [1] ++ salt in
  clear_top emLen emBits (xorb_list db (mgf h (emLen - hLen - 1)%nat)) ++ h ++ [0xbc].

(** 8.1.2 RSASSA-PSS-VERIFY with public key (n, e): the signature representative s is in
    range and the EM it decrypts to is an EMSA-PSS encoding of mHash with some salt of
    sLen octets (9.1.2 is the decision procedure for that). *)
Definition pss_signature_ok (H : list Z -> list Z) (mgf : list Z -> nat -> list Z) (n e : Z) (modBits sLen : nat)
    (mHash : list Z) (s : Z) : Prop :=
  0 <= s < n /\
  (length mHash + sLen + 2 <= ceil_div (modBits - 1) 8)%nat /\
  exists salt, length salt = sLen /\ bytes_ok salt /\
    s ^ e mod n = be_val (emsa_pss H mgf (modBits - 1) mHash salt).

(** 9.2 EMSA-PKCS1-v1_5 with T = DigestInfo || digest; needs emLen >= length T + 11. *)
Definition emsa_v15 (emLen : nat) (T : list Z) : list Z :=
  [0; 1] ++ repeat 0xff (emLen - length T - 3) ++ [0] ++ T.
(** 8.2.2 RSASSA-PKCS1-V1_5-VERIFY; emLen = k = modulus length in octets. *)
Definition v15_signature_ok (n e : Z) (modBits : nat) (T : list Z) (s : Z) : Prop :=
  0 <= s < n /\ (length T + 11 <= ceil_div modBits 8)%nat /\
  s ^ e mod n = be_val (emsa_v15 (ceil_div modBits 8) T).
