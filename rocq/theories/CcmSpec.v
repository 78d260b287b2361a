(** Specification: CCM (SP 800-38C with the formatting and counter functions of its Appendix A). *)
From Verif Require Import Base HashSpec GcmSpec.

(** A.2.1: the first block; q = 15 - |N|, Q the payload length in q octets *)
Definition ccm_B0 (tlen : nat) (N : list Z) (alen plen : nat) : list Z :=
  let q := (15 - length N)%nat in
  [(if (alen =? 0)%nat then 0 else 64) + 8 * ((Z.of_nat tlen - 2) / 2) + (Z.of_nat q - 1)] ++ N ++ be_bytes q (Z.of_nat plen).
(** A.2.2: encoding of the associated data length *)
Definition ccm_alen (a : Z) : list Z :=
  if a =? 0 then []
  else if a <? 2 ^ 16 - 2 ^ 8 then be_bytes 2 a
  else if a <? 2 ^ 32 then [0xFF; 0xFE] ++ be_bytes 4 a
  else [0xFF; 0xFF] ++ be_bytes 8 a.
(** A.2: the formatted input *)
Definition ccm_B (tlen : nat) (N A P : list Z) : list Z :=
  ccm_B0 tlen N (length A) (length P) ++ pad16 (ccm_alen (Z.of_nat (length A)) ++ A) ++ pad16 P.
(** 6.1: CBC-MAC *)
Definition cbc_mac (E : list Z -> list Z) (X : list Z) : list Z :=
  fold_left (fun Y B => E (xorb_list B Y)) (blocks 16 X) (repeat 0 16).
(** A.3: counter blocks *)
Definition ccm_ctr (N : list Z) (i : nat) : list Z :=
  let q := (15 - length N)%nat in [Z.of_nat q - 1] ++ N ++ be_bytes q (Z.of_nat i).
(** 6.1: ciphertext and tag *)
Definition ccm_C (E : list Z -> list Z) (N P : list Z) : list Z :=
  xorb_list P (concat (map (fun i => E (ccm_ctr N (i + 1))) (seq 0 ((length P + 15) / 16)))).
Definition ccm_T (E : list Z -> list Z) (tlen : nat) (N A P : list Z) : list Z :=
  firstn tlen (xorb_list (cbc_mac E (ccm_B tlen N A P)) (E (ccm_ctr N 0))).
(** parameters both sides must accept: 5.2, 5.3, A.1 *)
Definition ccm_params (tlen : nat) (N : list Z) (plen : nat) : Prop :=
  (7 <= length N <= 13)%nat /\ (tlen = 4 \/ tlen = 6 \/ tlen = 8 \/ tlen = 10 \/ tlen = 12 \/ tlen = 14 \/ tlen = 16)%nat /\
  Z.of_nat plen < 2 ^ (8 * Z.of_nat (15 - length N)).
