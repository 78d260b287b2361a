(** Specification of EdDSA after RFC 8032, independent of the code: numbers, octet strings and the
    affine Edwards group of EdSpec. *)
From Coq Require Import ZArith Znumtheory List.
From Verif Require Import Base EcSpec EdSpec.
Import ListNotations.
Open Scope Z_scope.

(** The parameters of RFC 8032 sections 5.1 and 5.2: the field, the curve a x^2 + y^2 = 1 + (d1/d2) x^2 y^2,
    the base point, the order, b/8 (octets of an encoded point), the cofactor's exponent c and the exponent n
    of the scalar's highest bit, the string of dom2 or dom4. *)
Record rfc8032_curve : Type := {
  rc_p : Z; rc_a : Z; rc_d1 : Z; rc_d2 : Z; rc_B : epoint; rc_L : Z; rc_b : nat; rc_c : Z; rc_n : Z; rc_dom : list Z; rc_plain : bool }.
Definition rfc_Ed25519 : rfc8032_curve :=
  {| rc_p := 2 ^ 255 - 19; rc_a := -1; rc_d1 := -121665; rc_d2 := 121666;
     rc_B := (15112221349535400772501151409588531511454012693041857206046113283949847762202,
              46316835694926478169428394003475163141307993866256225615783033603165251855960);
     rc_L := 2 ^ 252 + 27742317777372353535851937790883648493; rc_b := 32; rc_c := 3; rc_n := 254;
     rc_dom := [83; 105; 103; 69; 100; 50; 53; 53; 49; 57; 32; 110; 111; 32; 69; 100; 50; 53; 53; 49; 57; 32; 99; 111; 108; 108; 105; 115; 105; 111; 110; 115];
     rc_plain := true |}.
Definition rfc_Ed448 : rfc8032_curve :=
  {| rc_p := 2 ^ 448 - 2 ^ 224 - 1; rc_a := 1; rc_d1 := -39081; rc_d2 := 1;
     rc_B := (224580040295924300187604334099896036246789641632564134246125461686950415467406032909029192869357953282578032075146446173674602635247710,
              298819210078481492676017930443930673437544040154080242095928241372331506189835876003536878655418784733982303233503462500531545062832660);
     rc_L := 2 ^ 446 - 13818066809895115352007386748515426880336692474882178609894547503885; rc_b := 57; rc_c := 2; rc_n := 447;
     rc_dom := [83; 105; 103; 69; 100; 52; 52; 56]; rc_plain := false |}.

Section Spec.
  Variable C : rfc8032_curve.
  Variable H : list Z -> nat -> list Z.
  Local Notation p := (rc_p C).
  Local Notation b := (rc_b C).
  Definition rfc_on (P : epoint) : Prop := ed_on p (rc_a C) (rc_d1 C) (rc_d2 C) P.
  Definition rfc_sum (P Q R : epoint) : Prop := ed_add p (rc_a C) (rc_d1 C) (rc_d2 C) P Q R.
  Definition rfc_times (k : Z) (P R : epoint) : Prop := ed_mul p (rc_a C) (rc_d1 C) (rc_d2 C) P (Z.to_nat k) R.
  (** 5.1.2, 5.2.2: y as b little-endian octets, the low bit of x as the most significant bit of the last one. *)
  Definition rfc_enc (P : epoint) : list Z :=
    le_bytes b (snd P mod p + 2 ^ (8 * Z.of_nat b - 1) * ((fst P mod p) mod 2)).
  (** 5.1.5, 5.2.5: the secret scalar from the first half of the digest: bits 0..c-1 cleared, bit n set, the higher ones cleared. *)
  Definition rfc_scalar (h : list Z) : Z :=
    2 ^ rc_n C + 2 ^ rc_c C * ((le_val (firstn b h) mod 2 ^ rc_n C) / 2 ^ rc_c C).
  (** dom2, dom4; nothing for plain Ed25519. *)
  Definition rfc_domain (F : Z) (ctx : list Z) : list Z :=
    match rc_plain C, F =? 0, ctx with
    | true, true, [] => []
    | _, _, _ => rc_dom C ++ F :: Z.of_nat (length ctx) :: ctx
    end.
  (** k, from the encodings of A and R. *)
  Definition rfc_k (encA encR : list Z) (F : Z) (ctx M : list Z) : Z :=
    le_val (H (rfc_domain F ctx ++ encR ++ encA ++ M) (2 * b)) mod rc_L C.
  Definition rfc_r (sk : list Z) (F : Z) (ctx M : list Z) : Z :=
    le_val (H (rfc_domain F ctx ++ firstn b (skipn b (H sk (2 * b)%nat)) ++ M) (2 * b)) mod rc_L C.
  Definition rfc_s (sk : list Z) : Z := rfc_scalar (H sk (2 * b)%nat).
  (** 5.1.6, 5.2.6: S and the signature of M (PH(M) when F = 1), PA and PR being the points [s]B and [r]B. *)
  Definition rfc_S (PA PR : epoint) (sk : list Z) (F : Z) (ctx M : list Z) : Z :=
    (rfc_r sk F ctx M + rfc_k (rfc_enc PA) (rfc_enc PR) F ctx M * rfc_s sk) mod rc_L C.
  Definition rfc_signature (PA PR : epoint) (sk : list Z) (F : Z) (ctx M : list Z) : list Z :=
    rfc_enc PR ++ le_bytes b (rfc_S PA PR sk F ctx M).
  (** 5.1.7, 5.2.7: [S]B = R + [k]A. *)
  Definition rfc_equation (PA PR : epoint) (s k : Z) : Prop :=
    exists SB kA T, rfc_times s (rc_B C) SB /\ rfc_times k PA kA /\ rfc_sum PR kA T /\ ept_eq p SB T.
  (** 5.1.3, 5.2.3: the octets' integer without its top bit is y, below p; the top bit is the low bit of x. *)
  Definition canonical_y (enc : list Z) : Prop := le_val enc mod 2 ^ (8 * Z.of_nat b - 1) < p.
  Definition rfc_decodes (enc : list Z) (P : epoint) : Prop :=
    rfc_on P /\ 0 <= fst P < p /\ 0 <= snd P < p /\ snd P = le_val enc mod 2 ^ (8 * Z.of_nat b - 1) /\
    (fst P mod 2 = le_val enc / 2 ^ (8 * Z.of_nat b - 1) \/ fst P = 0).
  (** Neither coordinate is zero: not one of the four points of order 1, 2 and 4. *)
  Definition generic (P : epoint) : Prop := ~ eqm p (fst P) 0 /\ ~ eqm p (snd P) 0.
  (** The base point has the prime order L. *)
  Definition rfc_order : Prop := prime (rc_L C) /\ exists Z0, rfc_times (rc_L C) (rc_B C) Z0 /\ ept_eq p Z0 (0, 1).
End Spec.
