(** Specification of SEC 1, 2.3.3, point-to-octet-string conversion, independent of the code. *)
From Coq Require Import ZArith List.
From Verif Require Import Base.
Open Scope Z_scope.

(** enc is the uncompressed, or the compressed, encoding of the affine point (x, y) in l octets per coordinate. *)
Definition sec1_octets (l : nat) (enc : list Z) (x y : Z) : Prop :=
  0 <= x < 2 ^ (8 * Z.of_nat l) /\ 0 <= y < 2 ^ (8 * Z.of_nat l) /\
  (enc = 4 :: be_bytes l x ++ be_bytes l y \/ enc = (2 + y mod 2) :: be_bytes l x).
