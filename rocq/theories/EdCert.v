(** Polynomial identities behind the Edwards group law (certificates found by
    pseudo-division by (1 - d x^2) y^2 - (1 - a x^2)). *)
From Coq Require Import ZArith.
Open Scope Z_scope.

Definition edN (x1 y1 x2 y2 : Z) := x1 * y2 + x2 * y1.
Definition edM (a x1 y1 x2 y2 : Z) := y1 * y2 - a * (x1 * x2).
Definition edP (d x1 y1 x2 y2 : Z) := 1 + d * (x1 * x2 * (y1 * y2)).
Definition edQ (d x1 y1 x2 y2 : Z) := 1 - d * (x1 * x2 * (y1 * y2)).
Lemma ed_closure a d x1 y1 x2 y2 :
  (1 - d * x1 * x1) * (1 - d * x1 * x1) * (1 - d * x2 * x2) * (1 - d * x2 * x2) * (a * ((edN x1 y1 x2 y2) * (edN x1 y1 x2 y2)) * ((edQ d x1 y1 x2 y2) * (edQ d x1 y1 x2 y2)) + (edM a x1 y1 x2 y2) * (edM a x1 y1 x2 y2) * ((edP d x1 y1 x2 y2) * (edP d x1 y1 x2 y2)) - (edP d x1 y1 x2 y2) * (edQ d x1 y1 x2 y2) * ((edP d x1 y1 x2 y2) * (edQ d x1 y1 x2 y2)) - d * ((edN x1 y1 x2 y2) * (edN x1 y1 x2 y2) * ((edM a x1 y1 x2 y2) * (edM a x1 y1 x2 y2)))) =
  (y2 * y2 + x2 * x2 * a - x2 * x2 * y2 * y2 * d - y1 * y1 * x2 * x2 * y2 * y2 * d - x1 * x1 * y2 * y2 * d - x1 * x1 * y2 * y2 * y2 * y2 * d - x1 * x1 * x2 * x2 * a * d + 2 * x1 * x1 * x2 * x2 * y2 * y2 * d * d - 3 * x1 * x1 * x2 * x2 * y2 * y2 * a * d + x1 * x1 * x2 * x2 * y2 * y2 * y2 * y2 * d * d - x1 * x1 * x2 * x2 * x2 * x2 * a * a * d + x1 * x1 * x2 * x2 * x2 * x2 * y2 * y2 * a * d * d + x1 * x1 * y1 * y1 * x2 * x2 * y2 * y2 * d * d + x1 * x1 * y1 * y1 * x2 * x2 * y2 * y2 * y2 * y2 * d * d + x1 * x1 * y1 * y1 * x2 * x2 * x2 * x2 * y2 * y2 * a * d * d + x1 * x1 * x1 * x1 * y2 * y2 * y2 * y2 * d * d - 2 * x1 * x1 * x1 * x1 * x2 * x2 * y2 * y2 * d * d * d + 4 * x1 * x1 * x1 * x1 * x2 * x2 * y2 * y2 * a * d * d + x1 * x1 * x1 * x1 * x2 * x2 * x2 * x2 * a * a * d * d - x1 * x1 * x1 * x1 * x2 * x2 * x2 * x2 * y2 * y2 * y2 * y2 * d * d * d * d - x1 * x1 * x1 * x1 * y1 * y1 * x2 * x2 * y2 * y2 * y2 * y2 * d * d * d - x1 * x1 * x1 * x1 * y1 * y1 * x2 * x2 * x2 * x2 * y2 * y2 * a * d * d * d - x1 * x1 * x1 * x1 * y1 * y1 * x2 * x2 * x2 * x2 * y2 * y2 * y2 * y2 * d * d * d * d - x1 * x1 * x1 * x1 * x1 * x1 * x2 * x2 * y2 * y2 * y2 * y2 * a * d * d * d - x1 * x1 * x1 * x1 * x1 * x1 * x2 * x2 * x2 * x2 * y2 * y2 * a * a * d * d * d + x1 * x1 * x1 * x1 * x1 * x1 * x2 * x2 * x2 * x2 * y2 * y2 * y2 * y2 * a * d * d * d * d + x1 * x1 * x1 * x1 * x1 * x1 * y1 * y1 * x2 * x2 * x2 * x2 * y2 * y2 * y2 * y2 * d * d * d * d * d) * (1 - d * x2 * x2) * (1 - d * x2 * x2) * ((1 - d * x1 * x1) * (y1 * y1) - (1 - a * x1 * x1))
  + (1 - 2 * x2 * x2 * d + x2 * x2 * x2 * x2 * d * d - 2 * x1 * x1 * d - x1 * x1 * y2 * y2 * d + 4 * x1 * x1 * x2 * x2 * d * d - x1 * x1 * x2 * x2 * a * d + 2 * x1 * x1 * x2 * x2 * y2 * y2 * d * d - 2 * x1 * x1 * x2 * x2 * x2 * x2 * d * d * d + 2 * x1 * x1 * x2 * x2 * x2 * x2 * a * d * d - x1 * x1 * x2 * x2 * x2 * x2 * y2 * y2 * d * d * d - x1 * x1 * x2 * x2 * x2 * x2 * x2 * x2 * a * d * d * d + x1 * x1 * x1 * x1 * d * d + x1 * x1 * x1 * x1 * y2 * y2 * d * d + x1 * x1 * x1 * x1 * y2 * y2 * a * d - 2 * x1 * x1 * x1 * x1 * x2 * x2 * d * d * d + x1 * x1 * x1 * x1 * x2 * x2 * a * d * d + x1 * x1 * x1 * x1 * x2 * x2 * a * a * d - x1 * x1 * x1 * x1 * x2 * x2 * y2 * y2 * d * d * d - 2 * x1 * x1 * x1 * x1 * x2 * x2 * y2 * y2 * a * d * d + x1 * x1 * x1 * x1 * x2 * x2 * x2 * x2 * d * d * d * d - 2 * x1 * x1 * x1 * x1 * x2 * x2 * x2 * x2 * a * d * d * d - 2 * x1 * x1 * x1 * x1 * x2 * x2 * x2 * x2 * a * a * d * d - x1 * x1 * x1 * x1 * x2 * x2 * x2 * x2 * y2 * y2 * d * d * d * d + x1 * x1 * x1 * x1 * x2 * x2 * x2 * x2 * y2 * y2 * a * d * d * d + x1 * x1 * x1 * x1 * x2 * x2 * x2 * x2 * x2 * x2 * a * d * d * d * d + x1 * x1 * x1 * x1 * x2 * x2 * x2 * x2 * x2 * x2 * a * a * d * d * d + x1 * x1 * x1 * x1 * x2 * x2 * x2 * x2 * x2 * x2 * y2 * y2 * d * d * d * d * d - x1 * x1 * x1 * x1 * x1 * x1 * y2 * y2 * a * d * d - x1 * x1 * x1 * x1 * x1 * x1 * x2 * x2 * a * a * d * d + 2 * x1 * x1 * x1 * x1 * x1 * x1 * x2 * x2 * x2 * x2 * a * a * d * d * d + 3 * x1 * x1 * x1 * x1 * x1 * x1 * x2 * x2 * x2 * x2 * y2 * y2 * a * d * d * d * d - x1 * x1 * x1 * x1 * x1 * x1 * x2 * x2 * x2 * x2 * x2 * x2 * a * a * d * d * d * d - 2 * x1 * x1 * x1 * x1 * x1 * x1 * x2 * x2 * x2 * x2 * x2 * x2 * y2 * y2 * a * d * d * d * d * d + x1 * x1 * x1 * x1 * x1 * x1 * x1 * x1 * x2 * x2 * y2 * y2 * a * a * d * d * d - 2 * x1 * x1 * x1 * x1 * x1 * x1 * x1 * x1 * x2 * x2 * x2 * x2 * y2 * y2 * a * a * d * d * d * d + x1 * x1 * x1 * x1 * x1 * x1 * x1 * x1 * x2 * x2 * x2 * x2 * x2 * x2 * y2 * y2 * a * a * d * d * d * d * d) * ((1 - d * x2 * x2) * (y2 * y2) - (1 - a * x2 * x2)).
Proof. unfold edN, edM, edP, edQ. ring. Qed.
Lemma ed_assoc_x a d x1 y1 x2 y2 x3 y3 :
  (1 - d * x1 * x1) * (1 - d * x1 * x1) * (1 - d * x2 * x2) * (1 - d * x2 * x2) * (1 - d * x2 * x2) * (1 - d * x3 * x3) * (1 - d * x3 * x3) * (((edN x1 y1 x2 y2) * (edQ d x1 y1 x2 y2) * y3 + (edM a x1 y1 x2 y2) * (edP d x1 y1 x2 y2) * x3) * ((edP d x2 y2 x3 y3) * (edQ d x2 y2 x3 y3) + d * ((edN x2 y2 x3 y3) * (edM a x2 y2 x3 y3) * (x1 * y1))) - (x1 * ((edM a x2 y2 x3 y3) * (edP d x2 y2 x3 y3)) + y1 * ((edN x2 y2 x3 y3) * (edQ d x2 y2 x3 y3))) * ((edP d x1 y1 x2 y2) * (edQ d x1 y1 x2 y2) + d * ((edN x1 y1 x2 y2) * (edM a x1 y1 x2 y2) * (x3 * y3)))) =
  (0 - y1 * x2 * y2 * y2 * x3 * x3 * y3 * d - y1 * x2 * x2 * y2 * x3 * y3 * y3 * d + y1 * x2 * x2 * y2 * y2 * y2 * x3 * x3 * x3 * y3 * y3 * d * d + y1 * x2 * x2 * x2 * y2 * y2 * x3 * x3 * y3 * y3 * y3 * d * d + x1 * x2 * y2 * y2 * x3 * d - x1 * x2 * y2 * y2 * x3 * x3 * x3 * a * d + x1 * x2 * y2 * y2 * y2 * y2 * x3 * x3 * x3 * y3 * y3 * d * d - x1 * x2 * x2 * y2 * y3 * d + x1 * x2 * x2 * y2 * y3 * y3 * y3 * d - x1 * x2 * x2 * x2 * y2 * y2 * y2 * y2 * x3 * x3 * x3 * y3 * y3 * d * d * d - x1 * x2 * x2 * x2 * x2 * y2 * x3 * x3 * y3 * y3 * y3 * a * d * d + x1 * x2 * x2 * x2 * x2 * y2 * y2 * y2 * x3 * x3 * y3 * y3 * y3 * d * d * d + x1 * x1 * y1 * x2 * y2 * y2 * x3 * x3 * y3 * d * d + x1 * x1 * y1 * x2 * y2 * y2 * y2 * y2 * x3 * x3 * y3 * d * d + x1 * x1 * y1 * x2 * x2 * y2 * x3 * y3 * y3 * d * d + x1 * x1 * y1 * x2 * x2 * y2 * y2 * y2 * x3 * d * d - x1 * x1 * y1 * x2 * x2 * y2 * y2 * y2 * x3 * x3 * x3 * a * d * d - x1 * x1 * y1 * x2 * x2 * y2 * y2 * y2 * x3 * x3 * x3 * y3 * y3 * d * d * d + x1 * x1 * y1 * x2 * x2 * x2 * y2 * y2 * y3 * d * d - x1 * x1 * y1 * x2 * x2 * x2 * y2 * y2 * y3 * y3 * y3 * d * d - x1 * x1 * y1 * x2 * x2 * x2 * y2 * y2 * x3 * x3 * y3 * y3 * y3 * d * d * d - x1 * x1 * y1 * x2 * x2 * x2 * y2 * y2 * y2 * y2 * x3 * x3 * y3 * d * d * d + x1 * x1 * y1 * x2 * x2 * x2 * x2 * y2 * x3 * y3 * y3 * a * d * d - x1 * x1 * y1 * x2 * x2 * x2 * x2 * y2 * y2 * y2 * x3 * y3 * y3 * d * d * d - x1 * x1 * x1 * x2 * y2 * y2 * x3 * d * d + x1 * x1 * x1 * x2 * y2 * y2 * x3 * x3 * x3 * a * d * d - x1 * x1 * x1 * x2 * y2 * y2 * y2 * y2 * x3 * y3 * y3 * d * d - x1 * x1 * x1 * x2 * y2 * y2 * y2 * y2 * x3 * x3 * x3 * y3 * y3 * d * d * d + x1 * x1 * x1 * x2 * x2 * y2 * y3 * d * d - x1 * x1 * x1 * x2 * x2 * y2 * y3 * y3 * y3 * d * d + x1 * x1 * x1 * x2 * x2 * y2 * y2 * y2 * y3 * d * d - x1 * x1 * x1 * x2 * x2 * y2 * y2 * y2 * y3 * y3 * y3 * d * d - x1 * x1 * x1 * x2 * x2 * x2 * y2 * y2 * x3 * a * d * d + x1 * x1 * x1 * x2 * x2 * x2 * y2 * y2 * x3 * x3 * x3 * a * a * d * d + x1 * x1 * x1 * x2 * x2 * x2 * y2 * y2 * y2 * y2 * x3 * y3 * y3 * d * d * d + x1 * x1 * x1 * x2 * x2 * x2 * y2 * y2 * y2 * y2 * x3 * x3 * x3 * y3 * y3 * d * d * d * d + x1 * x1 * x1 * x2 * x2 * x2 * x2 * y2 * x3 * x3 * y3 * a * a * d * d + x1 * x1 * x1 * x2 * x2 * x2 * x2 * y2 * x3 * x3 * y3 * y3 * y3 * a * d * d * d - x1 * x1 * x1 * x2 * x2 * x2 * x2 * y2 * y2 * y2 * x3 * x3 * y3 * a * d * d * d - x1 * x1 * x1 * x2 * x2 * x2 * x2 * y2 * y2 * y2 * x3 * x3 * y3 * y3 * y3 * d * d * d * d - x1 * x1 * x1 * x1 * y1 * x2 * y2 * y2 * y2 * y2 * x3 * x3 * y3 * d * d * d - x1 * x1 * x1 * x1 * y1 * x2 * x2 * y2 * y2 * y2 * x3 * d * d * d + x1 * x1 * x1 * x1 * y1 * x2 * x2 * y2 * y2 * y2 * x3 * x3 * x3 * a * d * d * d - x1 * x1 * x1 * x1 * y1 * x2 * x2 * x2 * y2 * y2 * y3 * d * d * d + x1 * x1 * x1 * x1 * y1 * x2 * x2 * x2 * y2 * y2 * y3 * y3 * y3 * d * d * d + x1 * x1 * x1 * x1 * y1 * x2 * x2 * x2 * y2 * y2 * y2 * y2 * x3 * x3 * y3 * d * d * d * d - x1 * x1 * x1 * x1 * y1 * x2 * x2 * x2 * x2 * y2 * x3 * y3 * y3 * a * d * d * d + x1 * x1 * x1 * x1 * y1 * x2 * x2 * x2 * x2 * y2 * y2 * y2 * x3 * y3 * y3 * d * d * d * d + x1 * x1 * x1 * x1 * x1 * x2 * y2 * y2 * y2 * y2 * x3 * y3 * y3 * d * d * d - x1 * x1 * x1 * x1 * x1 * x2 * x2 * y2 * y2 * y2 * y3 * d * d * d + x1 * x1 * x1 * x1 * x1 * x2 * x2 * y2 * y2 * y2 * y3 * y3 * y3 * d * d * d + x1 * x1 * x1 * x1 * x1 * x2 * x2 * x2 * y2 * y2 * x3 * a * d * d * d - x1 * x1 * x1 * x1 * x1 * x2 * x2 * x2 * y2 * y2 * x3 * x3 * x3 * a * a * d * d * d - x1 * x1 * x1 * x1 * x1 * x2 * x2 * x2 * y2 * y2 * y2 * y2 * x3 * y3 * y3 * d * d * d * d - x1 * x1 * x1 * x1 * x1 * x2 * x2 * x2 * x2 * y2 * x3 * x3 * y3 * a * a * d * d * d + x1 * x1 * x1 * x1 * x1 * x2 * x2 * x2 * x2 * y2 * y2 * y2 * x3 * x3 * y3 * a * d * d * d * d) * (1 - d * x2 * x2) * (1 - d * x2 * x2) * (1 - d * x2 * x2) * (1 - d * x3 * x3) * (1 - d * x3 * x3) * ((1 - d * x1 * x1) * (y1 * y1) - (1 - a * x1 * x1))
  + (x1 * x2 * x3 * d - x1 * x2 * x3 * y3 * y3 * d - x1 * x2 * x3 * x3 * x3 * a * d + x1 * x2 * x3 * x3 * x3 * y3 * y3 * d * d + x1 * x2 * y2 * y2 * x3 * x3 * x3 * y3 * y3 * d * d - x1 * x2 * x2 * y2 * x3 * x3 * y3 * y3 * y3 * d * d - 2 * x1 * x2 * x2 * x2 * x3 * d * d + 2 * x1 * x2 * x2 * x2 * x3 * y3 * y3 * d * d + 2 * x1 * x2 * x2 * x2 * x3 * x3 * x3 * a * d * d - 2 * x1 * x2 * x2 * x2 * x3 * x3 * x3 * y3 * y3 * d * d * d - 3 * x1 * x2 * x2 * x2 * y2 * y2 * x3 * x3 * x3 * y3 * y3 * d * d * d + 3 * x1 * x2 * x2 * x2 * x2 * y2 * x3 * x3 * y3 * y3 * y3 * d * d * d + x1 * x2 * x2 * x2 * x2 * x2 * x3 * d * d * d - x1 * x2 * x2 * x2 * x2 * x2 * x3 * y3 * y3 * d * d * d - x1 * x2 * x2 * x2 * x2 * x2 * x3 * x3 * x3 * a * d * d * d + x1 * x2 * x2 * x2 * x2 * x2 * x3 * x3 * x3 * y3 * y3 * d * d * d * d + 3 * x1 * x2 * x2 * x2 * x2 * x2 * y2 * y2 * x3 * x3 * x3 * y3 * y3 * d * d * d * d - 3 * x1 * x2 * x2 * x2 * x2 * x2 * x2 * y2 * x3 * x3 * y3 * y3 * y3 * d * d * d * d - x1 * x2 * x2 * x2 * x2 * x2 * x2 * x2 * y2 * y2 * x3 * x3 * x3 * y3 * y3 * d * d * d * d * d + x1 * x2 * x2 * x2 * x2 * x2 * x2 * x2 * x2 * y2 * x3 * x3 * y3 * y3 * y3 * d * d * d * d * d - x1 * x1 * y1 * x2 * y3 * d + x1 * x1 * y1 * x2 * y3 * y3 * y3 * d + x1 * x1 * y1 * x2 * x3 * x3 * y3 * a * d - x1 * x1 * y1 * x2 * x3 * x3 * y3 * y3 * y3 * d * d + x1 * x1 * y1 * x2 * y2 * y2 * x3 * x3 * y3 * d * d - x1 * x1 * y1 * x2 * y2 * y2 * x3 * x3 * y3 * y3 * y3 * d * d + x1 * x1 * y1 * x2 * x2 * y2 * x3 * d * d - x1 * x1 * y1 * x2 * x2 * y2 * x3 * x3 * x3 * a * d * d + x1 * x1 * y1 * x2 * x2 * y2 * x3 * x3 * x3 * y3 * y3 * d * d * d - x1 * x1 * y1 * x2 * x2 * y2 * x3 * x3 * x3 * y3 * y3 * a * d * d + 3 * x1 * x1 * y1 * x2 * x2 * x2 * y3 * d * d - 3 * x1 * x1 * y1 * x2 * x2 * x2 * y3 * y3 * y3 * d * d - 3 * x1 * x1 * y1 * x2 * x2 * x2 * x3 * x3 * y3 * a * d * d + 3 * x1 * x1 * y1 * x2 * x2 * x2 * x3 * x3 * y3 * y3 * y3 * d * d * d - 3 * x1 * x1 * y1 * x2 * x2 * x2 * y2 * y2 * x3 * x3 * y3 * d * d * d + 3 * x1 * x1 * y1 * x2 * x2 * x2 * y2 * y2 * x3 * x3 * y3 * y3 * y3 * d * d * d - 2 * x1 * x1 * y1 * x2 * x2 * x2 * x2 * y2 * x3 * d * d * d - x1 * x1 * y1 * x2 * x2 * x2 * x2 * y2 * x3 * y3 * y3 * d * d * d + 2 * x1 * x1 * y1 * x2 * x2 * x2 * x2 * y2 * x3 * x3 * x3 * a * d * d * d - 2 * x1 * x1 * y1 * x2 * x2 * x2 * x2 * y2 * x3 * x3 * x3 * y3 * y3 * d * d * d * d + 3 * x1 * x1 * y1 * x2 * x2 * x2 * x2 * y2 * x3 * x3 * x3 * y3 * y3 * a * d * d * d - 3 * x1 * x1 * y1 * x2 * x2 * x2 * x2 * x2 * y3 * d * d * d + 3 * x1 * x1 * y1 * x2 * x2 * x2 * x2 * x2 * y3 * y3 * y3 * d * d * d + 3 * x1 * x1 * y1 * x2 * x2 * x2 * x2 * x2 * x3 * x3 * y3 * a * d * d * d - 3 * x1 * x1 * y1 * x2 * x2 * x2 * x2 * x2 * x3 * x3 * y3 * y3 * y3 * d * d * d * d + 3 * x1 * x1 * y1 * x2 * x2 * x2 * x2 * x2 * y2 * y2 * x3 * x3 * y3 * d * d * d * d - 3 * x1 * x1 * y1 * x2 * x2 * x2 * x2 * x2 * y2 * y2 * x3 * x3 * y3 * y3 * y3 * d * d * d * d + x1 * x1 * y1 * x2 * x2 * x2 * x2 * x2 * x2 * y2 * x3 * d * d * d * d + 2 * x1 * x1 * y1 * x2 * x2 * x2 * x2 * x2 * x2 * y2 * x3 * y3 * y3 * d * d * d * d - x1 * x1 * y1 * x2 * x2 * x2 * x2 * x2 * x2 * y2 * x3 * x3 * x3 * a * d * d * d * d + x1 * x1 * y1 * x2 * x2 * x2 * x2 * x2 * x2 * y2 * x3 * x3 * x3 * y3 * y3 * d * d * d * d * d - 3 * x1 * x1 * y1 * x2 * x2 * x2 * x2 * x2 * x2 * y2 * x3 * x3 * x3 * y3 * y3 * a * d * d * d * d + x1 * x1 * y1 * x2 * x2 * x2 * x2 * x2 * x2 * x2 * y3 * d * d * d * d - x1 * x1 * y1 * x2 * x2 * x2 * x2 * x2 * x2 * x2 * y3 * y3 * y3 * d * d * d * d - x1 * x1 * y1 * x2 * x2 * x2 * x2 * x2 * x2 * x2 * x3 * x3 * y3 * a * d * d * d * d + x1 * x1 * y1 * x2 * x2 * x2 * x2 * x2 * x2 * x2 * x3 * x3 * y3 * y3 * y3 * d * d * d * d * d - x1 * x1 * y1 * x2 * x2 * x2 * x2 * x2 * x2 * x2 * y2 * y2 * x3 * x3 * y3 * d * d * d * d * d + x1 * x1 * y1 * x2 * x2 * x2 * x2 * x2 * x2 * x2 * y2 * y2 * x3 * x3 * y3 * y3 * y3 * d * d * d * d * d - x1 * x1 * y1 * x2 * x2 * x2 * x2 * x2 * x2 * x2 * x2 * y2 * x3 * y3 * y3 * d * d * d * d * d + x1 * x1 * y1 * x2 * x2 * x2 * x2 * x2 * x2 * x2 * x2 * y2 * x3 * x3 * x3 * y3 * y3 * a * d * d * d * d * d - x1 * x1 * x1 * x2 * x3 * d * d - x1 * x1 * x1 * x2 * x3 * a * d + x1 * x1 * x1 * x2 * x3 * y3 * y3 * d * d + x1 * x1 * x1 * x2 * x3 * y3 * y3 * a * d + x1 * x1 * x1 * x2 * x3 * x3 * x3 * a * d * d + x1 * x1 * x1 * x2 * x3 * x3 * x3 * a * a * d - x1 * x1 * x1 * x2 * x3 * x3 * x3 * y3 * y3 * d * d * d - x1 * x1 * x1 * x2 * x3 * x3 * x3 * y3 * y3 * a * d * d - x1 * x1 * x1 * x2 * y2 * y2 * x3 * y3 * y3 * d * d - x1 * x1 * x1 * x2 * y2 * y2 * x3 * x3 * x3 * y3 * y3 * d * d * d - x1 * x1 * x1 * x2 * y2 * y2 * x3 * x3 * x3 * y3 * y3 * a * d * d + x1 * x1 * x1 * x2 * x2 * y2 * y3 * d * d - x1 * x1 * x1 * x2 * x2 * y2 * y3 * y3 * y3 * d * d + 2 * x1 * x1 * x1 * x2 * x2 * y2 * x3 * x3 * y3 * y3 * y3 * d * d * d + x1 * x1 * x1 * x2 * x2 * y2 * x3 * x3 * y3 * y3 * y3 * a * d * d + 2 * x1 * x1 * x1 * x2 * x2 * x2 * x3 * d * d * d + x1 * x1 * x1 * x2 * x2 * x2 * x3 * a * d * d - 2 * x1 * x1 * x1 * x2 * x2 * x2 * x3 * y3 * y3 * d * d * d - x1 * x1 * x1 * x2 * x2 * x2 * x3 * y3 * y3 * a * d * d - 2 * x1 * x1 * x1 * x2 * x2 * x2 * x3 * x3 * x3 * a * d * d * d - x1 * x1 * x1 * x2 * x2 * x2 * x3 * x3 * x3 * a * a * d * d + 2 * x1 * x1 * x1 * x2 * x2 * x2 * x3 * x3 * x3 * y3 * y3 * d * d * d * d + x1 * x1 * x1 * x2 * x2 * x2 * x3 * x3 * x3 * y3 * y3 * a * d * d * d + 3 * x1 * x1 * x1 * x2 * x2 * x2 * y2 * y2 * x3 * y3 * y3 * d * d * d + 3 * x1 * x1 * x1 * x2 * x2 * x2 * y2 * y2 * x3 * x3 * x3 * y3 * y3 * d * d * d * d + 3 * x1 * x1 * x1 * x2 * x2 * x2 * y2 * y2 * x3 * x3 * x3 * y3 * y3 * a * d * d * d - 2 * x1 * x1 * x1 * x2 * x2 * x2 * x2 * y2 * y3 * d * d * d + 2 * x1 * x1 * x1 * x2 * x2 * x2 * x2 * y2 * y3 * y3 * y3 * d * d * d - x1 * x1 * x1 * x2 * x2 * x2 * x2 * y2 * x3 * x3 * y3 * a * d * d * d - 5 * x1 * x1 * x1 * x2 * x2 * x2 * x2 * y2 * x3 * x3 * y3 * y3 * y3 * d * d * d * d - 3 * x1 * x1 * x1 * x2 * x2 * x2 * x2 * y2 * x3 * x3 * y3 * y3 * y3 * a * d * d * d - x1 * x1 * x1 * x2 * x2 * x2 * x2 * x2 * x3 * d * d * d * d + x1 * x1 * x1 * x2 * x2 * x2 * x2 * x2 * x3 * a * d * d * d + x1 * x1 * x1 * x2 * x2 * x2 * x2 * x2 * x3 * y3 * y3 * d * d * d * d - x1 * x1 * x1 * x2 * x2 * x2 * x2 * x2 * x3 * y3 * y3 * a * d * d * d + x1 * x1 * x1 * x2 * x2 * x2 * x2 * x2 * x3 * x3 * x3 * a * d * d * d * d - x1 * x1 * x1 * x2 * x2 * x2 * x2 * x2 * x3 * x3 * x3 * a * a * d * d * d - x1 * x1 * x1 * x2 * x2 * x2 * x2 * x2 * x3 * x3 * x3 * y3 * y3 * d * d * d * d * d + x1 * x1 * x1 * x2 * x2 * x2 * x2 * x2 * x3 * x3 * x3 * y3 * y3 * a * d * d * d * d - 3 * x1 * x1 * x1 * x2 * x2 * x2 * x2 * x2 * y2 * y2 * x3 * y3 * y3 * d * d * d * d - 3 * x1 * x1 * x1 * x2 * x2 * x2 * x2 * x2 * y2 * y2 * x3 * x3 * x3 * y3 * y3 * d * d * d * d * d - 3 * x1 * x1 * x1 * x2 * x2 * x2 * x2 * x2 * y2 * y2 * x3 * x3 * x3 * y3 * y3 * a * d * d * d * d + x1 * x1 * x1 * x2 * x2 * x2 * x2 * x2 * x2 * y2 * y3 * d * d * d * d - x1 * x1 * x1 * x2 * x2 * x2 * x2 * x2 * x2 * y2 * y3 * y3 * y3 * d * d * d * d + 2 * x1 * x1 * x1 * x2 * x2 * x2 * x2 * x2 * x2 * y2 * x3 * x3 * y3 * a * d * d * d * d + 4 * x1 * x1 * x1 * x2 * x2 * x2 * x2 * x2 * x2 * y2 * x3 * x3 * y3 * y3 * y3 * d * d * d * d * d + 3 * x1 * x1 * x1 * x2 * x2 * x2 * x2 * x2 * x2 * y2 * x3 * x3 * y3 * y3 * y3 * a * d * d * d * d - x1 * x1 * x1 * x2 * x2 * x2 * x2 * x2 * x2 * x2 * x3 * a * d * d * d * d + x1 * x1 * x1 * x2 * x2 * x2 * x2 * x2 * x2 * x2 * x3 * y3 * y3 * a * d * d * d * d + x1 * x1 * x1 * x2 * x2 * x2 * x2 * x2 * x2 * x2 * x3 * x3 * x3 * a * a * d * d * d * d - x1 * x1 * x1 * x2 * x2 * x2 * x2 * x2 * x2 * x2 * x3 * x3 * x3 * y3 * y3 * a * d * d * d * d * d + x1 * x1 * x1 * x2 * x2 * x2 * x2 * x2 * x2 * x2 * y2 * y2 * x3 * y3 * y3 * d * d * d * d * d + x1 * x1 * x1 * x2 * x2 * x2 * x2 * x2 * x2 * x2 * y2 * y2 * x3 * x3 * x3 * y3 * y3 * d * d * d * d * d * d + x1 * x1 * x1 * x2 * x2 * x2 * x2 * x2 * x2 * x2 * y2 * y2 * x3 * x3 * x3 * y3 * y3 * a * d * d * d * d * d - x1 * x1 * x1 * x2 * x2 * x2 * x2 * x2 * x2 * x2 * x2 * y2 * x3 * x3 * y3 * a * d * d * d * d * d - x1 * x1 * x1 * x2 * x2 * x2 * x2 * x2 * x2 * x2 * x2 * y2 * x3 * x3 * y3 * y3 * y3 * d * d * d * d * d * d - x1 * x1 * x1 * x2 * x2 * x2 * x2 * x2 * x2 * x2 * x2 * y2 * x3 * x3 * y3 * y3 * y3 * a * d * d * d * d * d + 2 * x1 * x1 * x1 * x1 * y1 * x2 * y3 * d * d - 2 * x1 * x1 * x1 * x1 * y1 * x2 * y3 * y3 * y3 * d * d - 2 * x1 * x1 * x1 * x1 * y1 * x2 * x3 * x3 * y3 * a * d * d + 2 * x1 * x1 * x1 * x1 * y1 * x2 * x3 * x3 * y3 * y3 * y3 * d * d * d - x1 * x1 * x1 * x1 * y1 * x2 * y2 * y2 * x3 * x3 * y3 * d * d * d - x1 * x1 * x1 * x1 * y1 * x2 * y2 * y2 * x3 * x3 * y3 * a * d * d + 2 * x1 * x1 * x1 * x1 * y1 * x2 * y2 * y2 * x3 * x3 * y3 * y3 * y3 * d * d * d - x1 * x1 * x1 * x1 * y1 * x2 * x2 * y2 * x3 * d * d * d - x1 * x1 * x1 * x1 * y1 * x2 * x2 * y2 * x3 * a * d * d + x1 * x1 * x1 * x1 * y1 * x2 * x2 * y2 * x3 * x3 * x3 * a * d * d * d + x1 * x1 * x1 * x1 * y1 * x2 * x2 * y2 * x3 * x3 * x3 * a * a * d * d - x1 * x1 * x1 * x1 * y1 * x2 * x2 * y2 * x3 * x3 * x3 * y3 * y3 * d * d * d * d + x1 * x1 * x1 * x1 * y1 * x2 * x2 * y2 * x3 * x3 * x3 * y3 * y3 * a * d * d * d - 5 * x1 * x1 * x1 * x1 * y1 * x2 * x2 * x2 * y3 * d * d * d - x1 * x1 * x1 * x1 * y1 * x2 * x2 * x2 * y3 * a * d * d + 5 * x1 * x1 * x1 * x1 * y1 * x2 * x2 * x2 * y3 * y3 * y3 * d * d * d + x1 * x1 * x1 * x1 * y1 * x2 * x2 * x2 * y3 * y3 * y3 * a * d * d + 5 * x1 * x1 * x1 * x1 * y1 * x2 * x2 * x2 * x3 * x3 * y3 * a * d * d * d + x1 * x1 * x1 * x1 * y1 * x2 * x2 * x2 * x3 * x3 * y3 * a * a * d * d - 5 * x1 * x1 * x1 * x1 * y1 * x2 * x2 * x2 * x3 * x3 * y3 * y3 * y3 * d * d * d * d - x1 * x1 * x1 * x1 * y1 * x2 * x2 * x2 * x3 * x3 * y3 * y3 * y3 * a * d * d * d + 3 * x1 * x1 * x1 * x1 * y1 * x2 * x2 * x2 * y2 * y2 * x3 * x3 * y3 * d * d * d * d + 3 * x1 * x1 * x1 * x1 * y1 * x2 * x2 * x2 * y2 * y2 * x3 * x3 * y3 * a * d * d * d - 6 * x1 * x1 * x1 * x1 * y1 * x2 * x2 * x2 * y2 * y2 * x3 * x3 * y3 * y3 * y3 * d * d * d * d + 2 * x1 * x1 * x1 * x1 * y1 * x2 * x2 * x2 * x2 * y2 * x3 * d * d * d * d + 2 * x1 * x1 * x1 * x1 * y1 * x2 * x2 * x2 * x2 * y2 * x3 * a * d * d * d + x1 * x1 * x1 * x1 * y1 * x2 * x2 * x2 * x2 * y2 * x3 * y3 * y3 * d * d * d * d + x1 * x1 * x1 * x1 * y1 * x2 * x2 * x2 * x2 * y2 * x3 * y3 * y3 * a * d * d * d - 2 * x1 * x1 * x1 * x1 * y1 * x2 * x2 * x2 * x2 * y2 * x3 * x3 * x3 * a * d * d * d * d - 2 * x1 * x1 * x1 * x1 * y1 * x2 * x2 * x2 * x2 * y2 * x3 * x3 * x3 * a * a * d * d * d + 2 * x1 * x1 * x1 * x1 * y1 * x2 * x2 * x2 * x2 * y2 * x3 * x3 * x3 * y3 * y3 * d * d * d * d * d - 4 * x1 * x1 * x1 * x1 * y1 * x2 * x2 * x2 * x2 * y2 * x3 * x3 * x3 * y3 * y3 * a * d * d * d * d + 4 * x1 * x1 * x1 * x1 * y1 * x2 * x2 * x2 * x2 * x2 * y3 * d * d * d * d + 2 * x1 * x1 * x1 * x1 * y1 * x2 * x2 * x2 * x2 * x2 * y3 * a * d * d * d - 4 * x1 * x1 * x1 * x1 * y1 * x2 * x2 * x2 * x2 * x2 * y3 * y3 * y3 * d * d * d * d - 2 * x1 * x1 * x1 * x1 * y1 * x2 * x2 * x2 * x2 * x2 * y3 * y3 * y3 * a * d * d * d - 4 * x1 * x1 * x1 * x1 * y1 * x2 * x2 * x2 * x2 * x2 * x3 * x3 * y3 * a * d * d * d * d - 2 * x1 * x1 * x1 * x1 * y1 * x2 * x2 * x2 * x2 * x2 * x3 * x3 * y3 * a * a * d * d * d + 4 * x1 * x1 * x1 * x1 * y1 * x2 * x2 * x2 * x2 * x2 * x3 * x3 * y3 * y3 * y3 * d * d * d * d * d + 2 * x1 * x1 * x1 * x1 * y1 * x2 * x2 * x2 * x2 * x2 * x3 * x3 * y3 * y3 * y3 * a * d * d * d * d - 3 * x1 * x1 * x1 * x1 * y1 * x2 * x2 * x2 * x2 * x2 * y2 * y2 * x3 * x3 * y3 * d * d * d * d * d - 3 * x1 * x1 * x1 * x1 * y1 * x2 * x2 * x2 * x2 * x2 * y2 * y2 * x3 * x3 * y3 * a * d * d * d * d + 6 * x1 * x1 * x1 * x1 * y1 * x2 * x2 * x2 * x2 * x2 * y2 * y2 * x3 * x3 * y3 * y3 * y3 * d * d * d * d * d - x1 * x1 * x1 * x1 * y1 * x2 * x2 * x2 * x2 * x2 * x2 * y2 * x3 * d * d * d * d * d - x1 * x1 * x1 * x1 * y1 * x2 * x2 * x2 * x2 * x2 * x2 * y2 * x3 * a * d * d * d * d - 2 * x1 * x1 * x1 * x1 * y1 * x2 * x2 * x2 * x2 * x2 * x2 * y2 * x3 * y3 * y3 * d * d * d * d * d - 2 * x1 * x1 * x1 * x1 * y1 * x2 * x2 * x2 * x2 * x2 * x2 * y2 * x3 * y3 * y3 * a * d * d * d * d + x1 * x1 * x1 * x1 * y1 * x2 * x2 * x2 * x2 * x2 * x2 * y2 * x3 * x3 * x3 * a * d * d * d * d * d + x1 * x1 * x1 * x1 * y1 * x2 * x2 * x2 * x2 * x2 * x2 * y2 * x3 * x3 * x3 * a * a * d * d * d * d - x1 * x1 * x1 * x1 * y1 * x2 * x2 * x2 * x2 * x2 * x2 * y2 * x3 * x3 * x3 * y3 * y3 * d * d * d * d * d * d + 5 * x1 * x1 * x1 * x1 * y1 * x2 * x2 * x2 * x2 * x2 * x2 * y2 * x3 * x3 * x3 * y3 * y3 * a * d * d * d * d * d - x1 * x1 * x1 * x1 * y1 * x2 * x2 * x2 * x2 * x2 * x2 * x2 * y3 * d * d * d * d * d - x1 * x1 * x1 * x1 * y1 * x2 * x2 * x2 * x2 * x2 * x2 * x2 * y3 * a * d * d * d * d + x1 * x1 * x1 * x1 * y1 * x2 * x2 * x2 * x2 * x2 * x2 * x2 * y3 * y3 * y3 * d * d * d * d * d + x1 * x1 * x1 * x1 * y1 * x2 * x2 * x2 * x2 * x2 * x2 * x2 * y3 * y3 * y3 * a * d * d * d * d + x1 * x1 * x1 * x1 * y1 * x2 * x2 * x2 * x2 * x2 * x2 * x2 * x3 * x3 * y3 * a * d * d * d * d * d + x1 * x1 * x1 * x1 * y1 * x2 * x2 * x2 * x2 * x2 * x2 * x2 * x3 * x3 * y3 * a * a * d * d * d * d - x1 * x1 * x1 * x1 * y1 * x2 * x2 * x2 * x2 * x2 * x2 * x2 * x3 * x3 * y3 * y3 * y3 * d * d * d * d * d * d - x1 * x1 * x1 * x1 * y1 * x2 * x2 * x2 * x2 * x2 * x2 * x2 * x3 * x3 * y3 * y3 * y3 * a * d * d * d * d * d + x1 * x1 * x1 * x1 * y1 * x2 * x2 * x2 * x2 * x2 * x2 * x2 * y2 * y2 * x3 * x3 * y3 * d * d * d * d * d * d + x1 * x1 * x1 * x1 * y1 * x2 * x2 * x2 * x2 * x2 * x2 * x2 * y2 * y2 * x3 * x3 * y3 * a * d * d * d * d * d - 2 * x1 * x1 * x1 * x1 * y1 * x2 * x2 * x2 * x2 * x2 * x2 * x2 * y2 * y2 * x3 * x3 * y3 * y3 * y3 * d * d * d * d * d * d + x1 * x1 * x1 * x1 * y1 * x2 * x2 * x2 * x2 * x2 * x2 * x2 * x2 * y2 * x3 * y3 * y3 * d * d * d * d * d * d + x1 * x1 * x1 * x1 * y1 * x2 * x2 * x2 * x2 * x2 * x2 * x2 * x2 * y2 * x3 * y3 * y3 * a * d * d * d * d * d - 2 * x1 * x1 * x1 * x1 * y1 * x2 * x2 * x2 * x2 * x2 * x2 * x2 * x2 * y2 * x3 * x3 * x3 * y3 * y3 * a * d * d * d * d * d * d + x1 * x1 * x1 * x1 * x1 * x2 * x3 * a * d * d - x1 * x1 * x1 * x1 * x1 * x2 * x3 * y3 * y3 * a * d * d - x1 * x1 * x1 * x1 * x1 * x2 * x3 * x3 * x3 * a * a * d * d + x1 * x1 * x1 * x1 * x1 * x2 * x3 * x3 * x3 * y3 * y3 * a * d * d * d + x1 * x1 * x1 * x1 * x1 * x2 * y2 * y2 * x3 * y3 * y3 * d * d * d + x1 * x1 * x1 * x1 * x1 * x2 * y2 * y2 * x3 * y3 * y3 * a * d * d + x1 * x1 * x1 * x1 * x1 * x2 * y2 * y2 * x3 * x3 * x3 * y3 * y3 * a * d * d * d - x1 * x1 * x1 * x1 * x1 * x2 * x2 * y2 * y3 * d * d * d - x1 * x1 * x1 * x1 * x1 * x2 * x2 * y2 * y3 * a * d * d + x1 * x1 * x1 * x1 * x1 * x2 * x2 * y2 * y3 * y3 * y3 * d * d * d + x1 * x1 * x1 * x1 * x1 * x2 * x2 * y2 * y3 * y3 * y3 * a * d * d - x1 * x1 * x1 * x1 * x1 * x2 * x2 * y2 * x3 * x3 * y3 * y3 * y3 * d * d * d * d - 2 * x1 * x1 * x1 * x1 * x1 * x2 * x2 * y2 * x3 * x3 * y3 * y3 * y3 * a * d * d * d - x1 * x1 * x1 * x1 * x1 * x2 * x2 * x2 * x3 * a * d * d * d + x1 * x1 * x1 * x1 * x1 * x2 * x2 * x2 * x3 * a * a * d * d + x1 * x1 * x1 * x1 * x1 * x2 * x2 * x2 * x3 * y3 * y3 * a * d * d * d - x1 * x1 * x1 * x1 * x1 * x2 * x2 * x2 * x3 * y3 * y3 * a * a * d * d + x1 * x1 * x1 * x1 * x1 * x2 * x2 * x2 * x3 * x3 * x3 * a * a * d * d * d - x1 * x1 * x1 * x1 * x1 * x2 * x2 * x2 * x3 * x3 * x3 * a * a * a * d * d - x1 * x1 * x1 * x1 * x1 * x2 * x2 * x2 * x3 * x3 * x3 * y3 * y3 * a * d * d * d * d + x1 * x1 * x1 * x1 * x1 * x2 * x2 * x2 * x3 * x3 * x3 * y3 * y3 * a * a * d * d * d - 3 * x1 * x1 * x1 * x1 * x1 * x2 * x2 * x2 * y2 * y2 * x3 * y3 * y3 * d * d * d * d - 3 * x1 * x1 * x1 * x1 * x1 * x2 * x2 * x2 * y2 * y2 * x3 * y3 * y3 * a * d * d * d - 3 * x1 * x1 * x1 * x1 * x1 * x2 * x2 * x2 * y2 * y2 * x3 * x3 * x3 * y3 * y3 * a * d * d * d * d + 2 * x1 * x1 * x1 * x1 * x1 * x2 * x2 * x2 * x2 * y2 * y3 * d * d * d * d + 2 * x1 * x1 * x1 * x1 * x1 * x2 * x2 * x2 * x2 * y2 * y3 * a * d * d * d - 2 * x1 * x1 * x1 * x1 * x1 * x2 * x2 * x2 * x2 * y2 * y3 * y3 * y3 * d * d * d * d - 2 * x1 * x1 * x1 * x1 * x1 * x2 * x2 * x2 * x2 * y2 * y3 * y3 * y3 * a * d * d * d + x1 * x1 * x1 * x1 * x1 * x2 * x2 * x2 * x2 * y2 * x3 * x3 * y3 * a * d * d * d * d + x1 * x1 * x1 * x1 * x1 * x2 * x2 * x2 * x2 * y2 * x3 * x3 * y3 * a * a * d * d * d + 2 * x1 * x1 * x1 * x1 * x1 * x2 * x2 * x2 * x2 * y2 * x3 * x3 * y3 * y3 * y3 * d * d * d * d * d + 5 * x1 * x1 * x1 * x1 * x1 * x2 * x2 * x2 * x2 * y2 * x3 * x3 * y3 * y3 * y3 * a * d * d * d * d - x1 * x1 * x1 * x1 * x1 * x2 * x2 * x2 * x2 * x2 * x3 * a * d * d * d * d - 2 * x1 * x1 * x1 * x1 * x1 * x2 * x2 * x2 * x2 * x2 * x3 * a * a * d * d * d + x1 * x1 * x1 * x1 * x1 * x2 * x2 * x2 * x2 * x2 * x3 * y3 * y3 * a * d * d * d * d + 2 * x1 * x1 * x1 * x1 * x1 * x2 * x2 * x2 * x2 * x2 * x3 * y3 * y3 * a * a * d * d * d + x1 * x1 * x1 * x1 * x1 * x2 * x2 * x2 * x2 * x2 * x3 * x3 * x3 * a * a * d * d * d * d + 2 * x1 * x1 * x1 * x1 * x1 * x2 * x2 * x2 * x2 * x2 * x3 * x3 * x3 * a * a * a * d * d * d - x1 * x1 * x1 * x1 * x1 * x2 * x2 * x2 * x2 * x2 * x3 * x3 * x3 * y3 * y3 * a * d * d * d * d * d - 2 * x1 * x1 * x1 * x1 * x1 * x2 * x2 * x2 * x2 * x2 * x3 * x3 * x3 * y3 * y3 * a * a * d * d * d * d + 3 * x1 * x1 * x1 * x1 * x1 * x2 * x2 * x2 * x2 * x2 * y2 * y2 * x3 * y3 * y3 * d * d * d * d * d + 3 * x1 * x1 * x1 * x1 * x1 * x2 * x2 * x2 * x2 * x2 * y2 * y2 * x3 * y3 * y3 * a * d * d * d * d + 3 * x1 * x1 * x1 * x1 * x1 * x2 * x2 * x2 * x2 * x2 * y2 * y2 * x3 * x3 * x3 * y3 * y3 * a * d * d * d * d * d - x1 * x1 * x1 * x1 * x1 * x2 * x2 * x2 * x2 * x2 * x2 * y2 * y3 * d * d * d * d * d - x1 * x1 * x1 * x1 * x1 * x2 * x2 * x2 * x2 * x2 * x2 * y2 * y3 * a * d * d * d * d + x1 * x1 * x1 * x1 * x1 * x2 * x2 * x2 * x2 * x2 * x2 * y2 * y3 * y3 * y3 * d * d * d * d * d + x1 * x1 * x1 * x1 * x1 * x2 * x2 * x2 * x2 * x2 * x2 * y2 * y3 * y3 * y3 * a * d * d * d * d - 2 * x1 * x1 * x1 * x1 * x1 * x2 * x2 * x2 * x2 * x2 * x2 * y2 * x3 * x3 * y3 * a * d * d * d * d * d - 2 * x1 * x1 * x1 * x1 * x1 * x2 * x2 * x2 * x2 * x2 * x2 * y2 * x3 * x3 * y3 * a * a * d * d * d * d - x1 * x1 * x1 * x1 * x1 * x2 * x2 * x2 * x2 * x2 * x2 * y2 * x3 * x3 * y3 * y3 * y3 * d * d * d * d * d * d - 4 * x1 * x1 * x1 * x1 * x1 * x2 * x2 * x2 * x2 * x2 * x2 * y2 * x3 * x3 * y3 * y3 * y3 * a * d * d * d * d * d + x1 * x1 * x1 * x1 * x1 * x2 * x2 * x2 * x2 * x2 * x2 * x2 * x3 * a * d * d * d * d * d + x1 * x1 * x1 * x1 * x1 * x2 * x2 * x2 * x2 * x2 * x2 * x2 * x3 * a * a * d * d * d * d - x1 * x1 * x1 * x1 * x1 * x2 * x2 * x2 * x2 * x2 * x2 * x2 * x3 * y3 * y3 * a * d * d * d * d * d - x1 * x1 * x1 * x1 * x1 * x2 * x2 * x2 * x2 * x2 * x2 * x2 * x3 * y3 * y3 * a * a * d * d * d * d - x1 * x1 * x1 * x1 * x1 * x2 * x2 * x2 * x2 * x2 * x2 * x2 * x3 * x3 * x3 * a * a * d * d * d * d * d - x1 * x1 * x1 * x1 * x1 * x2 * x2 * x2 * x2 * x2 * x2 * x2 * x3 * x3 * x3 * a * a * a * d * d * d * d + x1 * x1 * x1 * x1 * x1 * x2 * x2 * x2 * x2 * x2 * x2 * x2 * x3 * x3 * x3 * y3 * y3 * a * d * d * d * d * d * d + x1 * x1 * x1 * x1 * x1 * x2 * x2 * x2 * x2 * x2 * x2 * x2 * x3 * x3 * x3 * y3 * y3 * a * a * d * d * d * d * d - x1 * x1 * x1 * x1 * x1 * x2 * x2 * x2 * x2 * x2 * x2 * x2 * y2 * y2 * x3 * y3 * y3 * d * d * d * d * d * d - x1 * x1 * x1 * x1 * x1 * x2 * x2 * x2 * x2 * x2 * x2 * x2 * y2 * y2 * x3 * y3 * y3 * a * d * d * d * d * d - x1 * x1 * x1 * x1 * x1 * x2 * x2 * x2 * x2 * x2 * x2 * x2 * y2 * y2 * x3 * x3 * x3 * y3 * y3 * a * d * d * d * d * d * d + x1 * x1 * x1 * x1 * x1 * x2 * x2 * x2 * x2 * x2 * x2 * x2 * x2 * y2 * x3 * x3 * y3 * a * d * d * d * d * d * d + x1 * x1 * x1 * x1 * x1 * x2 * x2 * x2 * x2 * x2 * x2 * x2 * x2 * y2 * x3 * x3 * y3 * a * a * d * d * d * d * d + x1 * x1 * x1 * x1 * x1 * x2 * x2 * x2 * x2 * x2 * x2 * x2 * x2 * y2 * x3 * x3 * y3 * y3 * y3 * a * d * d * d * d * d * d - x1 * x1 * x1 * x1 * x1 * x1 * y1 * x2 * y3 * d * d * d + x1 * x1 * x1 * x1 * x1 * x1 * y1 * x2 * y3 * y3 * y3 * d * d * d + x1 * x1 * x1 * x1 * x1 * x1 * y1 * x2 * x3 * x3 * y3 * a * d * d * d - x1 * x1 * x1 * x1 * x1 * x1 * y1 * x2 * x3 * x3 * y3 * y3 * y3 * d * d * d * d + x1 * x1 * x1 * x1 * x1 * x1 * y1 * x2 * y2 * y2 * x3 * x3 * y3 * a * d * d * d - x1 * x1 * x1 * x1 * x1 * x1 * y1 * x2 * y2 * y2 * x3 * x3 * y3 * y3 * y3 * d * d * d * d + x1 * x1 * x1 * x1 * x1 * x1 * y1 * x2 * x2 * y2 * x3 * a * d * d * d - x1 * x1 * x1 * x1 * x1 * x1 * y1 * x2 * x2 * y2 * x3 * x3 * x3 * a * a * d * d * d + 2 * x1 * x1 * x1 * x1 * x1 * x1 * y1 * x2 * x2 * x2 * y3 * d * d * d * d + x1 * x1 * x1 * x1 * x1 * x1 * y1 * x2 * x2 * x2 * y3 * a * d * d * d - 2 * x1 * x1 * x1 * x1 * x1 * x1 * y1 * x2 * x2 * x2 * y3 * y3 * y3 * d * d * d * d - x1 * x1 * x1 * x1 * x1 * x1 * y1 * x2 * x2 * x2 * y3 * y3 * y3 * a * d * d * d - 2 * x1 * x1 * x1 * x1 * x1 * x1 * y1 * x2 * x2 * x2 * x3 * x3 * y3 * a * d * d * d * d - x1 * x1 * x1 * x1 * x1 * x1 * y1 * x2 * x2 * x2 * x3 * x3 * y3 * a * a * d * d * d + 2 * x1 * x1 * x1 * x1 * x1 * x1 * y1 * x2 * x2 * x2 * x3 * x3 * y3 * y3 * y3 * d * d * d * d * d + x1 * x1 * x1 * x1 * x1 * x1 * y1 * x2 * x2 * x2 * x3 * x3 * y3 * y3 * y3 * a * d * d * d * d - 3 * x1 * x1 * x1 * x1 * x1 * x1 * y1 * x2 * x2 * x2 * y2 * y2 * x3 * x3 * y3 * a * d * d * d * d + 3 * x1 * x1 * x1 * x1 * x1 * x1 * y1 * x2 * x2 * x2 * y2 * y2 * x3 * x3 * y3 * y3 * y3 * d * d * d * d * d - 2 * x1 * x1 * x1 * x1 * x1 * x1 * y1 * x2 * x2 * x2 * x2 * y2 * x3 * a * d * d * d * d - x1 * x1 * x1 * x1 * x1 * x1 * y1 * x2 * x2 * x2 * x2 * y2 * x3 * y3 * y3 * a * d * d * d * d + 2 * x1 * x1 * x1 * x1 * x1 * x1 * y1 * x2 * x2 * x2 * x2 * y2 * x3 * x3 * x3 * a * a * d * d * d * d + x1 * x1 * x1 * x1 * x1 * x1 * y1 * x2 * x2 * x2 * x2 * y2 * x3 * x3 * x3 * y3 * y3 * a * d * d * d * d * d - x1 * x1 * x1 * x1 * x1 * x1 * y1 * x2 * x2 * x2 * x2 * x2 * y3 * d * d * d * d * d - 2 * x1 * x1 * x1 * x1 * x1 * x1 * y1 * x2 * x2 * x2 * x2 * x2 * y3 * a * d * d * d * d + x1 * x1 * x1 * x1 * x1 * x1 * y1 * x2 * x2 * x2 * x2 * x2 * y3 * y3 * y3 * d * d * d * d * d + 2 * x1 * x1 * x1 * x1 * x1 * x1 * y1 * x2 * x2 * x2 * x2 * x2 * y3 * y3 * y3 * a * d * d * d * d + x1 * x1 * x1 * x1 * x1 * x1 * y1 * x2 * x2 * x2 * x2 * x2 * x3 * x3 * y3 * a * d * d * d * d * d + 2 * x1 * x1 * x1 * x1 * x1 * x1 * y1 * x2 * x2 * x2 * x2 * x2 * x3 * x3 * y3 * a * a * d * d * d * d - x1 * x1 * x1 * x1 * x1 * x1 * y1 * x2 * x2 * x2 * x2 * x2 * x3 * x3 * y3 * y3 * y3 * d * d * d * d * d * d - 2 * x1 * x1 * x1 * x1 * x1 * x1 * y1 * x2 * x2 * x2 * x2 * x2 * x3 * x3 * y3 * y3 * y3 * a * d * d * d * d * d + 3 * x1 * x1 * x1 * x1 * x1 * x1 * y1 * x2 * x2 * x2 * x2 * x2 * y2 * y2 * x3 * x3 * y3 * a * d * d * d * d * d - 3 * x1 * x1 * x1 * x1 * x1 * x1 * y1 * x2 * x2 * x2 * x2 * x2 * y2 * y2 * x3 * x3 * y3 * y3 * y3 * d * d * d * d * d * d + x1 * x1 * x1 * x1 * x1 * x1 * y1 * x2 * x2 * x2 * x2 * x2 * x2 * y2 * x3 * a * d * d * d * d * d + 2 * x1 * x1 * x1 * x1 * x1 * x1 * y1 * x2 * x2 * x2 * x2 * x2 * x2 * y2 * x3 * y3 * y3 * a * d * d * d * d * d - x1 * x1 * x1 * x1 * x1 * x1 * y1 * x2 * x2 * x2 * x2 * x2 * x2 * y2 * x3 * x3 * x3 * a * a * d * d * d * d * d - 2 * x1 * x1 * x1 * x1 * x1 * x1 * y1 * x2 * x2 * x2 * x2 * x2 * x2 * y2 * x3 * x3 * x3 * y3 * y3 * a * d * d * d * d * d * d + x1 * x1 * x1 * x1 * x1 * x1 * y1 * x2 * x2 * x2 * x2 * x2 * x2 * x2 * y3 * a * d * d * d * d * d - x1 * x1 * x1 * x1 * x1 * x1 * y1 * x2 * x2 * x2 * x2 * x2 * x2 * x2 * y3 * y3 * y3 * a * d * d * d * d * d - x1 * x1 * x1 * x1 * x1 * x1 * y1 * x2 * x2 * x2 * x2 * x2 * x2 * x2 * x3 * x3 * y3 * a * a * d * d * d * d * d + x1 * x1 * x1 * x1 * x1 * x1 * y1 * x2 * x2 * x2 * x2 * x2 * x2 * x2 * x3 * x3 * y3 * y3 * y3 * a * d * d * d * d * d * d - x1 * x1 * x1 * x1 * x1 * x1 * y1 * x2 * x2 * x2 * x2 * x2 * x2 * x2 * y2 * y2 * x3 * x3 * y3 * a * d * d * d * d * d * d + x1 * x1 * x1 * x1 * x1 * x1 * y1 * x2 * x2 * x2 * x2 * x2 * x2 * x2 * y2 * y2 * x3 * x3 * y3 * y3 * y3 * d * d * d * d * d * d * d - x1 * x1 * x1 * x1 * x1 * x1 * y1 * x2 * x2 * x2 * x2 * x2 * x2 * x2 * x2 * y2 * x3 * y3 * y3 * a * d * d * d * d * d * d + x1 * x1 * x1 * x1 * x1 * x1 * y1 * x2 * x2 * x2 * x2 * x2 * x2 * x2 * x2 * y2 * x3 * x3 * x3 * y3 * y3 * a * d * d * d * d * d * d * d - x1 * x1 * x1 * x1 * x1 * x1 * x1 * x2 * y2 * y2 * x3 * y3 * y3 * a * d * d * d + x1 * x1 * x1 * x1 * x1 * x1 * x1 * x2 * x2 * y2 * y3 * a * d * d * d - x1 * x1 * x1 * x1 * x1 * x1 * x1 * x2 * x2 * y2 * y3 * y3 * y3 * a * d * d * d + x1 * x1 * x1 * x1 * x1 * x1 * x1 * x2 * x2 * y2 * x3 * x3 * y3 * y3 * y3 * a * d * d * d * d - x1 * x1 * x1 * x1 * x1 * x1 * x1 * x2 * x2 * x2 * x3 * a * a * d * d * d + x1 * x1 * x1 * x1 * x1 * x1 * x1 * x2 * x2 * x2 * x3 * y3 * y3 * a * a * d * d * d + x1 * x1 * x1 * x1 * x1 * x1 * x1 * x2 * x2 * x2 * x3 * x3 * x3 * a * a * a * d * d * d - x1 * x1 * x1 * x1 * x1 * x1 * x1 * x2 * x2 * x2 * x3 * x3 * x3 * y3 * y3 * a * a * d * d * d * d + 3 * x1 * x1 * x1 * x1 * x1 * x1 * x1 * x2 * x2 * x2 * y2 * y2 * x3 * y3 * y3 * a * d * d * d * d - 2 * x1 * x1 * x1 * x1 * x1 * x1 * x1 * x2 * x2 * x2 * x2 * y2 * y3 * a * d * d * d * d + 2 * x1 * x1 * x1 * x1 * x1 * x1 * x1 * x2 * x2 * x2 * x2 * y2 * y3 * y3 * y3 * a * d * d * d * d - x1 * x1 * x1 * x1 * x1 * x1 * x1 * x2 * x2 * x2 * x2 * y2 * x3 * x3 * y3 * a * a * d * d * d * d - 2 * x1 * x1 * x1 * x1 * x1 * x1 * x1 * x2 * x2 * x2 * x2 * y2 * x3 * x3 * y3 * y3 * y3 * a * d * d * d * d * d + 2 * x1 * x1 * x1 * x1 * x1 * x1 * x1 * x2 * x2 * x2 * x2 * x2 * x3 * a * a * d * d * d * d - 2 * x1 * x1 * x1 * x1 * x1 * x1 * x1 * x2 * x2 * x2 * x2 * x2 * x3 * y3 * y3 * a * a * d * d * d * d - 2 * x1 * x1 * x1 * x1 * x1 * x1 * x1 * x2 * x2 * x2 * x2 * x2 * x3 * x3 * x3 * a * a * a * d * d * d * d + 2 * x1 * x1 * x1 * x1 * x1 * x1 * x1 * x2 * x2 * x2 * x2 * x2 * x3 * x3 * x3 * y3 * y3 * a * a * d * d * d * d * d - 3 * x1 * x1 * x1 * x1 * x1 * x1 * x1 * x2 * x2 * x2 * x2 * x2 * y2 * y2 * x3 * y3 * y3 * a * d * d * d * d * d + x1 * x1 * x1 * x1 * x1 * x1 * x1 * x2 * x2 * x2 * x2 * x2 * x2 * y2 * y3 * a * d * d * d * d * d - x1 * x1 * x1 * x1 * x1 * x1 * x1 * x2 * x2 * x2 * x2 * x2 * x2 * y2 * y3 * y3 * y3 * a * d * d * d * d * d + 2 * x1 * x1 * x1 * x1 * x1 * x1 * x1 * x2 * x2 * x2 * x2 * x2 * x2 * y2 * x3 * x3 * y3 * a * a * d * d * d * d * d + x1 * x1 * x1 * x1 * x1 * x1 * x1 * x2 * x2 * x2 * x2 * x2 * x2 * y2 * x3 * x3 * y3 * y3 * y3 * a * d * d * d * d * d * d - x1 * x1 * x1 * x1 * x1 * x1 * x1 * x2 * x2 * x2 * x2 * x2 * x2 * x2 * x3 * a * a * d * d * d * d * d + x1 * x1 * x1 * x1 * x1 * x1 * x1 * x2 * x2 * x2 * x2 * x2 * x2 * x2 * x3 * y3 * y3 * a * a * d * d * d * d * d + x1 * x1 * x1 * x1 * x1 * x1 * x1 * x2 * x2 * x2 * x2 * x2 * x2 * x2 * x3 * x3 * x3 * a * a * a * d * d * d * d * d - x1 * x1 * x1 * x1 * x1 * x1 * x1 * x2 * x2 * x2 * x2 * x2 * x2 * x2 * x3 * x3 * x3 * y3 * y3 * a * a * d * d * d * d * d * d + x1 * x1 * x1 * x1 * x1 * x1 * x1 * x2 * x2 * x2 * x2 * x2 * x2 * x2 * y2 * y2 * x3 * y3 * y3 * a * d * d * d * d * d * d - x1 * x1 * x1 * x1 * x1 * x1 * x1 * x2 * x2 * x2 * x2 * x2 * x2 * x2 * x2 * y2 * x3 * x3 * y3 * a * a * d * d * d * d * d * d) * (1 - d * x3 * x3) * (1 - d * x3 * x3) * ((1 - d * x2 * x2) * (y2 * y2) - (1 - a * x2 * x2))
  + (0 - x1 * x2 * x3 * d + 2 * x1 * x2 * x3 * x3 * x3 * d * d - x1 * x2 * x3 * x3 * x3 * x3 * x3 * d * d * d + x1 * x2 * x2 * y2 * y3 * d - 2 * x1 * x2 * x2 * y2 * x3 * x3 * y3 * d * d + x1 * x2 * x2 * y2 * x3 * x3 * x3 * x3 * y3 * d * d * d + 2 * x1 * x2 * x2 * x2 * x3 * d * d + x1 * x2 * x2 * x2 * x3 * a * d - 4 * x1 * x2 * x2 * x2 * x3 * x3 * x3 * d * d * d - 2 * x1 * x2 * x2 * x2 * x3 * x3 * x3 * a * d * d + 2 * x1 * x2 * x2 * x2 * x3 * x3 * x3 * x3 * x3 * d * d * d * d + x1 * x2 * x2 * x2 * x3 * x3 * x3 * x3 * x3 * a * d * d * d - 3 * x1 * x2 * x2 * x2 * x2 * y2 * y3 * d * d + 6 * x1 * x2 * x2 * x2 * x2 * y2 * x3 * x3 * y3 * d * d * d - 3 * x1 * x2 * x2 * x2 * x2 * y2 * x3 * x3 * x3 * x3 * y3 * d * d * d * d - x1 * x2 * x2 * x2 * x2 * x2 * x3 * d * d * d - 2 * x1 * x2 * x2 * x2 * x2 * x2 * x3 * a * d * d + 2 * x1 * x2 * x2 * x2 * x2 * x2 * x3 * x3 * x3 * d * d * d * d + 4 * x1 * x2 * x2 * x2 * x2 * x2 * x3 * x3 * x3 * a * d * d * d - x1 * x2 * x2 * x2 * x2 * x2 * x3 * x3 * x3 * x3 * x3 * d * d * d * d * d - 2 * x1 * x2 * x2 * x2 * x2 * x2 * x3 * x3 * x3 * x3 * x3 * a * d * d * d * d + 3 * x1 * x2 * x2 * x2 * x2 * x2 * x2 * y2 * y3 * d * d * d - 6 * x1 * x2 * x2 * x2 * x2 * x2 * x2 * y2 * x3 * x3 * y3 * d * d * d * d + 3 * x1 * x2 * x2 * x2 * x2 * x2 * x2 * y2 * x3 * x3 * x3 * x3 * y3 * d * d * d * d * d + x1 * x2 * x2 * x2 * x2 * x2 * x2 * x2 * x3 * a * d * d * d - 2 * x1 * x2 * x2 * x2 * x2 * x2 * x2 * x2 * x3 * x3 * x3 * a * d * d * d * d + x1 * x2 * x2 * x2 * x2 * x2 * x2 * x2 * x3 * x3 * x3 * x3 * x3 * a * d * d * d * d * d - x1 * x2 * x2 * x2 * x2 * x2 * x2 * x2 * x2 * y2 * y3 * d * d * d * d + 2 * x1 * x2 * x2 * x2 * x2 * x2 * x2 * x2 * x2 * y2 * x3 * x3 * y3 * d * d * d * d * d - x1 * x2 * x2 * x2 * x2 * x2 * x2 * x2 * x2 * y2 * x3 * x3 * x3 * x3 * y3 * d * d * d * d * d * d + x1 * x1 * y1 * x2 * y3 * d - 2 * x1 * x1 * y1 * x2 * x3 * x3 * y3 * d * d + x1 * x1 * y1 * x2 * x3 * x3 * x3 * x3 * y3 * d * d * d - x1 * x1 * y1 * x2 * x2 * y2 * x3 * d * d + x1 * x1 * y1 * x2 * x2 * y2 * x3 * a * d + 2 * x1 * x1 * y1 * x2 * x2 * y2 * x3 * x3 * x3 * d * d * d - 2 * x1 * x1 * y1 * x2 * x2 * y2 * x3 * x3 * x3 * a * d * d - x1 * x1 * y1 * x2 * x2 * y2 * x3 * x3 * x3 * x3 * x3 * d * d * d * d + x1 * x1 * y1 * x2 * x2 * y2 * x3 * x3 * x3 * x3 * x3 * a * d * d * d - 3 * x1 * x1 * y1 * x2 * x2 * x2 * y3 * d * d - x1 * x1 * y1 * x2 * x2 * x2 * y3 * a * d + 6 * x1 * x1 * y1 * x2 * x2 * x2 * x3 * x3 * y3 * d * d * d + 2 * x1 * x1 * y1 * x2 * x2 * x2 * x3 * x3 * y3 * a * d * d - 3 * x1 * x1 * y1 * x2 * x2 * x2 * x3 * x3 * x3 * x3 * y3 * d * d * d * d - x1 * x1 * y1 * x2 * x2 * x2 * x3 * x3 * x3 * x3 * y3 * a * d * d * d + 2 * x1 * x1 * y1 * x2 * x2 * x2 * x2 * y2 * x3 * d * d * d - 2 * x1 * x1 * y1 * x2 * x2 * x2 * x2 * y2 * x3 * a * d * d - 4 * x1 * x1 * y1 * x2 * x2 * x2 * x2 * y2 * x3 * x3 * x3 * d * d * d * d + 4 * x1 * x1 * y1 * x2 * x2 * x2 * x2 * y2 * x3 * x3 * x3 * a * d * d * d + 2 * x1 * x1 * y1 * x2 * x2 * x2 * x2 * y2 * x3 * x3 * x3 * x3 * x3 * d * d * d * d * d - 2 * x1 * x1 * y1 * x2 * x2 * x2 * x2 * y2 * x3 * x3 * x3 * x3 * x3 * a * d * d * d * d + 3 * x1 * x1 * y1 * x2 * x2 * x2 * x2 * x2 * y3 * d * d * d + 3 * x1 * x1 * y1 * x2 * x2 * x2 * x2 * x2 * y3 * a * d * d - 6 * x1 * x1 * y1 * x2 * x2 * x2 * x2 * x2 * x3 * x3 * y3 * d * d * d * d - 6 * x1 * x1 * y1 * x2 * x2 * x2 * x2 * x2 * x3 * x3 * y3 * a * d * d * d + 3 * x1 * x1 * y1 * x2 * x2 * x2 * x2 * x2 * x3 * x3 * x3 * x3 * y3 * d * d * d * d * d + 3 * x1 * x1 * y1 * x2 * x2 * x2 * x2 * x2 * x3 * x3 * x3 * x3 * y3 * a * d * d * d * d - x1 * x1 * y1 * x2 * x2 * x2 * x2 * x2 * x2 * y2 * x3 * d * d * d * d + x1 * x1 * y1 * x2 * x2 * x2 * x2 * x2 * x2 * y2 * x3 * a * d * d * d + 2 * x1 * x1 * y1 * x2 * x2 * x2 * x2 * x2 * x2 * y2 * x3 * x3 * x3 * d * d * d * d * d - 2 * x1 * x1 * y1 * x2 * x2 * x2 * x2 * x2 * x2 * y2 * x3 * x3 * x3 * a * d * d * d * d - x1 * x1 * y1 * x2 * x2 * x2 * x2 * x2 * x2 * y2 * x3 * x3 * x3 * x3 * x3 * d * d * d * d * d * d + x1 * x1 * y1 * x2 * x2 * x2 * x2 * x2 * x2 * y2 * x3 * x3 * x3 * x3 * x3 * a * d * d * d * d * d - x1 * x1 * y1 * x2 * x2 * x2 * x2 * x2 * x2 * x2 * y3 * d * d * d * d - 3 * x1 * x1 * y1 * x2 * x2 * x2 * x2 * x2 * x2 * x2 * y3 * a * d * d * d + 2 * x1 * x1 * y1 * x2 * x2 * x2 * x2 * x2 * x2 * x2 * x3 * x3 * y3 * d * d * d * d * d + 6 * x1 * x1 * y1 * x2 * x2 * x2 * x2 * x2 * x2 * x2 * x3 * x3 * y3 * a * d * d * d * d - x1 * x1 * y1 * x2 * x2 * x2 * x2 * x2 * x2 * x2 * x3 * x3 * x3 * x3 * y3 * d * d * d * d * d * d - 3 * x1 * x1 * y1 * x2 * x2 * x2 * x2 * x2 * x2 * x2 * x3 * x3 * x3 * x3 * y3 * a * d * d * d * d * d + x1 * x1 * y1 * x2 * x2 * x2 * x2 * x2 * x2 * x2 * x2 * x2 * y3 * a * d * d * d * d - 2 * x1 * x1 * y1 * x2 * x2 * x2 * x2 * x2 * x2 * x2 * x2 * x2 * x3 * x3 * y3 * a * d * d * d * d * d + x1 * x1 * y1 * x2 * x2 * x2 * x2 * x2 * x2 * x2 * x2 * x2 * x3 * x3 * x3 * x3 * y3 * a * d * d * d * d * d * d + x1 * x1 * x1 * x2 * x3 * d * d + x1 * x1 * x1 * x2 * x3 * a * d - 2 * x1 * x1 * x1 * x2 * x3 * x3 * x3 * d * d * d - 2 * x1 * x1 * x1 * x2 * x3 * x3 * x3 * a * d * d + x1 * x1 * x1 * x2 * x3 * x3 * x3 * x3 * x3 * d * d * d * d + x1 * x1 * x1 * x2 * x3 * x3 * x3 * x3 * x3 * a * d * d * d - 2 * x1 * x1 * x1 * x2 * x2 * y2 * y3 * d * d - x1 * x1 * x1 * x2 * x2 * y2 * y3 * a * d + 4 * x1 * x1 * x1 * x2 * x2 * y2 * x3 * x3 * y3 * d * d * d + 2 * x1 * x1 * x1 * x2 * x2 * y2 * x3 * x3 * y3 * a * d * d - 2 * x1 * x1 * x1 * x2 * x2 * y2 * x3 * x3 * x3 * x3 * y3 * d * d * d * d - x1 * x1 * x1 * x2 * x2 * y2 * x3 * x3 * x3 * x3 * y3 * a * d * d * d - 2 * x1 * x1 * x1 * x2 * x2 * x2 * x3 * d * d * d - 2 * x1 * x1 * x1 * x2 * x2 * x2 * x3 * a * d * d - x1 * x1 * x1 * x2 * x2 * x2 * x3 * a * a * d + 4 * x1 * x1 * x1 * x2 * x2 * x2 * x3 * x3 * x3 * d * d * d * d + 4 * x1 * x1 * x1 * x2 * x2 * x2 * x3 * x3 * x3 * a * d * d * d + 2 * x1 * x1 * x1 * x2 * x2 * x2 * x3 * x3 * x3 * a * a * d * d - 2 * x1 * x1 * x1 * x2 * x2 * x2 * x3 * x3 * x3 * x3 * x3 * d * d * d * d * d - 2 * x1 * x1 * x1 * x2 * x2 * x2 * x3 * x3 * x3 * x3 * x3 * a * d * d * d * d - x1 * x1 * x1 * x2 * x2 * x2 * x3 * x3 * x3 * x3 * x3 * a * a * d * d * d + 5 * x1 * x1 * x1 * x2 * x2 * x2 * x2 * y2 * y3 * d * d * d + 4 * x1 * x1 * x1 * x2 * x2 * x2 * x2 * y2 * y3 * a * d * d - 10 * x1 * x1 * x1 * x2 * x2 * x2 * x2 * y2 * x3 * x3 * y3 * d * d * d * d - 8 * x1 * x1 * x1 * x2 * x2 * x2 * x2 * y2 * x3 * x3 * y3 * a * d * d * d + 5 * x1 * x1 * x1 * x2 * x2 * x2 * x2 * y2 * x3 * x3 * x3 * x3 * y3 * d * d * d * d * d + 4 * x1 * x1 * x1 * x2 * x2 * x2 * x2 * y2 * x3 * x3 * x3 * x3 * y3 * a * d * d * d * d + x1 * x1 * x1 * x2 * x2 * x2 * x2 * x2 * x3 * d * d * d * d + x1 * x1 * x1 * x2 * x2 * x2 * x2 * x2 * x3 * a * d * d * d + x1 * x1 * x1 * x2 * x2 * x2 * x2 * x2 * x3 * a * a * d * d - 2 * x1 * x1 * x1 * x2 * x2 * x2 * x2 * x2 * x3 * x3 * x3 * d * d * d * d * d - 2 * x1 * x1 * x1 * x2 * x2 * x2 * x2 * x2 * x3 * x3 * x3 * a * d * d * d * d - 2 * x1 * x1 * x1 * x2 * x2 * x2 * x2 * x2 * x3 * x3 * x3 * a * a * d * d * d + x1 * x1 * x1 * x2 * x2 * x2 * x2 * x2 * x3 * x3 * x3 * x3 * x3 * d * d * d * d * d * d + x1 * x1 * x1 * x2 * x2 * x2 * x2 * x2 * x3 * x3 * x3 * x3 * x3 * a * d * d * d * d * d + x1 * x1 * x1 * x2 * x2 * x2 * x2 * x2 * x3 * x3 * x3 * x3 * x3 * a * a * d * d * d * d - 4 * x1 * x1 * x1 * x2 * x2 * x2 * x2 * x2 * x2 * y2 * y3 * d * d * d * d - 5 * x1 * x1 * x1 * x2 * x2 * x2 * x2 * x2 * x2 * y2 * y3 * a * d * d * d + 8 * x1 * x1 * x1 * x2 * x2 * x2 * x2 * x2 * x2 * y2 * x3 * x3 * y3 * d * d * d * d * d + 10 * x1 * x1 * x1 * x2 * x2 * x2 * x2 * x2 * x2 * y2 * x3 * x3 * y3 * a * d * d * d * d - 4 * x1 * x1 * x1 * x2 * x2 * x2 * x2 * x2 * x2 * y2 * x3 * x3 * x3 * x3 * y3 * d * d * d * d * d * d - 5 * x1 * x1 * x1 * x2 * x2 * x2 * x2 * x2 * x2 * y2 * x3 * x3 * x3 * x3 * y3 * a * d * d * d * d * d + x1 * x1 * x1 * x2 * x2 * x2 * x2 * x2 * x2 * x2 * x3 * a * a * d * d * d - 2 * x1 * x1 * x1 * x2 * x2 * x2 * x2 * x2 * x2 * x2 * x3 * x3 * x3 * a * a * d * d * d * d + x1 * x1 * x1 * x2 * x2 * x2 * x2 * x2 * x2 * x2 * x3 * x3 * x3 * x3 * x3 * a * a * d * d * d * d * d + x1 * x1 * x1 * x2 * x2 * x2 * x2 * x2 * x2 * x2 * x2 * y2 * y3 * d * d * d * d * d + 2 * x1 * x1 * x1 * x2 * x2 * x2 * x2 * x2 * x2 * x2 * x2 * y2 * y3 * a * d * d * d * d - 2 * x1 * x1 * x1 * x2 * x2 * x2 * x2 * x2 * x2 * x2 * x2 * y2 * x3 * x3 * y3 * d * d * d * d * d * d - 4 * x1 * x1 * x1 * x2 * x2 * x2 * x2 * x2 * x2 * x2 * x2 * y2 * x3 * x3 * y3 * a * d * d * d * d * d + x1 * x1 * x1 * x2 * x2 * x2 * x2 * x2 * x2 * x2 * x2 * y2 * x3 * x3 * x3 * x3 * y3 * d * d * d * d * d * d * d + 2 * x1 * x1 * x1 * x2 * x2 * x2 * x2 * x2 * x2 * x2 * x2 * y2 * x3 * x3 * x3 * x3 * y3 * a * d * d * d * d * d * d - x1 * x1 * x1 * x2 * x2 * x2 * x2 * x2 * x2 * x2 * x2 * x2 * x3 * a * a * d * d * d * d + 2 * x1 * x1 * x1 * x2 * x2 * x2 * x2 * x2 * x2 * x2 * x2 * x2 * x3 * x3 * x3 * a * a * d * d * d * d * d - x1 * x1 * x1 * x2 * x2 * x2 * x2 * x2 * x2 * x2 * x2 * x2 * x3 * x3 * x3 * x3 * x3 * a * a * d * d * d * d * d * d - 2 * x1 * x1 * x1 * x1 * y1 * x2 * y3 * d * d + 4 * x1 * x1 * x1 * x1 * y1 * x2 * x3 * x3 * y3 * d * d * d - 2 * x1 * x1 * x1 * x1 * y1 * x2 * x3 * x3 * x3 * x3 * y3 * d * d * d * d + x1 * x1 * x1 * x1 * y1 * x2 * x2 * y2 * x3 * d * d * d - x1 * x1 * x1 * x1 * y1 * x2 * x2 * y2 * x3 * a * d * d - 2 * x1 * x1 * x1 * x1 * y1 * x2 * x2 * y2 * x3 * x3 * x3 * d * d * d * d + 2 * x1 * x1 * x1 * x1 * y1 * x2 * x2 * y2 * x3 * x3 * x3 * a * d * d * d + x1 * x1 * x1 * x1 * y1 * x2 * x2 * y2 * x3 * x3 * x3 * x3 * x3 * d * d * d * d * d - x1 * x1 * x1 * x1 * y1 * x2 * x2 * y2 * x3 * x3 * x3 * x3 * x3 * a * d * d * d * d + 5 * x1 * x1 * x1 * x1 * y1 * x2 * x2 * x2 * y3 * d * d * d + 3 * x1 * x1 * x1 * x1 * y1 * x2 * x2 * x2 * y3 * a * d * d - 10 * x1 * x1 * x1 * x1 * y1 * x2 * x2 * x2 * x3 * x3 * y3 * d * d * d * d - 6 * x1 * x1 * x1 * x1 * y1 * x2 * x2 * x2 * x3 * x3 * y3 * a * d * d * d + 5 * x1 * x1 * x1 * x1 * y1 * x2 * x2 * x2 * x3 * x3 * x3 * x3 * y3 * d * d * d * d * d + 3 * x1 * x1 * x1 * x1 * y1 * x2 * x2 * x2 * x3 * x3 * x3 * x3 * y3 * a * d * d * d * d - 2 * x1 * x1 * x1 * x1 * y1 * x2 * x2 * x2 * x2 * y2 * x3 * d * d * d * d + 3 * x1 * x1 * x1 * x1 * y1 * x2 * x2 * x2 * x2 * y2 * x3 * a * d * d * d - x1 * x1 * x1 * x1 * y1 * x2 * x2 * x2 * x2 * y2 * x3 * a * a * d * d + 4 * x1 * x1 * x1 * x1 * y1 * x2 * x2 * x2 * x2 * y2 * x3 * x3 * x3 * d * d * d * d * d - 6 * x1 * x1 * x1 * x1 * y1 * x2 * x2 * x2 * x2 * y2 * x3 * x3 * x3 * a * d * d * d * d + 2 * x1 * x1 * x1 * x1 * y1 * x2 * x2 * x2 * x2 * y2 * x3 * x3 * x3 * a * a * d * d * d - 2 * x1 * x1 * x1 * x1 * y1 * x2 * x2 * x2 * x2 * y2 * x3 * x3 * x3 * x3 * x3 * d * d * d * d * d * d + 3 * x1 * x1 * x1 * x1 * y1 * x2 * x2 * x2 * x2 * y2 * x3 * x3 * x3 * x3 * x3 * a * d * d * d * d * d - x1 * x1 * x1 * x1 * y1 * x2 * x2 * x2 * x2 * y2 * x3 * x3 * x3 * x3 * x3 * a * a * d * d * d * d - 4 * x1 * x1 * x1 * x1 * y1 * x2 * x2 * x2 * x2 * x2 * y3 * d * d * d * d - 7 * x1 * x1 * x1 * x1 * y1 * x2 * x2 * x2 * x2 * x2 * y3 * a * d * d * d - x1 * x1 * x1 * x1 * y1 * x2 * x2 * x2 * x2 * x2 * y3 * a * a * d * d + 8 * x1 * x1 * x1 * x1 * y1 * x2 * x2 * x2 * x2 * x2 * x3 * x3 * y3 * d * d * d * d * d + 14 * x1 * x1 * x1 * x1 * y1 * x2 * x2 * x2 * x2 * x2 * x3 * x3 * y3 * a * d * d * d * d + 2 * x1 * x1 * x1 * x1 * y1 * x2 * x2 * x2 * x2 * x2 * x3 * x3 * y3 * a * a * d * d * d - 4 * x1 * x1 * x1 * x1 * y1 * x2 * x2 * x2 * x2 * x2 * x3 * x3 * x3 * x3 * y3 * d * d * d * d * d * d - 7 * x1 * x1 * x1 * x1 * y1 * x2 * x2 * x2 * x2 * x2 * x3 * x3 * x3 * x3 * y3 * a * d * d * d * d * d - x1 * x1 * x1 * x1 * y1 * x2 * x2 * x2 * x2 * x2 * x3 * x3 * x3 * x3 * y3 * a * a * d * d * d * d + x1 * x1 * x1 * x1 * y1 * x2 * x2 * x2 * x2 * x2 * x2 * y2 * x3 * d * d * d * d * d - 3 * x1 * x1 * x1 * x1 * y1 * x2 * x2 * x2 * x2 * x2 * x2 * y2 * x3 * a * d * d * d * d + 2 * x1 * x1 * x1 * x1 * y1 * x2 * x2 * x2 * x2 * x2 * x2 * y2 * x3 * a * a * d * d * d - 2 * x1 * x1 * x1 * x1 * y1 * x2 * x2 * x2 * x2 * x2 * x2 * y2 * x3 * x3 * x3 * d * d * d * d * d * d + 6 * x1 * x1 * x1 * x1 * y1 * x2 * x2 * x2 * x2 * x2 * x2 * y2 * x3 * x3 * x3 * a * d * d * d * d * d - 4 * x1 * x1 * x1 * x1 * y1 * x2 * x2 * x2 * x2 * x2 * x2 * y2 * x3 * x3 * x3 * a * a * d * d * d * d + x1 * x1 * x1 * x1 * y1 * x2 * x2 * x2 * x2 * x2 * x2 * y2 * x3 * x3 * x3 * x3 * x3 * d * d * d * d * d * d * d - 3 * x1 * x1 * x1 * x1 * y1 * x2 * x2 * x2 * x2 * x2 * x2 * y2 * x3 * x3 * x3 * x3 * x3 * a * d * d * d * d * d * d + 2 * x1 * x1 * x1 * x1 * y1 * x2 * x2 * x2 * x2 * x2 * x2 * y2 * x3 * x3 * x3 * x3 * x3 * a * a * d * d * d * d * d + x1 * x1 * x1 * x1 * y1 * x2 * x2 * x2 * x2 * x2 * x2 * x2 * y3 * d * d * d * d * d + 5 * x1 * x1 * x1 * x1 * y1 * x2 * x2 * x2 * x2 * x2 * x2 * x2 * y3 * a * d * d * d * d + 2 * x1 * x1 * x1 * x1 * y1 * x2 * x2 * x2 * x2 * x2 * x2 * x2 * y3 * a * a * d * d * d - 2 * x1 * x1 * x1 * x1 * y1 * x2 * x2 * x2 * x2 * x2 * x2 * x2 * x3 * x3 * y3 * d * d * d * d * d * d - 10 * x1 * x1 * x1 * x1 * y1 * x2 * x2 * x2 * x2 * x2 * x2 * x2 * x3 * x3 * y3 * a * d * d * d * d * d - 4 * x1 * x1 * x1 * x1 * y1 * x2 * x2 * x2 * x2 * x2 * x2 * x2 * x3 * x3 * y3 * a * a * d * d * d * d + x1 * x1 * x1 * x1 * y1 * x2 * x2 * x2 * x2 * x2 * x2 * x2 * x3 * x3 * x3 * x3 * y3 * d * d * d * d * d * d * d + 5 * x1 * x1 * x1 * x1 * y1 * x2 * x2 * x2 * x2 * x2 * x2 * x2 * x3 * x3 * x3 * x3 * y3 * a * d * d * d * d * d * d + 2 * x1 * x1 * x1 * x1 * y1 * x2 * x2 * x2 * x2 * x2 * x2 * x2 * x3 * x3 * x3 * x3 * y3 * a * a * d * d * d * d * d + x1 * x1 * x1 * x1 * y1 * x2 * x2 * x2 * x2 * x2 * x2 * x2 * x2 * y2 * x3 * a * d * d * d * d * d - x1 * x1 * x1 * x1 * y1 * x2 * x2 * x2 * x2 * x2 * x2 * x2 * x2 * y2 * x3 * a * a * d * d * d * d - 2 * x1 * x1 * x1 * x1 * y1 * x2 * x2 * x2 * x2 * x2 * x2 * x2 * x2 * y2 * x3 * x3 * x3 * a * d * d * d * d * d * d + 2 * x1 * x1 * x1 * x1 * y1 * x2 * x2 * x2 * x2 * x2 * x2 * x2 * x2 * y2 * x3 * x3 * x3 * a * a * d * d * d * d * d + x1 * x1 * x1 * x1 * y1 * x2 * x2 * x2 * x2 * x2 * x2 * x2 * x2 * y2 * x3 * x3 * x3 * x3 * x3 * a * d * d * d * d * d * d * d - x1 * x1 * x1 * x1 * y1 * x2 * x2 * x2 * x2 * x2 * x2 * x2 * x2 * y2 * x3 * x3 * x3 * x3 * x3 * a * a * d * d * d * d * d * d - x1 * x1 * x1 * x1 * y1 * x2 * x2 * x2 * x2 * x2 * x2 * x2 * x2 * x2 * y3 * a * d * d * d * d * d - x1 * x1 * x1 * x1 * y1 * x2 * x2 * x2 * x2 * x2 * x2 * x2 * x2 * x2 * y3 * a * a * d * d * d * d + 2 * x1 * x1 * x1 * x1 * y1 * x2 * x2 * x2 * x2 * x2 * x2 * x2 * x2 * x2 * x3 * x3 * y3 * a * d * d * d * d * d * d + 2 * x1 * x1 * x1 * x1 * y1 * x2 * x2 * x2 * x2 * x2 * x2 * x2 * x2 * x2 * x3 * x3 * y3 * a * a * d * d * d * d * d - x1 * x1 * x1 * x1 * y1 * x2 * x2 * x2 * x2 * x2 * x2 * x2 * x2 * x2 * x3 * x3 * x3 * x3 * y3 * a * d * d * d * d * d * d * d - x1 * x1 * x1 * x1 * y1 * x2 * x2 * x2 * x2 * x2 * x2 * x2 * x2 * x2 * x3 * x3 * x3 * x3 * y3 * a * a * d * d * d * d * d * d - x1 * x1 * x1 * x1 * x1 * x2 * x3 * a * d * d + 2 * x1 * x1 * x1 * x1 * x1 * x2 * x3 * x3 * x3 * a * d * d * d - x1 * x1 * x1 * x1 * x1 * x2 * x3 * x3 * x3 * x3 * x3 * a * d * d * d * d + x1 * x1 * x1 * x1 * x1 * x2 * x2 * y2 * y3 * d * d * d + 2 * x1 * x1 * x1 * x1 * x1 * x2 * x2 * y2 * y3 * a * d * d - 2 * x1 * x1 * x1 * x1 * x1 * x2 * x2 * y2 * x3 * x3 * y3 * d * d * d * d - 4 * x1 * x1 * x1 * x1 * x1 * x2 * x2 * y2 * x3 * x3 * y3 * a * d * d * d + x1 * x1 * x1 * x1 * x1 * x2 * x2 * y2 * x3 * x3 * x3 * x3 * y3 * d * d * d * d * d + 2 * x1 * x1 * x1 * x1 * x1 * x2 * x2 * y2 * x3 * x3 * x3 * x3 * y3 * a * d * d * d * d + x1 * x1 * x1 * x1 * x1 * x2 * x2 * x2 * x3 * a * d * d * d - 2 * x1 * x1 * x1 * x1 * x1 * x2 * x2 * x2 * x3 * x3 * x3 * a * d * d * d * d + x1 * x1 * x1 * x1 * x1 * x2 * x2 * x2 * x3 * x3 * x3 * x3 * x3 * a * d * d * d * d * d - 2 * x1 * x1 * x1 * x1 * x1 * x2 * x2 * x2 * x2 * y2 * y3 * d * d * d * d - 6 * x1 * x1 * x1 * x1 * x1 * x2 * x2 * x2 * x2 * y2 * y3 * a * d * d * d - x1 * x1 * x1 * x1 * x1 * x2 * x2 * x2 * x2 * y2 * y3 * a * a * d * d + 4 * x1 * x1 * x1 * x1 * x1 * x2 * x2 * x2 * x2 * y2 * x3 * x3 * y3 * d * d * d * d * d + 12 * x1 * x1 * x1 * x1 * x1 * x2 * x2 * x2 * x2 * y2 * x3 * x3 * y3 * a * d * d * d * d + 2 * x1 * x1 * x1 * x1 * x1 * x2 * x2 * x2 * x2 * y2 * x3 * x3 * y3 * a * a * d * d * d - 2 * x1 * x1 * x1 * x1 * x1 * x2 * x2 * x2 * x2 * y2 * x3 * x3 * x3 * x3 * y3 * d * d * d * d * d * d - 6 * x1 * x1 * x1 * x1 * x1 * x2 * x2 * x2 * x2 * y2 * x3 * x3 * x3 * x3 * y3 * a * d * d * d * d * d - x1 * x1 * x1 * x1 * x1 * x2 * x2 * x2 * x2 * y2 * x3 * x3 * x3 * x3 * y3 * a * a * d * d * d * d + x1 * x1 * x1 * x1 * x1 * x2 * x2 * x2 * x2 * x2 * x3 * a * d * d * d * d + x1 * x1 * x1 * x1 * x1 * x2 * x2 * x2 * x2 * x2 * x3 * a * a * d * d * d + x1 * x1 * x1 * x1 * x1 * x2 * x2 * x2 * x2 * x2 * x3 * a * a * a * d * d - 2 * x1 * x1 * x1 * x1 * x1 * x2 * x2 * x2 * x2 * x2 * x3 * x3 * x3 * a * d * d * d * d * d - 2 * x1 * x1 * x1 * x1 * x1 * x2 * x2 * x2 * x2 * x2 * x3 * x3 * x3 * a * a * d * d * d * d - 2 * x1 * x1 * x1 * x1 * x1 * x2 * x2 * x2 * x2 * x2 * x3 * x3 * x3 * a * a * a * d * d * d + x1 * x1 * x1 * x1 * x1 * x2 * x2 * x2 * x2 * x2 * x3 * x3 * x3 * x3 * x3 * a * d * d * d * d * d * d + x1 * x1 * x1 * x1 * x1 * x2 * x2 * x2 * x2 * x2 * x3 * x3 * x3 * x3 * x3 * a * a * d * d * d * d * d + x1 * x1 * x1 * x1 * x1 * x2 * x2 * x2 * x2 * x2 * x3 * x3 * x3 * x3 * x3 * a * a * a * d * d * d * d + x1 * x1 * x1 * x1 * x1 * x2 * x2 * x2 * x2 * x2 * x2 * y2 * y3 * d * d * d * d * d + 6 * x1 * x1 * x1 * x1 * x1 * x2 * x2 * x2 * x2 * x2 * x2 * y2 * y3 * a * d * d * d * d + 2 * x1 * x1 * x1 * x1 * x1 * x2 * x2 * x2 * x2 * x2 * x2 * y2 * y3 * a * a * d * d * d - 2 * x1 * x1 * x1 * x1 * x1 * x2 * x2 * x2 * x2 * x2 * x2 * y2 * x3 * x3 * y3 * d * d * d * d * d * d - 12 * x1 * x1 * x1 * x1 * x1 * x2 * x2 * x2 * x2 * x2 * x2 * y2 * x3 * x3 * y3 * a * d * d * d * d * d - 4 * x1 * x1 * x1 * x1 * x1 * x2 * x2 * x2 * x2 * x2 * x2 * y2 * x3 * x3 * y3 * a * a * d * d * d * d + x1 * x1 * x1 * x1 * x1 * x2 * x2 * x2 * x2 * x2 * x2 * y2 * x3 * x3 * x3 * x3 * y3 * d * d * d * d * d * d * d + 6 * x1 * x1 * x1 * x1 * x1 * x2 * x2 * x2 * x2 * x2 * x2 * y2 * x3 * x3 * x3 * x3 * y3 * a * d * d * d * d * d * d + 2 * x1 * x1 * x1 * x1 * x1 * x2 * x2 * x2 * x2 * x2 * x2 * y2 * x3 * x3 * x3 * x3 * y3 * a * a * d * d * d * d * d - x1 * x1 * x1 * x1 * x1 * x2 * x2 * x2 * x2 * x2 * x2 * x2 * x3 * a * d * d * d * d * d - 2 * x1 * x1 * x1 * x1 * x1 * x2 * x2 * x2 * x2 * x2 * x2 * x2 * x3 * a * a * d * d * d * d - 2 * x1 * x1 * x1 * x1 * x1 * x2 * x2 * x2 * x2 * x2 * x2 * x2 * x3 * a * a * a * d * d * d + 2 * x1 * x1 * x1 * x1 * x1 * x2 * x2 * x2 * x2 * x2 * x2 * x2 * x3 * x3 * x3 * a * d * d * d * d * d * d + 4 * x1 * x1 * x1 * x1 * x1 * x2 * x2 * x2 * x2 * x2 * x2 * x2 * x3 * x3 * x3 * a * a * d * d * d * d * d + 4 * x1 * x1 * x1 * x1 * x1 * x2 * x2 * x2 * x2 * x2 * x2 * x2 * x3 * x3 * x3 * a * a * a * d * d * d * d - x1 * x1 * x1 * x1 * x1 * x2 * x2 * x2 * x2 * x2 * x2 * x2 * x3 * x3 * x3 * x3 * x3 * a * d * d * d * d * d * d * d - 2 * x1 * x1 * x1 * x1 * x1 * x2 * x2 * x2 * x2 * x2 * x2 * x2 * x3 * x3 * x3 * x3 * x3 * a * a * d * d * d * d * d * d - 2 * x1 * x1 * x1 * x1 * x1 * x2 * x2 * x2 * x2 * x2 * x2 * x2 * x3 * x3 * x3 * x3 * x3 * a * a * a * d * d * d * d * d - 2 * x1 * x1 * x1 * x1 * x1 * x2 * x2 * x2 * x2 * x2 * x2 * x2 * x2 * y2 * y3 * a * d * d * d * d * d - x1 * x1 * x1 * x1 * x1 * x2 * x2 * x2 * x2 * x2 * x2 * x2 * x2 * y2 * y3 * a * a * d * d * d * d + 4 * x1 * x1 * x1 * x1 * x1 * x2 * x2 * x2 * x2 * x2 * x2 * x2 * x2 * y2 * x3 * x3 * y3 * a * d * d * d * d * d * d + 2 * x1 * x1 * x1 * x1 * x1 * x2 * x2 * x2 * x2 * x2 * x2 * x2 * x2 * y2 * x3 * x3 * y3 * a * a * d * d * d * d * d - 2 * x1 * x1 * x1 * x1 * x1 * x2 * x2 * x2 * x2 * x2 * x2 * x2 * x2 * y2 * x3 * x3 * x3 * x3 * y3 * a * d * d * d * d * d * d * d - x1 * x1 * x1 * x1 * x1 * x2 * x2 * x2 * x2 * x2 * x2 * x2 * x2 * y2 * x3 * x3 * x3 * x3 * y3 * a * a * d * d * d * d * d * d + x1 * x1 * x1 * x1 * x1 * x2 * x2 * x2 * x2 * x2 * x2 * x2 * x2 * x2 * x3 * a * a * d * d * d * d * d + x1 * x1 * x1 * x1 * x1 * x2 * x2 * x2 * x2 * x2 * x2 * x2 * x2 * x2 * x3 * a * a * a * d * d * d * d - 2 * x1 * x1 * x1 * x1 * x1 * x2 * x2 * x2 * x2 * x2 * x2 * x2 * x2 * x2 * x3 * x3 * x3 * a * a * d * d * d * d * d * d - 2 * x1 * x1 * x1 * x1 * x1 * x2 * x2 * x2 * x2 * x2 * x2 * x2 * x2 * x2 * x3 * x3 * x3 * a * a * a * d * d * d * d * d + x1 * x1 * x1 * x1 * x1 * x2 * x2 * x2 * x2 * x2 * x2 * x2 * x2 * x2 * x3 * x3 * x3 * x3 * x3 * a * a * d * d * d * d * d * d * d + x1 * x1 * x1 * x1 * x1 * x2 * x2 * x2 * x2 * x2 * x2 * x2 * x2 * x2 * x3 * x3 * x3 * x3 * x3 * a * a * a * d * d * d * d * d * d + x1 * x1 * x1 * x1 * x1 * x1 * y1 * x2 * y3 * d * d * d - 2 * x1 * x1 * x1 * x1 * x1 * x1 * y1 * x2 * x3 * x3 * y3 * d * d * d * d + x1 * x1 * x1 * x1 * x1 * x1 * y1 * x2 * x3 * x3 * x3 * x3 * y3 * d * d * d * d * d - 2 * x1 * x1 * x1 * x1 * x1 * x1 * y1 * x2 * x2 * x2 * y3 * d * d * d * d - 2 * x1 * x1 * x1 * x1 * x1 * x1 * y1 * x2 * x2 * x2 * y3 * a * d * d * d + 4 * x1 * x1 * x1 * x1 * x1 * x1 * y1 * x2 * x2 * x2 * x3 * x3 * y3 * d * d * d * d * d + 4 * x1 * x1 * x1 * x1 * x1 * x1 * y1 * x2 * x2 * x2 * x3 * x3 * y3 * a * d * d * d * d - 2 * x1 * x1 * x1 * x1 * x1 * x1 * y1 * x2 * x2 * x2 * x3 * x3 * x3 * x3 * y3 * d * d * d * d * d * d - 2 * x1 * x1 * x1 * x1 * x1 * x1 * y1 * x2 * x2 * x2 * x3 * x3 * x3 * x3 * y3 * a * d * d * d * d * d - x1 * x1 * x1 * x1 * x1 * x1 * y1 * x2 * x2 * x2 * x2 * y2 * x3 * a * d * d * d * d + x1 * x1 * x1 * x1 * x1 * x1 * y1 * x2 * x2 * x2 * x2 * y2 * x3 * a * a * d * d * d + 2 * x1 * x1 * x1 * x1 * x1 * x1 * y1 * x2 * x2 * x2 * x2 * y2 * x3 * x3 * x3 * a * d * d * d * d * d - 2 * x1 * x1 * x1 * x1 * x1 * x1 * y1 * x2 * x2 * x2 * x2 * y2 * x3 * x3 * x3 * a * a * d * d * d * d - x1 * x1 * x1 * x1 * x1 * x1 * y1 * x2 * x2 * x2 * x2 * y2 * x3 * x3 * x3 * x3 * x3 * a * d * d * d * d * d * d + x1 * x1 * x1 * x1 * x1 * x1 * y1 * x2 * x2 * x2 * x2 * y2 * x3 * x3 * x3 * x3 * x3 * a * a * d * d * d * d * d + x1 * x1 * x1 * x1 * x1 * x1 * y1 * x2 * x2 * x2 * x2 * x2 * y3 * d * d * d * d * d + 4 * x1 * x1 * x1 * x1 * x1 * x1 * y1 * x2 * x2 * x2 * x2 * x2 * y3 * a * d * d * d * d + x1 * x1 * x1 * x1 * x1 * x1 * y1 * x2 * x2 * x2 * x2 * x2 * y3 * a * a * d * d * d - 2 * x1 * x1 * x1 * x1 * x1 * x1 * y1 * x2 * x2 * x2 * x2 * x2 * x3 * x3 * y3 * d * d * d * d * d * d - 8 * x1 * x1 * x1 * x1 * x1 * x1 * y1 * x2 * x2 * x2 * x2 * x2 * x3 * x3 * y3 * a * d * d * d * d * d - 2 * x1 * x1 * x1 * x1 * x1 * x1 * y1 * x2 * x2 * x2 * x2 * x2 * x3 * x3 * y3 * a * a * d * d * d * d + x1 * x1 * x1 * x1 * x1 * x1 * y1 * x2 * x2 * x2 * x2 * x2 * x3 * x3 * x3 * x3 * y3 * d * d * d * d * d * d * d + 4 * x1 * x1 * x1 * x1 * x1 * x1 * y1 * x2 * x2 * x2 * x2 * x2 * x3 * x3 * x3 * x3 * y3 * a * d * d * d * d * d * d + x1 * x1 * x1 * x1 * x1 * x1 * y1 * x2 * x2 * x2 * x2 * x2 * x3 * x3 * x3 * x3 * y3 * a * a * d * d * d * d * d + 2 * x1 * x1 * x1 * x1 * x1 * x1 * y1 * x2 * x2 * x2 * x2 * x2 * x2 * y2 * x3 * a * d * d * d * d * d - 2 * x1 * x1 * x1 * x1 * x1 * x1 * y1 * x2 * x2 * x2 * x2 * x2 * x2 * y2 * x3 * a * a * d * d * d * d - 4 * x1 * x1 * x1 * x1 * x1 * x1 * y1 * x2 * x2 * x2 * x2 * x2 * x2 * y2 * x3 * x3 * x3 * a * d * d * d * d * d * d + 4 * x1 * x1 * x1 * x1 * x1 * x1 * y1 * x2 * x2 * x2 * x2 * x2 * x2 * y2 * x3 * x3 * x3 * a * a * d * d * d * d * d + 2 * x1 * x1 * x1 * x1 * x1 * x1 * y1 * x2 * x2 * x2 * x2 * x2 * x2 * y2 * x3 * x3 * x3 * x3 * x3 * a * d * d * d * d * d * d * d - 2 * x1 * x1 * x1 * x1 * x1 * x1 * y1 * x2 * x2 * x2 * x2 * x2 * x2 * y2 * x3 * x3 * x3 * x3 * x3 * a * a * d * d * d * d * d * d - 2 * x1 * x1 * x1 * x1 * x1 * x1 * y1 * x2 * x2 * x2 * x2 * x2 * x2 * x2 * y3 * a * d * d * d * d * d - 2 * x1 * x1 * x1 * x1 * x1 * x1 * y1 * x2 * x2 * x2 * x2 * x2 * x2 * x2 * y3 * a * a * d * d * d * d + 4 * x1 * x1 * x1 * x1 * x1 * x1 * y1 * x2 * x2 * x2 * x2 * x2 * x2 * x2 * x3 * x3 * y3 * a * d * d * d * d * d * d + 4 * x1 * x1 * x1 * x1 * x1 * x1 * y1 * x2 * x2 * x2 * x2 * x2 * x2 * x2 * x3 * x3 * y3 * a * a * d * d * d * d * d - 2 * x1 * x1 * x1 * x1 * x1 * x1 * y1 * x2 * x2 * x2 * x2 * x2 * x2 * x2 * x3 * x3 * x3 * x3 * y3 * a * d * d * d * d * d * d * d - 2 * x1 * x1 * x1 * x1 * x1 * x1 * y1 * x2 * x2 * x2 * x2 * x2 * x2 * x2 * x3 * x3 * x3 * x3 * y3 * a * a * d * d * d * d * d * d - x1 * x1 * x1 * x1 * x1 * x1 * y1 * x2 * x2 * x2 * x2 * x2 * x2 * x2 * x2 * y2 * x3 * a * d * d * d * d * d * d + x1 * x1 * x1 * x1 * x1 * x1 * y1 * x2 * x2 * x2 * x2 * x2 * x2 * x2 * x2 * y2 * x3 * a * a * d * d * d * d * d + 2 * x1 * x1 * x1 * x1 * x1 * x1 * y1 * x2 * x2 * x2 * x2 * x2 * x2 * x2 * x2 * y2 * x3 * x3 * x3 * a * d * d * d * d * d * d * d - 2 * x1 * x1 * x1 * x1 * x1 * x1 * y1 * x2 * x2 * x2 * x2 * x2 * x2 * x2 * x2 * y2 * x3 * x3 * x3 * a * a * d * d * d * d * d * d - x1 * x1 * x1 * x1 * x1 * x1 * y1 * x2 * x2 * x2 * x2 * x2 * x2 * x2 * x2 * y2 * x3 * x3 * x3 * x3 * x3 * a * d * d * d * d * d * d * d * d + x1 * x1 * x1 * x1 * x1 * x1 * y1 * x2 * x2 * x2 * x2 * x2 * x2 * x2 * x2 * y2 * x3 * x3 * x3 * x3 * x3 * a * a * d * d * d * d * d * d * d + x1 * x1 * x1 * x1 * x1 * x1 * y1 * x2 * x2 * x2 * x2 * x2 * x2 * x2 * x2 * x2 * y3 * a * a * d * d * d * d * d - 2 * x1 * x1 * x1 * x1 * x1 * x1 * y1 * x2 * x2 * x2 * x2 * x2 * x2 * x2 * x2 * x2 * x3 * x3 * y3 * a * a * d * d * d * d * d * d + x1 * x1 * x1 * x1 * x1 * x1 * y1 * x2 * x2 * x2 * x2 * x2 * x2 * x2 * x2 * x2 * x3 * x3 * x3 * x3 * y3 * a * a * d * d * d * d * d * d * d - x1 * x1 * x1 * x1 * x1 * x1 * x1 * x2 * x2 * y2 * y3 * a * d * d * d + 2 * x1 * x1 * x1 * x1 * x1 * x1 * x1 * x2 * x2 * y2 * x3 * x3 * y3 * a * d * d * d * d - x1 * x1 * x1 * x1 * x1 * x1 * x1 * x2 * x2 * y2 * x3 * x3 * x3 * x3 * y3 * a * d * d * d * d * d + x1 * x1 * x1 * x1 * x1 * x1 * x1 * x2 * x2 * x2 * x3 * a * a * d * d * d - 2 * x1 * x1 * x1 * x1 * x1 * x1 * x1 * x2 * x2 * x2 * x3 * x3 * x3 * a * a * d * d * d * d + x1 * x1 * x1 * x1 * x1 * x1 * x1 * x2 * x2 * x2 * x3 * x3 * x3 * x3 * x3 * a * a * d * d * d * d * d + 2 * x1 * x1 * x1 * x1 * x1 * x1 * x1 * x2 * x2 * x2 * x2 * y2 * y3 * a * d * d * d * d + x1 * x1 * x1 * x1 * x1 * x1 * x1 * x2 * x2 * x2 * x2 * y2 * y3 * a * a * d * d * d - 4 * x1 * x1 * x1 * x1 * x1 * x1 * x1 * x2 * x2 * x2 * x2 * y2 * x3 * x3 * y3 * a * d * d * d * d * d - 2 * x1 * x1 * x1 * x1 * x1 * x1 * x1 * x2 * x2 * x2 * x2 * y2 * x3 * x3 * y3 * a * a * d * d * d * d + 2 * x1 * x1 * x1 * x1 * x1 * x1 * x1 * x2 * x2 * x2 * x2 * y2 * x3 * x3 * x3 * x3 * y3 * a * d * d * d * d * d * d + x1 * x1 * x1 * x1 * x1 * x1 * x1 * x2 * x2 * x2 * x2 * y2 * x3 * x3 * x3 * x3 * y3 * a * a * d * d * d * d * d - 2 * x1 * x1 * x1 * x1 * x1 * x1 * x1 * x2 * x2 * x2 * x2 * x2 * x3 * a * a * d * d * d * d - x1 * x1 * x1 * x1 * x1 * x1 * x1 * x2 * x2 * x2 * x2 * x2 * x3 * a * a * a * d * d * d + 4 * x1 * x1 * x1 * x1 * x1 * x1 * x1 * x2 * x2 * x2 * x2 * x2 * x3 * x3 * x3 * a * a * d * d * d * d * d + 2 * x1 * x1 * x1 * x1 * x1 * x1 * x1 * x2 * x2 * x2 * x2 * x2 * x3 * x3 * x3 * a * a * a * d * d * d * d - 2 * x1 * x1 * x1 * x1 * x1 * x1 * x1 * x2 * x2 * x2 * x2 * x2 * x3 * x3 * x3 * x3 * x3 * a * a * d * d * d * d * d * d - x1 * x1 * x1 * x1 * x1 * x1 * x1 * x2 * x2 * x2 * x2 * x2 * x3 * x3 * x3 * x3 * x3 * a * a * a * d * d * d * d * d - x1 * x1 * x1 * x1 * x1 * x1 * x1 * x2 * x2 * x2 * x2 * x2 * x2 * y2 * y3 * a * d * d * d * d * d - 2 * x1 * x1 * x1 * x1 * x1 * x1 * x1 * x2 * x2 * x2 * x2 * x2 * x2 * y2 * y3 * a * a * d * d * d * d + 2 * x1 * x1 * x1 * x1 * x1 * x1 * x1 * x2 * x2 * x2 * x2 * x2 * x2 * y2 * x3 * x3 * y3 * a * d * d * d * d * d * d + 4 * x1 * x1 * x1 * x1 * x1 * x1 * x1 * x2 * x2 * x2 * x2 * x2 * x2 * y2 * x3 * x3 * y3 * a * a * d * d * d * d * d - x1 * x1 * x1 * x1 * x1 * x1 * x1 * x2 * x2 * x2 * x2 * x2 * x2 * y2 * x3 * x3 * x3 * x3 * y3 * a * d * d * d * d * d * d * d - 2 * x1 * x1 * x1 * x1 * x1 * x1 * x1 * x2 * x2 * x2 * x2 * x2 * x2 * y2 * x3 * x3 * x3 * x3 * y3 * a * a * d * d * d * d * d * d + x1 * x1 * x1 * x1 * x1 * x1 * x1 * x2 * x2 * x2 * x2 * x2 * x2 * x2 * x3 * a * a * d * d * d * d * d + 2 * x1 * x1 * x1 * x1 * x1 * x1 * x1 * x2 * x2 * x2 * x2 * x2 * x2 * x2 * x3 * a * a * a * d * d * d * d - 2 * x1 * x1 * x1 * x1 * x1 * x1 * x1 * x2 * x2 * x2 * x2 * x2 * x2 * x2 * x3 * x3 * x3 * a * a * d * d * d * d * d * d - 4 * x1 * x1 * x1 * x1 * x1 * x1 * x1 * x2 * x2 * x2 * x2 * x2 * x2 * x2 * x3 * x3 * x3 * a * a * a * d * d * d * d * d + x1 * x1 * x1 * x1 * x1 * x1 * x1 * x2 * x2 * x2 * x2 * x2 * x2 * x2 * x3 * x3 * x3 * x3 * x3 * a * a * d * d * d * d * d * d * d + 2 * x1 * x1 * x1 * x1 * x1 * x1 * x1 * x2 * x2 * x2 * x2 * x2 * x2 * x2 * x3 * x3 * x3 * x3 * x3 * a * a * a * d * d * d * d * d * d + x1 * x1 * x1 * x1 * x1 * x1 * x1 * x2 * x2 * x2 * x2 * x2 * x2 * x2 * x2 * y2 * y3 * a * a * d * d * d * d * d - 2 * x1 * x1 * x1 * x1 * x1 * x1 * x1 * x2 * x2 * x2 * x2 * x2 * x2 * x2 * x2 * y2 * x3 * x3 * y3 * a * a * d * d * d * d * d * d + x1 * x1 * x1 * x1 * x1 * x1 * x1 * x2 * x2 * x2 * x2 * x2 * x2 * x2 * x2 * y2 * x3 * x3 * x3 * x3 * y3 * a * a * d * d * d * d * d * d * d - x1 * x1 * x1 * x1 * x1 * x1 * x1 * x2 * x2 * x2 * x2 * x2 * x2 * x2 * x2 * x2 * x3 * a * a * a * d * d * d * d * d + 2 * x1 * x1 * x1 * x1 * x1 * x1 * x1 * x2 * x2 * x2 * x2 * x2 * x2 * x2 * x2 * x2 * x3 * x3 * x3 * a * a * a * d * d * d * d * d * d - x1 * x1 * x1 * x1 * x1 * x1 * x1 * x2 * x2 * x2 * x2 * x2 * x2 * x2 * x2 * x2 * x3 * x3 * x3 * x3 * x3 * a * a * a * d * d * d * d * d * d * d) * ((1 - d * x3 * x3) * (y3 * y3) - (1 - a * x3 * x3)).
Proof. unfold edN, edM, edP, edQ. ring. Qed.
Lemma ed_assoc_y a d x1 y1 x2 y2 x3 y3 :
  (1 - d * x1 * x1) * (1 - d * x1 * x1) * (1 - d * x2 * x2) * (1 - d * x2 * x2) * (1 - d * x2 * x2) * (1 - d * x3 * x3) * (1 - d * x3 * x3) * (((edM a x1 y1 x2 y2) * (edP d x1 y1 x2 y2) * y3 - a * ((edN x1 y1 x2 y2) * (edQ d x1 y1 x2 y2) * x3)) * ((edP d x2 y2 x3 y3) * (edQ d x2 y2 x3 y3) - d * ((edN x2 y2 x3 y3) * (edM a x2 y2 x3 y3) * (x1 * y1))) - (y1 * ((edM a x2 y2 x3 y3) * (edP d x2 y2 x3 y3)) - a * (x1 * ((edN x2 y2 x3 y3) * (edQ d x2 y2 x3 y3)))) * ((edP d x1 y1 x2 y2) * (edQ d x1 y1 x2 y2) - d * ((edN x1 y1 x2 y2) * (edM a x1 y1 x2 y2) * (x3 * y3)))) =
  (y1 * x2 * y2 * y2 * x3 * y3 * y3 * d - y1 * x2 * x2 * y2 * x3 * x3 * y3 * a * d + y1 * x2 * x2 * y2 * y2 * y2 * x3 * x3 * y3 * y3 * y3 * d * d - y1 * x2 * x2 * x2 * y2 * y2 * x3 * x3 * x3 * y3 * y3 * a * d * d + x1 * x2 * y2 * y2 * y3 * d - x1 * x2 * y2 * y2 * y3 * y3 * y3 * d + x1 * x2 * y2 * y2 * y2 * y2 * x3 * x3 * y3 * y3 * y3 * d * d + x1 * x2 * x2 * y2 * x3 * a * d - x1 * x2 * x2 * y2 * x3 * x3 * x3 * a * a * d - x1 * x2 * x2 * x2 * y2 * y2 * y2 * y2 * x3 * x3 * y3 * y3 * y3 * d * d * d + x1 * x2 * x2 * x2 * x2 * y2 * x3 * x3 * x3 * y3 * y3 * a * a * d * d - x1 * x2 * x2 * x2 * x2 * y2 * y2 * y2 * x3 * x3 * x3 * y3 * y3 * a * d * d * d - x1 * x1 * y1 * x2 * y2 * y2 * x3 * y3 * y3 * d * d - x1 * x1 * y1 * x2 * y2 * y2 * y2 * y2 * x3 * y3 * y3 * d * d + x1 * x1 * y1 * x2 * x2 * y2 * x3 * x3 * y3 * a * d * d + x1 * x1 * y1 * x2 * x2 * y2 * y2 * y2 * y3 * d * d - x1 * x1 * y1 * x2 * x2 * y2 * y2 * y2 * y3 * y3 * y3 * d * d - x1 * x1 * y1 * x2 * x2 * y2 * y2 * y2 * x3 * x3 * y3 * y3 * y3 * d * d * d - x1 * x1 * y1 * x2 * x2 * x2 * y2 * y2 * x3 * a * d * d + x1 * x1 * y1 * x2 * x2 * x2 * y2 * y2 * x3 * x3 * x3 * a * a * d * d + x1 * x1 * y1 * x2 * x2 * x2 * y2 * y2 * x3 * x3 * x3 * y3 * y3 * a * d * d * d + x1 * x1 * y1 * x2 * x2 * x2 * y2 * y2 * y2 * y2 * x3 * y3 * y3 * d * d * d + x1 * x1 * y1 * x2 * x2 * x2 * x2 * y2 * x3 * x3 * y3 * a * a * d * d - x1 * x1 * y1 * x2 * x2 * x2 * x2 * y2 * y2 * y2 * x3 * x3 * y3 * a * d * d * d - x1 * x1 * x1 * x2 * y2 * y2 * y3 * d * d + x1 * x1 * x1 * x2 * y2 * y2 * y3 * y3 * y3 * d * d - x1 * x1 * x1 * x2 * y2 * y2 * y2 * y2 * x3 * x3 * y3 * a * d * d - x1 * x1 * x1 * x2 * y2 * y2 * y2 * y2 * x3 * x3 * y3 * y3 * y3 * d * d * d - x1 * x1 * x1 * x2 * x2 * y2 * x3 * a * d * d + x1 * x1 * x1 * x2 * x2 * y2 * x3 * x3 * x3 * a * a * d * d - x1 * x1 * x1 * x2 * x2 * y2 * y2 * y2 * x3 * a * d * d + x1 * x1 * x1 * x2 * x2 * y2 * y2 * y2 * x3 * x3 * x3 * a * a * d * d - x1 * x1 * x1 * x2 * x2 * x2 * y2 * y2 * y3 * a * d * d + x1 * x1 * x1 * x2 * x2 * x2 * y2 * y2 * y3 * y3 * y3 * a * d * d + x1 * x1 * x1 * x2 * x2 * x2 * y2 * y2 * y2 * y2 * x3 * x3 * y3 * a * d * d * d + x1 * x1 * x1 * x2 * x2 * x2 * y2 * y2 * y2 * y2 * x3 * x3 * y3 * y3 * y3 * d * d * d * d - x1 * x1 * x1 * x2 * x2 * x2 * x2 * y2 * x3 * y3 * y3 * a * a * d * d - x1 * x1 * x1 * x2 * x2 * x2 * x2 * y2 * x3 * x3 * x3 * y3 * y3 * a * a * d * d * d + x1 * x1 * x1 * x2 * x2 * x2 * x2 * y2 * y2 * y2 * x3 * y3 * y3 * a * d * d * d + x1 * x1 * x1 * x2 * x2 * x2 * x2 * y2 * y2 * y2 * x3 * x3 * x3 * y3 * y3 * a * d * d * d * d + x1 * x1 * x1 * x1 * y1 * x2 * y2 * y2 * y2 * y2 * x3 * y3 * y3 * d * d * d - x1 * x1 * x1 * x1 * y1 * x2 * x2 * y2 * y2 * y2 * y3 * d * d * d + x1 * x1 * x1 * x1 * y1 * x2 * x2 * y2 * y2 * y2 * y3 * y3 * y3 * d * d * d + x1 * x1 * x1 * x1 * y1 * x2 * x2 * x2 * y2 * y2 * x3 * a * d * d * d - x1 * x1 * x1 * x1 * y1 * x2 * x2 * x2 * y2 * y2 * x3 * x3 * x3 * a * a * d * d * d - x1 * x1 * x1 * x1 * y1 * x2 * x2 * x2 * y2 * y2 * y2 * y2 * x3 * y3 * y3 * d * d * d * d - x1 * x1 * x1 * x1 * y1 * x2 * x2 * x2 * x2 * y2 * x3 * x3 * y3 * a * a * d * d * d + x1 * x1 * x1 * x1 * y1 * x2 * x2 * x2 * x2 * y2 * y2 * y2 * x3 * x3 * y3 * a * d * d * d * d + x1 * x1 * x1 * x1 * x1 * x2 * y2 * y2 * y2 * y2 * x3 * x3 * y3 * a * d * d * d + x1 * x1 * x1 * x1 * x1 * x2 * x2 * y2 * y2 * y2 * x3 * a * d * d * d - x1 * x1 * x1 * x1 * x1 * x2 * x2 * y2 * y2 * y2 * x3 * x3 * x3 * a * a * d * d * d + x1 * x1 * x1 * x1 * x1 * x2 * x2 * x2 * y2 * y2 * y3 * a * d * d * d - x1 * x1 * x1 * x1 * x1 * x2 * x2 * x2 * y2 * y2 * y3 * y3 * y3 * a * d * d * d - x1 * x1 * x1 * x1 * x1 * x2 * x2 * x2 * y2 * y2 * y2 * y2 * x3 * x3 * y3 * a * d * d * d * d + x1 * x1 * x1 * x1 * x1 * x2 * x2 * x2 * x2 * y2 * x3 * y3 * y3 * a * a * d * d * d - x1 * x1 * x1 * x1 * x1 * x2 * x2 * x2 * x2 * y2 * y2 * y2 * x3 * y3 * y3 * a * d * d * d * d) * (1 - d * x2 * x2) * (1 - d * x2 * x2) * (1 - d * x2 * x2) * (1 - d * x3 * x3) * (1 - d * x3 * x3) * ((1 - d * x1 * x1) * (y1 * y1) - (1 - a * x1 * x1))
  + (x1 * x2 * y3 * d - x1 * x2 * y3 * y3 * y3 * d - x1 * x2 * x3 * x3 * y3 * a * d + x1 * x2 * x3 * x3 * y3 * y3 * y3 * d * d + x1 * x2 * y2 * y2 * x3 * x3 * y3 * y3 * y3 * d * d + x1 * x2 * x2 * y2 * x3 * x3 * x3 * y3 * y3 * a * d * d - 2 * x1 * x2 * x2 * x2 * y3 * d * d + 2 * x1 * x2 * x2 * x2 * y3 * y3 * y3 * d * d + 2 * x1 * x2 * x2 * x2 * x3 * x3 * y3 * a * d * d - 2 * x1 * x2 * x2 * x2 * x3 * x3 * y3 * y3 * y3 * d * d * d - 3 * x1 * x2 * x2 * x2 * y2 * y2 * x3 * x3 * y3 * y3 * y3 * d * d * d - 3 * x1 * x2 * x2 * x2 * x2 * y2 * x3 * x3 * x3 * y3 * y3 * a * d * d * d + x1 * x2 * x2 * x2 * x2 * x2 * y3 * d * d * d - x1 * x2 * x2 * x2 * x2 * x2 * y3 * y3 * y3 * d * d * d - x1 * x2 * x2 * x2 * x2 * x2 * x3 * x3 * y3 * a * d * d * d + x1 * x2 * x2 * x2 * x2 * x2 * x3 * x3 * y3 * y3 * y3 * d * d * d * d + 3 * x1 * x2 * x2 * x2 * x2 * x2 * y2 * y2 * x3 * x3 * y3 * y3 * y3 * d * d * d * d + 3 * x1 * x2 * x2 * x2 * x2 * x2 * x2 * y2 * x3 * x3 * x3 * y3 * y3 * a * d * d * d * d - x1 * x2 * x2 * x2 * x2 * x2 * x2 * x2 * y2 * y2 * x3 * x3 * y3 * y3 * y3 * d * d * d * d * d - x1 * x2 * x2 * x2 * x2 * x2 * x2 * x2 * x2 * y2 * x3 * x3 * x3 * y3 * y3 * a * d * d * d * d * d + x1 * x1 * y1 * x2 * x3 * a * d - x1 * x1 * y1 * x2 * x3 * y3 * y3 * a * d - x1 * x1 * y1 * x2 * x3 * x3 * x3 * a * a * d + x1 * x1 * y1 * x2 * x3 * x3 * x3 * y3 * y3 * a * d * d - x1 * x1 * y1 * x2 * y2 * y2 * x3 * y3 * y3 * d * d + x1 * x1 * y1 * x2 * y2 * y2 * x3 * x3 * x3 * y3 * y3 * a * d * d + x1 * x1 * y1 * x2 * x2 * y2 * y3 * d * d - x1 * x1 * y1 * x2 * x2 * y2 * y3 * y3 * y3 * d * d + x1 * x1 * y1 * x2 * x2 * y2 * x3 * x3 * y3 * y3 * y3 * d * d * d - x1 * x1 * y1 * x2 * x2 * y2 * x3 * x3 * y3 * y3 * y3 * a * d * d - 3 * x1 * x1 * y1 * x2 * x2 * x2 * x3 * a * d * d + 3 * x1 * x1 * y1 * x2 * x2 * x2 * x3 * y3 * y3 * a * d * d + 3 * x1 * x1 * y1 * x2 * x2 * x2 * x3 * x3 * x3 * a * a * d * d - 3 * x1 * x1 * y1 * x2 * x2 * x2 * x3 * x3 * x3 * y3 * y3 * a * d * d * d + 3 * x1 * x1 * y1 * x2 * x2 * x2 * y2 * y2 * x3 * y3 * y3 * d * d * d - 3 * x1 * x1 * y1 * x2 * x2 * x2 * y2 * y2 * x3 * x3 * x3 * y3 * y3 * a * d * d * d - 2 * x1 * x1 * y1 * x2 * x2 * x2 * x2 * y2 * y3 * d * d * d + 2 * x1 * x1 * y1 * x2 * x2 * x2 * x2 * y2 * y3 * y3 * y3 * d * d * d - x1 * x1 * y1 * x2 * x2 * x2 * x2 * y2 * x3 * x3 * y3 * a * d * d * d - 2 * x1 * x1 * y1 * x2 * x2 * x2 * x2 * y2 * x3 * x3 * y3 * y3 * y3 * d * d * d * d + 3 * x1 * x1 * y1 * x2 * x2 * x2 * x2 * y2 * x3 * x3 * y3 * y3 * y3 * a * d * d * d + 3 * x1 * x1 * y1 * x2 * x2 * x2 * x2 * x2 * x3 * a * d * d * d - 3 * x1 * x1 * y1 * x2 * x2 * x2 * x2 * x2 * x3 * y3 * y3 * a * d * d * d - 3 * x1 * x1 * y1 * x2 * x2 * x2 * x2 * x2 * x3 * x3 * x3 * a * a * d * d * d + 3 * x1 * x1 * y1 * x2 * x2 * x2 * x2 * x2 * x3 * x3 * x3 * y3 * y3 * a * d * d * d * d - 3 * x1 * x1 * y1 * x2 * x2 * x2 * x2 * x2 * y2 * y2 * x3 * y3 * y3 * d * d * d * d + 3 * x1 * x1 * y1 * x2 * x2 * x2 * x2 * x2 * y2 * y2 * x3 * x3 * x3 * y3 * y3 * a * d * d * d * d + x1 * x1 * y1 * x2 * x2 * x2 * x2 * x2 * x2 * y2 * y3 * d * d * d * d - x1 * x1 * y1 * x2 * x2 * x2 * x2 * x2 * x2 * y2 * y3 * y3 * y3 * d * d * d * d + 2 * x1 * x1 * y1 * x2 * x2 * x2 * x2 * x2 * x2 * y2 * x3 * x3 * y3 * a * d * d * d * d + x1 * x1 * y1 * x2 * x2 * x2 * x2 * x2 * x2 * y2 * x3 * x3 * y3 * y3 * y3 * d * d * d * d * d - 3 * x1 * x1 * y1 * x2 * x2 * x2 * x2 * x2 * x2 * y2 * x3 * x3 * y3 * y3 * y3 * a * d * d * d * d - x1 * x1 * y1 * x2 * x2 * x2 * x2 * x2 * x2 * x2 * x3 * a * d * d * d * d + x1 * x1 * y1 * x2 * x2 * x2 * x2 * x2 * x2 * x2 * x3 * y3 * y3 * a * d * d * d * d + x1 * x1 * y1 * x2 * x2 * x2 * x2 * x2 * x2 * x2 * x3 * x3 * x3 * a * a * d * d * d * d - x1 * x1 * y1 * x2 * x2 * x2 * x2 * x2 * x2 * x2 * x3 * x3 * x3 * y3 * y3 * a * d * d * d * d * d + x1 * x1 * y1 * x2 * x2 * x2 * x2 * x2 * x2 * x2 * y2 * y2 * x3 * y3 * y3 * d * d * d * d * d - x1 * x1 * y1 * x2 * x2 * x2 * x2 * x2 * x2 * x2 * y2 * y2 * x3 * x3 * x3 * y3 * y3 * a * d * d * d * d * d - x1 * x1 * y1 * x2 * x2 * x2 * x2 * x2 * x2 * x2 * x2 * y2 * x3 * x3 * y3 * a * d * d * d * d * d + x1 * x1 * y1 * x2 * x2 * x2 * x2 * x2 * x2 * x2 * x2 * y2 * x3 * x3 * y3 * y3 * y3 * a * d * d * d * d * d - x1 * x1 * x1 * x2 * y3 * d * d - x1 * x1 * x1 * x2 * y3 * a * d + x1 * x1 * x1 * x2 * y3 * y3 * y3 * d * d + x1 * x1 * x1 * x2 * y3 * y3 * y3 * a * d + x1 * x1 * x1 * x2 * x3 * x3 * y3 * a * d * d + x1 * x1 * x1 * x2 * x3 * x3 * y3 * a * a * d - x1 * x1 * x1 * x2 * x3 * x3 * y3 * y3 * y3 * d * d * d - x1 * x1 * x1 * x2 * x3 * x3 * y3 * y3 * y3 * a * d * d - x1 * x1 * x1 * x2 * y2 * y2 * x3 * x3 * y3 * a * d * d - x1 * x1 * x1 * x2 * y2 * y2 * x3 * x3 * y3 * y3 * y3 * d * d * d - x1 * x1 * x1 * x2 * y2 * y2 * x3 * x3 * y3 * y3 * y3 * a * d * d - x1 * x1 * x1 * x2 * x2 * y2 * x3 * a * d * d + x1 * x1 * x1 * x2 * x2 * y2 * x3 * x3 * x3 * a * a * d * d - 2 * x1 * x1 * x1 * x2 * x2 * y2 * x3 * x3 * x3 * y3 * y3 * a * d * d * d - x1 * x1 * x1 * x2 * x2 * y2 * x3 * x3 * x3 * y3 * y3 * a * a * d * d + 2 * x1 * x1 * x1 * x2 * x2 * x2 * y3 * d * d * d + x1 * x1 * x1 * x2 * x2 * x2 * y3 * a * d * d - 2 * x1 * x1 * x1 * x2 * x2 * x2 * y3 * y3 * y3 * d * d * d - x1 * x1 * x1 * x2 * x2 * x2 * y3 * y3 * y3 * a * d * d - 2 * x1 * x1 * x1 * x2 * x2 * x2 * x3 * x3 * y3 * a * d * d * d - x1 * x1 * x1 * x2 * x2 * x2 * x3 * x3 * y3 * a * a * d * d + 2 * x1 * x1 * x1 * x2 * x2 * x2 * x3 * x3 * y3 * y3 * y3 * d * d * d * d + x1 * x1 * x1 * x2 * x2 * x2 * x3 * x3 * y3 * y3 * y3 * a * d * d * d + 3 * x1 * x1 * x1 * x2 * x2 * x2 * y2 * y2 * x3 * x3 * y3 * a * d * d * d + 3 * x1 * x1 * x1 * x2 * x2 * x2 * y2 * y2 * x3 * x3 * y3 * y3 * y3 * d * d * d * d + 3 * x1 * x1 * x1 * x2 * x2 * x2 * y2 * y2 * x3 * x3 * y3 * y3 * y3 * a * d * d * d + 2 * x1 * x1 * x1 * x2 * x2 * x2 * x2 * y2 * x3 * a * d * d * d + x1 * x1 * x1 * x2 * x2 * x2 * x2 * y2 * x3 * y3 * y3 * a * d * d * d - 2 * x1 * x1 * x1 * x2 * x2 * x2 * x2 * y2 * x3 * x3 * x3 * a * a * d * d * d + 5 * x1 * x1 * x1 * x2 * x2 * x2 * x2 * y2 * x3 * x3 * x3 * y3 * y3 * a * d * d * d * d + 3 * x1 * x1 * x1 * x2 * x2 * x2 * x2 * y2 * x3 * x3 * x3 * y3 * y3 * a * a * d * d * d - x1 * x1 * x1 * x2 * x2 * x2 * x2 * x2 * y3 * d * d * d * d + x1 * x1 * x1 * x2 * x2 * x2 * x2 * x2 * y3 * a * d * d * d + x1 * x1 * x1 * x2 * x2 * x2 * x2 * x2 * y3 * y3 * y3 * d * d * d * d - x1 * x1 * x1 * x2 * x2 * x2 * x2 * x2 * y3 * y3 * y3 * a * d * d * d + x1 * x1 * x1 * x2 * x2 * x2 * x2 * x2 * x3 * x3 * y3 * a * d * d * d * d - x1 * x1 * x1 * x2 * x2 * x2 * x2 * x2 * x3 * x3 * y3 * a * a * d * d * d - x1 * x1 * x1 * x2 * x2 * x2 * x2 * x2 * x3 * x3 * y3 * y3 * y3 * d * d * d * d * d + x1 * x1 * x1 * x2 * x2 * x2 * x2 * x2 * x3 * x3 * y3 * y3 * y3 * a * d * d * d * d - 3 * x1 * x1 * x1 * x2 * x2 * x2 * x2 * x2 * y2 * y2 * x3 * x3 * y3 * a * d * d * d * d - 3 * x1 * x1 * x1 * x2 * x2 * x2 * x2 * x2 * y2 * y2 * x3 * x3 * y3 * y3 * y3 * d * d * d * d * d - 3 * x1 * x1 * x1 * x2 * x2 * x2 * x2 * x2 * y2 * y2 * x3 * x3 * y3 * y3 * y3 * a * d * d * d * d - x1 * x1 * x1 * x2 * x2 * x2 * x2 * x2 * x2 * y2 * x3 * a * d * d * d * d - 2 * x1 * x1 * x1 * x2 * x2 * x2 * x2 * x2 * x2 * y2 * x3 * y3 * y3 * a * d * d * d * d + x1 * x1 * x1 * x2 * x2 * x2 * x2 * x2 * x2 * y2 * x3 * x3 * x3 * a * a * d * d * d * d - 4 * x1 * x1 * x1 * x2 * x2 * x2 * x2 * x2 * x2 * y2 * x3 * x3 * x3 * y3 * y3 * a * d * d * d * d * d - 3 * x1 * x1 * x1 * x2 * x2 * x2 * x2 * x2 * x2 * y2 * x3 * x3 * x3 * y3 * y3 * a * a * d * d * d * d - x1 * x1 * x1 * x2 * x2 * x2 * x2 * x2 * x2 * x2 * y3 * a * d * d * d * d + x1 * x1 * x1 * x2 * x2 * x2 * x2 * x2 * x2 * x2 * y3 * y3 * y3 * a * d * d * d * d + x1 * x1 * x1 * x2 * x2 * x2 * x2 * x2 * x2 * x2 * x3 * x3 * y3 * a * a * d * d * d * d - x1 * x1 * x1 * x2 * x2 * x2 * x2 * x2 * x2 * x2 * x3 * x3 * y3 * y3 * y3 * a * d * d * d * d * d + x1 * x1 * x1 * x2 * x2 * x2 * x2 * x2 * x2 * x2 * y2 * y2 * x3 * x3 * y3 * a * d * d * d * d * d + x1 * x1 * x1 * x2 * x2 * x2 * x2 * x2 * x2 * x2 * y2 * y2 * x3 * x3 * y3 * y3 * y3 * d * d * d * d * d * d + x1 * x1 * x1 * x2 * x2 * x2 * x2 * x2 * x2 * x2 * y2 * y2 * x3 * x3 * y3 * y3 * y3 * a * d * d * d * d * d + x1 * x1 * x1 * x2 * x2 * x2 * x2 * x2 * x2 * x2 * x2 * y2 * x3 * y3 * y3 * a * d * d * d * d * d + x1 * x1 * x1 * x2 * x2 * x2 * x2 * x2 * x2 * x2 * x2 * y2 * x3 * x3 * x3 * y3 * y3 * a * d * d * d * d * d * d + x1 * x1 * x1 * x2 * x2 * x2 * x2 * x2 * x2 * x2 * x2 * y2 * x3 * x3 * x3 * y3 * y3 * a * a * d * d * d * d * d - 2 * x1 * x1 * x1 * x1 * y1 * x2 * x3 * a * d * d + 2 * x1 * x1 * x1 * x1 * y1 * x2 * x3 * y3 * y3 * a * d * d + 2 * x1 * x1 * x1 * x1 * y1 * x2 * x3 * x3 * x3 * a * a * d * d - 2 * x1 * x1 * x1 * x1 * y1 * x2 * x3 * x3 * x3 * y3 * y3 * a * d * d * d + x1 * x1 * x1 * x1 * y1 * x2 * y2 * y2 * x3 * y3 * y3 * d * d * d + x1 * x1 * x1 * x1 * y1 * x2 * y2 * y2 * x3 * y3 * y3 * a * d * d - 2 * x1 * x1 * x1 * x1 * y1 * x2 * y2 * y2 * x3 * x3 * x3 * y3 * y3 * a * d * d * d - x1 * x1 * x1 * x1 * y1 * x2 * x2 * y2 * y3 * d * d * d - x1 * x1 * x1 * x1 * y1 * x2 * x2 * y2 * y3 * a * d * d + x1 * x1 * x1 * x1 * y1 * x2 * x2 * y2 * y3 * y3 * y3 * d * d * d + x1 * x1 * x1 * x1 * y1 * x2 * x2 * y2 * y3 * y3 * y3 * a * d * d - x1 * x1 * x1 * x1 * y1 * x2 * x2 * y2 * x3 * x3 * y3 * y3 * y3 * d * d * d * d + x1 * x1 * x1 * x1 * y1 * x2 * x2 * y2 * x3 * x3 * y3 * y3 * y3 * a * d * d * d + 5 * x1 * x1 * x1 * x1 * y1 * x2 * x2 * x2 * x3 * a * d * d * d + x1 * x1 * x1 * x1 * y1 * x2 * x2 * x2 * x3 * a * a * d * d - 5 * x1 * x1 * x1 * x1 * y1 * x2 * x2 * x2 * x3 * y3 * y3 * a * d * d * d - x1 * x1 * x1 * x1 * y1 * x2 * x2 * x2 * x3 * y3 * y3 * a * a * d * d - 5 * x1 * x1 * x1 * x1 * y1 * x2 * x2 * x2 * x3 * x3 * x3 * a * a * d * d * d - x1 * x1 * x1 * x1 * y1 * x2 * x2 * x2 * x3 * x3 * x3 * a * a * a * d * d + 5 * x1 * x1 * x1 * x1 * y1 * x2 * x2 * x2 * x3 * x3 * x3 * y3 * y3 * a * d * d * d * d + x1 * x1 * x1 * x1 * y1 * x2 * x2 * x2 * x3 * x3 * x3 * y3 * y3 * a * a * d * d * d - 3 * x1 * x1 * x1 * x1 * y1 * x2 * x2 * x2 * y2 * y2 * x3 * y3 * y3 * d * d * d * d - 3 * x1 * x1 * x1 * x1 * y1 * x2 * x2 * x2 * y2 * y2 * x3 * y3 * y3 * a * d * d * d + 6 * x1 * x1 * x1 * x1 * y1 * x2 * x2 * x2 * y2 * y2 * x3 * x3 * x3 * y3 * y3 * a * d * d * d * d + 2 * x1 * x1 * x1 * x1 * y1 * x2 * x2 * x2 * x2 * y2 * y3 * d * d * d * d + 2 * x1 * x1 * x1 * x1 * y1 * x2 * x2 * x2 * x2 * y2 * y3 * a * d * d * d - 2 * x1 * x1 * x1 * x1 * y1 * x2 * x2 * x2 * x2 * y2 * y3 * y3 * y3 * d * d * d * d - 2 * x1 * x1 * x1 * x1 * y1 * x2 * x2 * x2 * x2 * y2 * y3 * y3 * y3 * a * d * d * d + x1 * x1 * x1 * x1 * y1 * x2 * x2 * x2 * x2 * y2 * x3 * x3 * y3 * a * d * d * d * d + x1 * x1 * x1 * x1 * y1 * x2 * x2 * x2 * x2 * y2 * x3 * x3 * y3 * a * a * d * d * d + 2 * x1 * x1 * x1 * x1 * y1 * x2 * x2 * x2 * x2 * y2 * x3 * x3 * y3 * y3 * y3 * d * d * d * d * d - 4 * x1 * x1 * x1 * x1 * y1 * x2 * x2 * x2 * x2 * y2 * x3 * x3 * y3 * y3 * y3 * a * d * d * d * d - 4 * x1 * x1 * x1 * x1 * y1 * x2 * x2 * x2 * x2 * x2 * x3 * a * d * d * d * d - 2 * x1 * x1 * x1 * x1 * y1 * x2 * x2 * x2 * x2 * x2 * x3 * a * a * d * d * d + 4 * x1 * x1 * x1 * x1 * y1 * x2 * x2 * x2 * x2 * x2 * x3 * y3 * y3 * a * d * d * d * d + 2 * x1 * x1 * x1 * x1 * y1 * x2 * x2 * x2 * x2 * x2 * x3 * y3 * y3 * a * a * d * d * d + 4 * x1 * x1 * x1 * x1 * y1 * x2 * x2 * x2 * x2 * x2 * x3 * x3 * x3 * a * a * d * d * d * d + 2 * x1 * x1 * x1 * x1 * y1 * x2 * x2 * x2 * x2 * x2 * x3 * x3 * x3 * a * a * a * d * d * d - 4 * x1 * x1 * x1 * x1 * y1 * x2 * x2 * x2 * x2 * x2 * x3 * x3 * x3 * y3 * y3 * a * d * d * d * d * d - 2 * x1 * x1 * x1 * x1 * y1 * x2 * x2 * x2 * x2 * x2 * x3 * x3 * x3 * y3 * y3 * a * a * d * d * d * d + 3 * x1 * x1 * x1 * x1 * y1 * x2 * x2 * x2 * x2 * x2 * y2 * y2 * x3 * y3 * y3 * d * d * d * d * d + 3 * x1 * x1 * x1 * x1 * y1 * x2 * x2 * x2 * x2 * x2 * y2 * y2 * x3 * y3 * y3 * a * d * d * d * d - 6 * x1 * x1 * x1 * x1 * y1 * x2 * x2 * x2 * x2 * x2 * y2 * y2 * x3 * x3 * x3 * y3 * y3 * a * d * d * d * d * d - x1 * x1 * x1 * x1 * y1 * x2 * x2 * x2 * x2 * x2 * x2 * y2 * y3 * d * d * d * d * d - x1 * x1 * x1 * x1 * y1 * x2 * x2 * x2 * x2 * x2 * x2 * y2 * y3 * a * d * d * d * d + x1 * x1 * x1 * x1 * y1 * x2 * x2 * x2 * x2 * x2 * x2 * y2 * y3 * y3 * y3 * d * d * d * d * d + x1 * x1 * x1 * x1 * y1 * x2 * x2 * x2 * x2 * x2 * x2 * y2 * y3 * y3 * y3 * a * d * d * d * d - 2 * x1 * x1 * x1 * x1 * y1 * x2 * x2 * x2 * x2 * x2 * x2 * y2 * x3 * x3 * y3 * a * d * d * d * d * d - 2 * x1 * x1 * x1 * x1 * y1 * x2 * x2 * x2 * x2 * x2 * x2 * y2 * x3 * x3 * y3 * a * a * d * d * d * d - x1 * x1 * x1 * x1 * y1 * x2 * x2 * x2 * x2 * x2 * x2 * y2 * x3 * x3 * y3 * y3 * y3 * d * d * d * d * d * d + 5 * x1 * x1 * x1 * x1 * y1 * x2 * x2 * x2 * x2 * x2 * x2 * y2 * x3 * x3 * y3 * y3 * y3 * a * d * d * d * d * d + x1 * x1 * x1 * x1 * y1 * x2 * x2 * x2 * x2 * x2 * x2 * x2 * x3 * a * d * d * d * d * d + x1 * x1 * x1 * x1 * y1 * x2 * x2 * x2 * x2 * x2 * x2 * x2 * x3 * a * a * d * d * d * d - x1 * x1 * x1 * x1 * y1 * x2 * x2 * x2 * x2 * x2 * x2 * x2 * x3 * y3 * y3 * a * d * d * d * d * d - x1 * x1 * x1 * x1 * y1 * x2 * x2 * x2 * x2 * x2 * x2 * x2 * x3 * y3 * y3 * a * a * d * d * d * d - x1 * x1 * x1 * x1 * y1 * x2 * x2 * x2 * x2 * x2 * x2 * x2 * x3 * x3 * x3 * a * a * d * d * d * d * d - x1 * x1 * x1 * x1 * y1 * x2 * x2 * x2 * x2 * x2 * x2 * x2 * x3 * x3 * x3 * a * a * a * d * d * d * d + x1 * x1 * x1 * x1 * y1 * x2 * x2 * x2 * x2 * x2 * x2 * x2 * x3 * x3 * x3 * y3 * y3 * a * d * d * d * d * d * d + x1 * x1 * x1 * x1 * y1 * x2 * x2 * x2 * x2 * x2 * x2 * x2 * x3 * x3 * x3 * y3 * y3 * a * a * d * d * d * d * d - x1 * x1 * x1 * x1 * y1 * x2 * x2 * x2 * x2 * x2 * x2 * x2 * y2 * y2 * x3 * y3 * y3 * d * d * d * d * d * d - x1 * x1 * x1 * x1 * y1 * x2 * x2 * x2 * x2 * x2 * x2 * x2 * y2 * y2 * x3 * y3 * y3 * a * d * d * d * d * d + 2 * x1 * x1 * x1 * x1 * y1 * x2 * x2 * x2 * x2 * x2 * x2 * x2 * y2 * y2 * x3 * x3 * x3 * y3 * y3 * a * d * d * d * d * d * d + x1 * x1 * x1 * x1 * y1 * x2 * x2 * x2 * x2 * x2 * x2 * x2 * x2 * y2 * x3 * x3 * y3 * a * d * d * d * d * d * d + x1 * x1 * x1 * x1 * y1 * x2 * x2 * x2 * x2 * x2 * x2 * x2 * x2 * y2 * x3 * x3 * y3 * a * a * d * d * d * d * d - 2 * x1 * x1 * x1 * x1 * y1 * x2 * x2 * x2 * x2 * x2 * x2 * x2 * x2 * y2 * x3 * x3 * y3 * y3 * y3 * a * d * d * d * d * d * d + x1 * x1 * x1 * x1 * x1 * x2 * y3 * a * d * d - x1 * x1 * x1 * x1 * x1 * x2 * y3 * y3 * y3 * a * d * d - x1 * x1 * x1 * x1 * x1 * x2 * x3 * x3 * y3 * a * a * d * d + x1 * x1 * x1 * x1 * x1 * x2 * x3 * x3 * y3 * y3 * y3 * a * d * d * d + x1 * x1 * x1 * x1 * x1 * x2 * y2 * y2 * x3 * x3 * y3 * a * d * d * d + x1 * x1 * x1 * x1 * x1 * x2 * y2 * y2 * x3 * x3 * y3 * a * a * d * d + x1 * x1 * x1 * x1 * x1 * x2 * y2 * y2 * x3 * x3 * y3 * y3 * y3 * a * d * d * d + x1 * x1 * x1 * x1 * x1 * x2 * x2 * y2 * x3 * a * d * d * d + x1 * x1 * x1 * x1 * x1 * x2 * x2 * y2 * x3 * a * a * d * d - x1 * x1 * x1 * x1 * x1 * x2 * x2 * y2 * x3 * x3 * x3 * a * a * d * d * d - x1 * x1 * x1 * x1 * x1 * x2 * x2 * y2 * x3 * x3 * x3 * a * a * a * d * d + x1 * x1 * x1 * x1 * x1 * x2 * x2 * y2 * x3 * x3 * x3 * y3 * y3 * a * d * d * d * d + 2 * x1 * x1 * x1 * x1 * x1 * x2 * x2 * y2 * x3 * x3 * x3 * y3 * y3 * a * a * d * d * d - x1 * x1 * x1 * x1 * x1 * x2 * x2 * x2 * y3 * a * d * d * d + x1 * x1 * x1 * x1 * x1 * x2 * x2 * x2 * y3 * a * a * d * d + x1 * x1 * x1 * x1 * x1 * x2 * x2 * x2 * y3 * y3 * y3 * a * d * d * d - x1 * x1 * x1 * x1 * x1 * x2 * x2 * x2 * y3 * y3 * y3 * a * a * d * d + x1 * x1 * x1 * x1 * x1 * x2 * x2 * x2 * x3 * x3 * y3 * a * a * d * d * d - x1 * x1 * x1 * x1 * x1 * x2 * x2 * x2 * x3 * x3 * y3 * a * a * a * d * d - x1 * x1 * x1 * x1 * x1 * x2 * x2 * x2 * x3 * x3 * y3 * y3 * y3 * a * d * d * d * d + x1 * x1 * x1 * x1 * x1 * x2 * x2 * x2 * x3 * x3 * y3 * y3 * y3 * a * a * d * d * d - 3 * x1 * x1 * x1 * x1 * x1 * x2 * x2 * x2 * y2 * y2 * x3 * x3 * y3 * a * d * d * d * d - 3 * x1 * x1 * x1 * x1 * x1 * x2 * x2 * x2 * y2 * y2 * x3 * x3 * y3 * a * a * d * d * d - 3 * x1 * x1 * x1 * x1 * x1 * x2 * x2 * x2 * y2 * y2 * x3 * x3 * y3 * y3 * y3 * a * d * d * d * d - 2 * x1 * x1 * x1 * x1 * x1 * x2 * x2 * x2 * x2 * y2 * x3 * a * d * d * d * d - 2 * x1 * x1 * x1 * x1 * x1 * x2 * x2 * x2 * x2 * y2 * x3 * a * a * d * d * d - x1 * x1 * x1 * x1 * x1 * x2 * x2 * x2 * x2 * y2 * x3 * y3 * y3 * a * d * d * d * d - x1 * x1 * x1 * x1 * x1 * x2 * x2 * x2 * x2 * y2 * x3 * y3 * y3 * a * a * d * d * d + 2 * x1 * x1 * x1 * x1 * x1 * x2 * x2 * x2 * x2 * y2 * x3 * x3 * x3 * a * a * d * d * d * d + 2 * x1 * x1 * x1 * x1 * x1 * x2 * x2 * x2 * x2 * y2 * x3 * x3 * x3 * a * a * a * d * d * d - 2 * x1 * x1 * x1 * x1 * x1 * x2 * x2 * x2 * x2 * y2 * x3 * x3 * x3 * y3 * y3 * a * d * d * d * d * d - 5 * x1 * x1 * x1 * x1 * x1 * x2 * x2 * x2 * x2 * y2 * x3 * x3 * x3 * y3 * y3 * a * a * d * d * d * d - x1 * x1 * x1 * x1 * x1 * x2 * x2 * x2 * x2 * x2 * y3 * a * d * d * d * d - 2 * x1 * x1 * x1 * x1 * x1 * x2 * x2 * x2 * x2 * x2 * y3 * a * a * d * d * d + x1 * x1 * x1 * x1 * x1 * x2 * x2 * x2 * x2 * x2 * y3 * y3 * y3 * a * d * d * d * d + 2 * x1 * x1 * x1 * x1 * x1 * x2 * x2 * x2 * x2 * x2 * y3 * y3 * y3 * a * a * d * d * d + x1 * x1 * x1 * x1 * x1 * x2 * x2 * x2 * x2 * x2 * x3 * x3 * y3 * a * a * d * d * d * d + 2 * x1 * x1 * x1 * x1 * x1 * x2 * x2 * x2 * x2 * x2 * x3 * x3 * y3 * a * a * a * d * d * d - x1 * x1 * x1 * x1 * x1 * x2 * x2 * x2 * x2 * x2 * x3 * x3 * y3 * y3 * y3 * a * d * d * d * d * d - 2 * x1 * x1 * x1 * x1 * x1 * x2 * x2 * x2 * x2 * x2 * x3 * x3 * y3 * y3 * y3 * a * a * d * d * d * d + 3 * x1 * x1 * x1 * x1 * x1 * x2 * x2 * x2 * x2 * x2 * y2 * y2 * x3 * x3 * y3 * a * d * d * d * d * d + 3 * x1 * x1 * x1 * x1 * x1 * x2 * x2 * x2 * x2 * x2 * y2 * y2 * x3 * x3 * y3 * a * a * d * d * d * d + 3 * x1 * x1 * x1 * x1 * x1 * x2 * x2 * x2 * x2 * x2 * y2 * y2 * x3 * x3 * y3 * y3 * y3 * a * d * d * d * d * d + x1 * x1 * x1 * x1 * x1 * x2 * x2 * x2 * x2 * x2 * x2 * y2 * x3 * a * d * d * d * d * d + x1 * x1 * x1 * x1 * x1 * x2 * x2 * x2 * x2 * x2 * x2 * y2 * x3 * a * a * d * d * d * d + 2 * x1 * x1 * x1 * x1 * x1 * x2 * x2 * x2 * x2 * x2 * x2 * y2 * x3 * y3 * y3 * a * d * d * d * d * d + 2 * x1 * x1 * x1 * x1 * x1 * x2 * x2 * x2 * x2 * x2 * x2 * y2 * x3 * y3 * y3 * a * a * d * d * d * d - x1 * x1 * x1 * x1 * x1 * x2 * x2 * x2 * x2 * x2 * x2 * y2 * x3 * x3 * x3 * a * a * d * d * d * d * d - x1 * x1 * x1 * x1 * x1 * x2 * x2 * x2 * x2 * x2 * x2 * y2 * x3 * x3 * x3 * a * a * a * d * d * d * d + x1 * x1 * x1 * x1 * x1 * x2 * x2 * x2 * x2 * x2 * x2 * y2 * x3 * x3 * x3 * y3 * y3 * a * d * d * d * d * d * d + 4 * x1 * x1 * x1 * x1 * x1 * x2 * x2 * x2 * x2 * x2 * x2 * y2 * x3 * x3 * x3 * y3 * y3 * a * a * d * d * d * d * d + x1 * x1 * x1 * x1 * x1 * x2 * x2 * x2 * x2 * x2 * x2 * x2 * y3 * a * d * d * d * d * d + x1 * x1 * x1 * x1 * x1 * x2 * x2 * x2 * x2 * x2 * x2 * x2 * y3 * a * a * d * d * d * d - x1 * x1 * x1 * x1 * x1 * x2 * x2 * x2 * x2 * x2 * x2 * x2 * y3 * y3 * y3 * a * d * d * d * d * d - x1 * x1 * x1 * x1 * x1 * x2 * x2 * x2 * x2 * x2 * x2 * x2 * y3 * y3 * y3 * a * a * d * d * d * d - x1 * x1 * x1 * x1 * x1 * x2 * x2 * x2 * x2 * x2 * x2 * x2 * x3 * x3 * y3 * a * a * d * d * d * d * d - x1 * x1 * x1 * x1 * x1 * x2 * x2 * x2 * x2 * x2 * x2 * x2 * x3 * x3 * y3 * a * a * a * d * d * d * d + x1 * x1 * x1 * x1 * x1 * x2 * x2 * x2 * x2 * x2 * x2 * x2 * x3 * x3 * y3 * y3 * y3 * a * d * d * d * d * d * d + x1 * x1 * x1 * x1 * x1 * x2 * x2 * x2 * x2 * x2 * x2 * x2 * x3 * x3 * y3 * y3 * y3 * a * a * d * d * d * d * d - x1 * x1 * x1 * x1 * x1 * x2 * x2 * x2 * x2 * x2 * x2 * x2 * y2 * y2 * x3 * x3 * y3 * a * d * d * d * d * d * d - x1 * x1 * x1 * x1 * x1 * x2 * x2 * x2 * x2 * x2 * x2 * x2 * y2 * y2 * x3 * x3 * y3 * a * a * d * d * d * d * d - x1 * x1 * x1 * x1 * x1 * x2 * x2 * x2 * x2 * x2 * x2 * x2 * y2 * y2 * x3 * x3 * y3 * y3 * y3 * a * d * d * d * d * d * d - x1 * x1 * x1 * x1 * x1 * x2 * x2 * x2 * x2 * x2 * x2 * x2 * x2 * y2 * x3 * y3 * y3 * a * d * d * d * d * d * d - x1 * x1 * x1 * x1 * x1 * x2 * x2 * x2 * x2 * x2 * x2 * x2 * x2 * y2 * x3 * y3 * y3 * a * a * d * d * d * d * d - x1 * x1 * x1 * x1 * x1 * x2 * x2 * x2 * x2 * x2 * x2 * x2 * x2 * y2 * x3 * x3 * x3 * y3 * y3 * a * a * d * d * d * d * d * d + x1 * x1 * x1 * x1 * x1 * x1 * y1 * x2 * x3 * a * d * d * d - x1 * x1 * x1 * x1 * x1 * x1 * y1 * x2 * x3 * y3 * y3 * a * d * d * d - x1 * x1 * x1 * x1 * x1 * x1 * y1 * x2 * x3 * x3 * x3 * a * a * d * d * d + x1 * x1 * x1 * x1 * x1 * x1 * y1 * x2 * x3 * x3 * x3 * y3 * y3 * a * d * d * d * d - x1 * x1 * x1 * x1 * x1 * x1 * y1 * x2 * y2 * y2 * x3 * y3 * y3 * a * d * d * d + x1 * x1 * x1 * x1 * x1 * x1 * y1 * x2 * y2 * y2 * x3 * x3 * x3 * y3 * y3 * a * d * d * d * d + x1 * x1 * x1 * x1 * x1 * x1 * y1 * x2 * x2 * y2 * y3 * a * d * d * d - x1 * x1 * x1 * x1 * x1 * x1 * y1 * x2 * x2 * y2 * y3 * y3 * y3 * a * d * d * d - 2 * x1 * x1 * x1 * x1 * x1 * x1 * y1 * x2 * x2 * x2 * x3 * a * d * d * d * d - x1 * x1 * x1 * x1 * x1 * x1 * y1 * x2 * x2 * x2 * x3 * a * a * d * d * d + 2 * x1 * x1 * x1 * x1 * x1 * x1 * y1 * x2 * x2 * x2 * x3 * y3 * y3 * a * d * d * d * d + x1 * x1 * x1 * x1 * x1 * x1 * y1 * x2 * x2 * x2 * x3 * y3 * y3 * a * a * d * d * d + 2 * x1 * x1 * x1 * x1 * x1 * x1 * y1 * x2 * x2 * x2 * x3 * x3 * x3 * a * a * d * d * d * d + x1 * x1 * x1 * x1 * x1 * x1 * y1 * x2 * x2 * x2 * x3 * x3 * x3 * a * a * a * d * d * d - 2 * x1 * x1 * x1 * x1 * x1 * x1 * y1 * x2 * x2 * x2 * x3 * x3 * x3 * y3 * y3 * a * d * d * d * d * d - x1 * x1 * x1 * x1 * x1 * x1 * y1 * x2 * x2 * x2 * x3 * x3 * x3 * y3 * y3 * a * a * d * d * d * d + 3 * x1 * x1 * x1 * x1 * x1 * x1 * y1 * x2 * x2 * x2 * y2 * y2 * x3 * y3 * y3 * a * d * d * d * d - 3 * x1 * x1 * x1 * x1 * x1 * x1 * y1 * x2 * x2 * x2 * y2 * y2 * x3 * x3 * x3 * y3 * y3 * a * d * d * d * d * d - 2 * x1 * x1 * x1 * x1 * x1 * x1 * y1 * x2 * x2 * x2 * x2 * y2 * y3 * a * d * d * d * d + 2 * x1 * x1 * x1 * x1 * x1 * x1 * y1 * x2 * x2 * x2 * x2 * y2 * y3 * y3 * y3 * a * d * d * d * d - x1 * x1 * x1 * x1 * x1 * x1 * y1 * x2 * x2 * x2 * x2 * y2 * x3 * x3 * y3 * a * a * d * d * d * d + x1 * x1 * x1 * x1 * x1 * x1 * y1 * x2 * x2 * x2 * x2 * y2 * x3 * x3 * y3 * y3 * y3 * a * d * d * d * d * d + x1 * x1 * x1 * x1 * x1 * x1 * y1 * x2 * x2 * x2 * x2 * x2 * x3 * a * d * d * d * d * d + 2 * x1 * x1 * x1 * x1 * x1 * x1 * y1 * x2 * x2 * x2 * x2 * x2 * x3 * a * a * d * d * d * d - x1 * x1 * x1 * x1 * x1 * x1 * y1 * x2 * x2 * x2 * x2 * x2 * x3 * y3 * y3 * a * d * d * d * d * d - 2 * x1 * x1 * x1 * x1 * x1 * x1 * y1 * x2 * x2 * x2 * x2 * x2 * x3 * y3 * y3 * a * a * d * d * d * d - x1 * x1 * x1 * x1 * x1 * x1 * y1 * x2 * x2 * x2 * x2 * x2 * x3 * x3 * x3 * a * a * d * d * d * d * d - 2 * x1 * x1 * x1 * x1 * x1 * x1 * y1 * x2 * x2 * x2 * x2 * x2 * x3 * x3 * x3 * a * a * a * d * d * d * d + x1 * x1 * x1 * x1 * x1 * x1 * y1 * x2 * x2 * x2 * x2 * x2 * x3 * x3 * x3 * y3 * y3 * a * d * d * d * d * d * d + 2 * x1 * x1 * x1 * x1 * x1 * x1 * y1 * x2 * x2 * x2 * x2 * x2 * x3 * x3 * x3 * y3 * y3 * a * a * d * d * d * d * d - 3 * x1 * x1 * x1 * x1 * x1 * x1 * y1 * x2 * x2 * x2 * x2 * x2 * y2 * y2 * x3 * y3 * y3 * a * d * d * d * d * d + 3 * x1 * x1 * x1 * x1 * x1 * x1 * y1 * x2 * x2 * x2 * x2 * x2 * y2 * y2 * x3 * x3 * x3 * y3 * y3 * a * d * d * d * d * d * d + x1 * x1 * x1 * x1 * x1 * x1 * y1 * x2 * x2 * x2 * x2 * x2 * x2 * y2 * y3 * a * d * d * d * d * d - x1 * x1 * x1 * x1 * x1 * x1 * y1 * x2 * x2 * x2 * x2 * x2 * x2 * y2 * y3 * y3 * y3 * a * d * d * d * d * d + 2 * x1 * x1 * x1 * x1 * x1 * x1 * y1 * x2 * x2 * x2 * x2 * x2 * x2 * y2 * x3 * x3 * y3 * a * a * d * d * d * d * d - 2 * x1 * x1 * x1 * x1 * x1 * x1 * y1 * x2 * x2 * x2 * x2 * x2 * x2 * y2 * x3 * x3 * y3 * y3 * y3 * a * d * d * d * d * d * d - x1 * x1 * x1 * x1 * x1 * x1 * y1 * x2 * x2 * x2 * x2 * x2 * x2 * x2 * x3 * a * a * d * d * d * d * d + x1 * x1 * x1 * x1 * x1 * x1 * y1 * x2 * x2 * x2 * x2 * x2 * x2 * x2 * x3 * y3 * y3 * a * a * d * d * d * d * d + x1 * x1 * x1 * x1 * x1 * x1 * y1 * x2 * x2 * x2 * x2 * x2 * x2 * x2 * x3 * x3 * x3 * a * a * a * d * d * d * d * d - x1 * x1 * x1 * x1 * x1 * x1 * y1 * x2 * x2 * x2 * x2 * x2 * x2 * x2 * x3 * x3 * x3 * y3 * y3 * a * a * d * d * d * d * d * d + x1 * x1 * x1 * x1 * x1 * x1 * y1 * x2 * x2 * x2 * x2 * x2 * x2 * x2 * y2 * y2 * x3 * y3 * y3 * a * d * d * d * d * d * d - x1 * x1 * x1 * x1 * x1 * x1 * y1 * x2 * x2 * x2 * x2 * x2 * x2 * x2 * y2 * y2 * x3 * x3 * x3 * y3 * y3 * a * d * d * d * d * d * d * d - x1 * x1 * x1 * x1 * x1 * x1 * y1 * x2 * x2 * x2 * x2 * x2 * x2 * x2 * x2 * y2 * x3 * x3 * y3 * a * a * d * d * d * d * d * d + x1 * x1 * x1 * x1 * x1 * x1 * y1 * x2 * x2 * x2 * x2 * x2 * x2 * x2 * x2 * y2 * x3 * x3 * y3 * y3 * y3 * a * d * d * d * d * d * d * d - x1 * x1 * x1 * x1 * x1 * x1 * x1 * x2 * y2 * y2 * x3 * x3 * y3 * a * a * d * d * d - x1 * x1 * x1 * x1 * x1 * x1 * x1 * x2 * x2 * y2 * x3 * a * a * d * d * d + x1 * x1 * x1 * x1 * x1 * x1 * x1 * x2 * x2 * y2 * x3 * x3 * x3 * a * a * a * d * d * d - x1 * x1 * x1 * x1 * x1 * x1 * x1 * x2 * x2 * y2 * x3 * x3 * x3 * y3 * y3 * a * a * d * d * d * d - x1 * x1 * x1 * x1 * x1 * x1 * x1 * x2 * x2 * x2 * y3 * a * a * d * d * d + x1 * x1 * x1 * x1 * x1 * x1 * x1 * x2 * x2 * x2 * y3 * y3 * y3 * a * a * d * d * d + x1 * x1 * x1 * x1 * x1 * x1 * x1 * x2 * x2 * x2 * x3 * x3 * y3 * a * a * a * d * d * d - x1 * x1 * x1 * x1 * x1 * x1 * x1 * x2 * x2 * x2 * x3 * x3 * y3 * y3 * y3 * a * a * d * d * d * d + 3 * x1 * x1 * x1 * x1 * x1 * x1 * x1 * x2 * x2 * x2 * y2 * y2 * x3 * x3 * y3 * a * a * d * d * d * d + 2 * x1 * x1 * x1 * x1 * x1 * x1 * x1 * x2 * x2 * x2 * x2 * y2 * x3 * a * a * d * d * d * d + x1 * x1 * x1 * x1 * x1 * x1 * x1 * x2 * x2 * x2 * x2 * y2 * x3 * y3 * y3 * a * a * d * d * d * d - 2 * x1 * x1 * x1 * x1 * x1 * x1 * x1 * x2 * x2 * x2 * x2 * y2 * x3 * x3 * x3 * a * a * a * d * d * d * d + 2 * x1 * x1 * x1 * x1 * x1 * x1 * x1 * x2 * x2 * x2 * x2 * y2 * x3 * x3 * x3 * y3 * y3 * a * a * d * d * d * d * d + 2 * x1 * x1 * x1 * x1 * x1 * x1 * x1 * x2 * x2 * x2 * x2 * x2 * y3 * a * a * d * d * d * d - 2 * x1 * x1 * x1 * x1 * x1 * x1 * x1 * x2 * x2 * x2 * x2 * x2 * y3 * y3 * y3 * a * a * d * d * d * d - 2 * x1 * x1 * x1 * x1 * x1 * x1 * x1 * x2 * x2 * x2 * x2 * x2 * x3 * x3 * y3 * a * a * a * d * d * d * d + 2 * x1 * x1 * x1 * x1 * x1 * x1 * x1 * x2 * x2 * x2 * x2 * x2 * x3 * x3 * y3 * y3 * y3 * a * a * d * d * d * d * d - 3 * x1 * x1 * x1 * x1 * x1 * x1 * x1 * x2 * x2 * x2 * x2 * x2 * y2 * y2 * x3 * x3 * y3 * a * a * d * d * d * d * d - x1 * x1 * x1 * x1 * x1 * x1 * x1 * x2 * x2 * x2 * x2 * x2 * x2 * y2 * x3 * a * a * d * d * d * d * d - 2 * x1 * x1 * x1 * x1 * x1 * x1 * x1 * x2 * x2 * x2 * x2 * x2 * x2 * y2 * x3 * y3 * y3 * a * a * d * d * d * d * d + x1 * x1 * x1 * x1 * x1 * x1 * x1 * x2 * x2 * x2 * x2 * x2 * x2 * y2 * x3 * x3 * x3 * a * a * a * d * d * d * d * d - x1 * x1 * x1 * x1 * x1 * x1 * x1 * x2 * x2 * x2 * x2 * x2 * x2 * y2 * x3 * x3 * x3 * y3 * y3 * a * a * d * d * d * d * d * d - x1 * x1 * x1 * x1 * x1 * x1 * x1 * x2 * x2 * x2 * x2 * x2 * x2 * x2 * y3 * a * a * d * d * d * d * d + x1 * x1 * x1 * x1 * x1 * x1 * x1 * x2 * x2 * x2 * x2 * x2 * x2 * x2 * y3 * y3 * y3 * a * a * d * d * d * d * d + x1 * x1 * x1 * x1 * x1 * x1 * x1 * x2 * x2 * x2 * x2 * x2 * x2 * x2 * x3 * x3 * y3 * a * a * a * d * d * d * d * d - x1 * x1 * x1 * x1 * x1 * x1 * x1 * x2 * x2 * x2 * x2 * x2 * x2 * x2 * x3 * x3 * y3 * y3 * y3 * a * a * d * d * d * d * d * d + x1 * x1 * x1 * x1 * x1 * x1 * x1 * x2 * x2 * x2 * x2 * x2 * x2 * x2 * y2 * y2 * x3 * x3 * y3 * a * a * d * d * d * d * d * d + x1 * x1 * x1 * x1 * x1 * x1 * x1 * x2 * x2 * x2 * x2 * x2 * x2 * x2 * x2 * y2 * x3 * y3 * y3 * a * a * d * d * d * d * d * d) * (1 - d * x3 * x3) * (1 - d * x3 * x3) * ((1 - d * x2 * x2) * (y2 * y2) - (1 - a * x2 * x2))
  + (0 - x1 * x2 * y3 * d + 2 * x1 * x2 * x3 * x3 * y3 * d * d - x1 * x2 * x3 * x3 * x3 * x3 * y3 * d * d * d - x1 * x2 * x2 * y2 * x3 * a * d + 2 * x1 * x2 * x2 * y2 * x3 * x3 * x3 * a * d * d - x1 * x2 * x2 * y2 * x3 * x3 * x3 * x3 * x3 * a * d * d * d + 2 * x1 * x2 * x2 * x2 * y3 * d * d + x1 * x2 * x2 * x2 * y3 * a * d - 4 * x1 * x2 * x2 * x2 * x3 * x3 * y3 * d * d * d - 2 * x1 * x2 * x2 * x2 * x3 * x3 * y3 * a * d * d + 2 * x1 * x2 * x2 * x2 * x3 * x3 * x3 * x3 * y3 * d * d * d * d + x1 * x2 * x2 * x2 * x3 * x3 * x3 * x3 * y3 * a * d * d * d + 3 * x1 * x2 * x2 * x2 * x2 * y2 * x3 * a * d * d - 6 * x1 * x2 * x2 * x2 * x2 * y2 * x3 * x3 * x3 * a * d * d * d + 3 * x1 * x2 * x2 * x2 * x2 * y2 * x3 * x3 * x3 * x3 * x3 * a * d * d * d * d - x1 * x2 * x2 * x2 * x2 * x2 * y3 * d * d * d - 2 * x1 * x2 * x2 * x2 * x2 * x2 * y3 * a * d * d + 2 * x1 * x2 * x2 * x2 * x2 * x2 * x3 * x3 * y3 * d * d * d * d + 4 * x1 * x2 * x2 * x2 * x2 * x2 * x3 * x3 * y3 * a * d * d * d - x1 * x2 * x2 * x2 * x2 * x2 * x3 * x3 * x3 * x3 * y3 * d * d * d * d * d - 2 * x1 * x2 * x2 * x2 * x2 * x2 * x3 * x3 * x3 * x3 * y3 * a * d * d * d * d - 3 * x1 * x2 * x2 * x2 * x2 * x2 * x2 * y2 * x3 * a * d * d * d + 6 * x1 * x2 * x2 * x2 * x2 * x2 * x2 * y2 * x3 * x3 * x3 * a * d * d * d * d - 3 * x1 * x2 * x2 * x2 * x2 * x2 * x2 * y2 * x3 * x3 * x3 * x3 * x3 * a * d * d * d * d * d + x1 * x2 * x2 * x2 * x2 * x2 * x2 * x2 * y3 * a * d * d * d - 2 * x1 * x2 * x2 * x2 * x2 * x2 * x2 * x2 * x3 * x3 * y3 * a * d * d * d * d + x1 * x2 * x2 * x2 * x2 * x2 * x2 * x2 * x3 * x3 * x3 * x3 * y3 * a * d * d * d * d * d + x1 * x2 * x2 * x2 * x2 * x2 * x2 * x2 * x2 * y2 * x3 * a * d * d * d * d - 2 * x1 * x2 * x2 * x2 * x2 * x2 * x2 * x2 * x2 * y2 * x3 * x3 * x3 * a * d * d * d * d * d + x1 * x2 * x2 * x2 * x2 * x2 * x2 * x2 * x2 * y2 * x3 * x3 * x3 * x3 * x3 * a * d * d * d * d * d * d - x1 * x1 * y1 * x2 * x3 * a * d + 2 * x1 * x1 * y1 * x2 * x3 * x3 * x3 * a * d * d - x1 * x1 * y1 * x2 * x3 * x3 * x3 * x3 * x3 * a * d * d * d - x1 * x1 * y1 * x2 * x2 * y2 * y3 * d * d + x1 * x1 * y1 * x2 * x2 * y2 * y3 * a * d + 2 * x1 * x1 * y1 * x2 * x2 * y2 * x3 * x3 * y3 * d * d * d - 2 * x1 * x1 * y1 * x2 * x2 * y2 * x3 * x3 * y3 * a * d * d - x1 * x1 * y1 * x2 * x2 * y2 * x3 * x3 * x3 * x3 * y3 * d * d * d * d + x1 * x1 * y1 * x2 * x2 * y2 * x3 * x3 * x3 * x3 * y3 * a * d * d * d + 3 * x1 * x1 * y1 * x2 * x2 * x2 * x3 * a * d * d + x1 * x1 * y1 * x2 * x2 * x2 * x3 * a * a * d - 6 * x1 * x1 * y1 * x2 * x2 * x2 * x3 * x3 * x3 * a * d * d * d - 2 * x1 * x1 * y1 * x2 * x2 * x2 * x3 * x3 * x3 * a * a * d * d + 3 * x1 * x1 * y1 * x2 * x2 * x2 * x3 * x3 * x3 * x3 * x3 * a * d * d * d * d + x1 * x1 * y1 * x2 * x2 * x2 * x3 * x3 * x3 * x3 * x3 * a * a * d * d * d + 2 * x1 * x1 * y1 * x2 * x2 * x2 * x2 * y2 * y3 * d * d * d - 2 * x1 * x1 * y1 * x2 * x2 * x2 * x2 * y2 * y3 * a * d * d - 4 * x1 * x1 * y1 * x2 * x2 * x2 * x2 * y2 * x3 * x3 * y3 * d * d * d * d + 4 * x1 * x1 * y1 * x2 * x2 * x2 * x2 * y2 * x3 * x3 * y3 * a * d * d * d + 2 * x1 * x1 * y1 * x2 * x2 * x2 * x2 * y2 * x3 * x3 * x3 * x3 * y3 * d * d * d * d * d - 2 * x1 * x1 * y1 * x2 * x2 * x2 * x2 * y2 * x3 * x3 * x3 * x3 * y3 * a * d * d * d * d - 3 * x1 * x1 * y1 * x2 * x2 * x2 * x2 * x2 * x3 * a * d * d * d - 3 * x1 * x1 * y1 * x2 * x2 * x2 * x2 * x2 * x3 * a * a * d * d + 6 * x1 * x1 * y1 * x2 * x2 * x2 * x2 * x2 * x3 * x3 * x3 * a * d * d * d * d + 6 * x1 * x1 * y1 * x2 * x2 * x2 * x2 * x2 * x3 * x3 * x3 * a * a * d * d * d - 3 * x1 * x1 * y1 * x2 * x2 * x2 * x2 * x2 * x3 * x3 * x3 * x3 * x3 * a * d * d * d * d * d - 3 * x1 * x1 * y1 * x2 * x2 * x2 * x2 * x2 * x3 * x3 * x3 * x3 * x3 * a * a * d * d * d * d - x1 * x1 * y1 * x2 * x2 * x2 * x2 * x2 * x2 * y2 * y3 * d * d * d * d + x1 * x1 * y1 * x2 * x2 * x2 * x2 * x2 * x2 * y2 * y3 * a * d * d * d + 2 * x1 * x1 * y1 * x2 * x2 * x2 * x2 * x2 * x2 * y2 * x3 * x3 * y3 * d * d * d * d * d - 2 * x1 * x1 * y1 * x2 * x2 * x2 * x2 * x2 * x2 * y2 * x3 * x3 * y3 * a * d * d * d * d - x1 * x1 * y1 * x2 * x2 * x2 * x2 * x2 * x2 * y2 * x3 * x3 * x3 * x3 * y3 * d * d * d * d * d * d + x1 * x1 * y1 * x2 * x2 * x2 * x2 * x2 * x2 * y2 * x3 * x3 * x3 * x3 * y3 * a * d * d * d * d * d + x1 * x1 * y1 * x2 * x2 * x2 * x2 * x2 * x2 * x2 * x3 * a * d * d * d * d + 3 * x1 * x1 * y1 * x2 * x2 * x2 * x2 * x2 * x2 * x2 * x3 * a * a * d * d * d - 2 * x1 * x1 * y1 * x2 * x2 * x2 * x2 * x2 * x2 * x2 * x3 * x3 * x3 * a * d * d * d * d * d - 6 * x1 * x1 * y1 * x2 * x2 * x2 * x2 * x2 * x2 * x2 * x3 * x3 * x3 * a * a * d * d * d * d + x1 * x1 * y1 * x2 * x2 * x2 * x2 * x2 * x2 * x2 * x3 * x3 * x3 * x3 * x3 * a * d * d * d * d * d * d + 3 * x1 * x1 * y1 * x2 * x2 * x2 * x2 * x2 * x2 * x2 * x3 * x3 * x3 * x3 * x3 * a * a * d * d * d * d * d - x1 * x1 * y1 * x2 * x2 * x2 * x2 * x2 * x2 * x2 * x2 * x2 * x3 * a * a * d * d * d * d + 2 * x1 * x1 * y1 * x2 * x2 * x2 * x2 * x2 * x2 * x2 * x2 * x2 * x3 * x3 * x3 * a * a * d * d * d * d * d - x1 * x1 * y1 * x2 * x2 * x2 * x2 * x2 * x2 * x2 * x2 * x2 * x3 * x3 * x3 * x3 * x3 * a * a * d * d * d * d * d * d + x1 * x1 * x1 * x2 * y3 * d * d + x1 * x1 * x1 * x2 * y3 * a * d - 2 * x1 * x1 * x1 * x2 * x3 * x3 * y3 * d * d * d - 2 * x1 * x1 * x1 * x2 * x3 * x3 * y3 * a * d * d + x1 * x1 * x1 * x2 * x3 * x3 * x3 * x3 * y3 * d * d * d * d + x1 * x1 * x1 * x2 * x3 * x3 * x3 * x3 * y3 * a * d * d * d + 2 * x1 * x1 * x1 * x2 * x2 * y2 * x3 * a * d * d + x1 * x1 * x1 * x2 * x2 * y2 * x3 * a * a * d - 4 * x1 * x1 * x1 * x2 * x2 * y2 * x3 * x3 * x3 * a * d * d * d - 2 * x1 * x1 * x1 * x2 * x2 * y2 * x3 * x3 * x3 * a * a * d * d + 2 * x1 * x1 * x1 * x2 * x2 * y2 * x3 * x3 * x3 * x3 * x3 * a * d * d * d * d + x1 * x1 * x1 * x2 * x2 * y2 * x3 * x3 * x3 * x3 * x3 * a * a * d * d * d - 2 * x1 * x1 * x1 * x2 * x2 * x2 * y3 * d * d * d - 2 * x1 * x1 * x1 * x2 * x2 * x2 * y3 * a * d * d - x1 * x1 * x1 * x2 * x2 * x2 * y3 * a * a * d + 4 * x1 * x1 * x1 * x2 * x2 * x2 * x3 * x3 * y3 * d * d * d * d + 4 * x1 * x1 * x1 * x2 * x2 * x2 * x3 * x3 * y3 * a * d * d * d + 2 * x1 * x1 * x1 * x2 * x2 * x2 * x3 * x3 * y3 * a * a * d * d - 2 * x1 * x1 * x1 * x2 * x2 * x2 * x3 * x3 * x3 * x3 * y3 * d * d * d * d * d - 2 * x1 * x1 * x1 * x2 * x2 * x2 * x3 * x3 * x3 * x3 * y3 * a * d * d * d * d - x1 * x1 * x1 * x2 * x2 * x2 * x3 * x3 * x3 * x3 * y3 * a * a * d * d * d - 5 * x1 * x1 * x1 * x2 * x2 * x2 * x2 * y2 * x3 * a * d * d * d - 4 * x1 * x1 * x1 * x2 * x2 * x2 * x2 * y2 * x3 * a * a * d * d + 10 * x1 * x1 * x1 * x2 * x2 * x2 * x2 * y2 * x3 * x3 * x3 * a * d * d * d * d + 8 * x1 * x1 * x1 * x2 * x2 * x2 * x2 * y2 * x3 * x3 * x3 * a * a * d * d * d - 5 * x1 * x1 * x1 * x2 * x2 * x2 * x2 * y2 * x3 * x3 * x3 * x3 * x3 * a * d * d * d * d * d - 4 * x1 * x1 * x1 * x2 * x2 * x2 * x2 * y2 * x3 * x3 * x3 * x3 * x3 * a * a * d * d * d * d + x1 * x1 * x1 * x2 * x2 * x2 * x2 * x2 * y3 * d * d * d * d + x1 * x1 * x1 * x2 * x2 * x2 * x2 * x2 * y3 * a * d * d * d + x1 * x1 * x1 * x2 * x2 * x2 * x2 * x2 * y3 * a * a * d * d - 2 * x1 * x1 * x1 * x2 * x2 * x2 * x2 * x2 * x3 * x3 * y3 * d * d * d * d * d - 2 * x1 * x1 * x1 * x2 * x2 * x2 * x2 * x2 * x3 * x3 * y3 * a * d * d * d * d - 2 * x1 * x1 * x1 * x2 * x2 * x2 * x2 * x2 * x3 * x3 * y3 * a * a * d * d * d + x1 * x1 * x1 * x2 * x2 * x2 * x2 * x2 * x3 * x3 * x3 * x3 * y3 * d * d * d * d * d * d + x1 * x1 * x1 * x2 * x2 * x2 * x2 * x2 * x3 * x3 * x3 * x3 * y3 * a * d * d * d * d * d + x1 * x1 * x1 * x2 * x2 * x2 * x2 * x2 * x3 * x3 * x3 * x3 * y3 * a * a * d * d * d * d + 4 * x1 * x1 * x1 * x2 * x2 * x2 * x2 * x2 * x2 * y2 * x3 * a * d * d * d * d + 5 * x1 * x1 * x1 * x2 * x2 * x2 * x2 * x2 * x2 * y2 * x3 * a * a * d * d * d - 8 * x1 * x1 * x1 * x2 * x2 * x2 * x2 * x2 * x2 * y2 * x3 * x3 * x3 * a * d * d * d * d * d - 10 * x1 * x1 * x1 * x2 * x2 * x2 * x2 * x2 * x2 * y2 * x3 * x3 * x3 * a * a * d * d * d * d + 4 * x1 * x1 * x1 * x2 * x2 * x2 * x2 * x2 * x2 * y2 * x3 * x3 * x3 * x3 * x3 * a * d * d * d * d * d * d + 5 * x1 * x1 * x1 * x2 * x2 * x2 * x2 * x2 * x2 * y2 * x3 * x3 * x3 * x3 * x3 * a * a * d * d * d * d * d + x1 * x1 * x1 * x2 * x2 * x2 * x2 * x2 * x2 * x2 * y3 * a * a * d * d * d - 2 * x1 * x1 * x1 * x2 * x2 * x2 * x2 * x2 * x2 * x2 * x3 * x3 * y3 * a * a * d * d * d * d + x1 * x1 * x1 * x2 * x2 * x2 * x2 * x2 * x2 * x2 * x3 * x3 * x3 * x3 * y3 * a * a * d * d * d * d * d - x1 * x1 * x1 * x2 * x2 * x2 * x2 * x2 * x2 * x2 * x2 * y2 * x3 * a * d * d * d * d * d - 2 * x1 * x1 * x1 * x2 * x2 * x2 * x2 * x2 * x2 * x2 * x2 * y2 * x3 * a * a * d * d * d * d + 2 * x1 * x1 * x1 * x2 * x2 * x2 * x2 * x2 * x2 * x2 * x2 * y2 * x3 * x3 * x3 * a * d * d * d * d * d * d + 4 * x1 * x1 * x1 * x2 * x2 * x2 * x2 * x2 * x2 * x2 * x2 * y2 * x3 * x3 * x3 * a * a * d * d * d * d * d - x1 * x1 * x1 * x2 * x2 * x2 * x2 * x2 * x2 * x2 * x2 * y2 * x3 * x3 * x3 * x3 * x3 * a * d * d * d * d * d * d * d - 2 * x1 * x1 * x1 * x2 * x2 * x2 * x2 * x2 * x2 * x2 * x2 * y2 * x3 * x3 * x3 * x3 * x3 * a * a * d * d * d * d * d * d - x1 * x1 * x1 * x2 * x2 * x2 * x2 * x2 * x2 * x2 * x2 * x2 * y3 * a * a * d * d * d * d + 2 * x1 * x1 * x1 * x2 * x2 * x2 * x2 * x2 * x2 * x2 * x2 * x2 * x3 * x3 * y3 * a * a * d * d * d * d * d - x1 * x1 * x1 * x2 * x2 * x2 * x2 * x2 * x2 * x2 * x2 * x2 * x3 * x3 * x3 * x3 * y3 * a * a * d * d * d * d * d * d + 2 * x1 * x1 * x1 * x1 * y1 * x2 * x3 * a * d * d - 4 * x1 * x1 * x1 * x1 * y1 * x2 * x3 * x3 * x3 * a * d * d * d + 2 * x1 * x1 * x1 * x1 * y1 * x2 * x3 * x3 * x3 * x3 * x3 * a * d * d * d * d + x1 * x1 * x1 * x1 * y1 * x2 * x2 * y2 * y3 * d * d * d - x1 * x1 * x1 * x1 * y1 * x2 * x2 * y2 * y3 * a * d * d - 2 * x1 * x1 * x1 * x1 * y1 * x2 * x2 * y2 * x3 * x3 * y3 * d * d * d * d + 2 * x1 * x1 * x1 * x1 * y1 * x2 * x2 * y2 * x3 * x3 * y3 * a * d * d * d + x1 * x1 * x1 * x1 * y1 * x2 * x2 * y2 * x3 * x3 * x3 * x3 * y3 * d * d * d * d * d - x1 * x1 * x1 * x1 * y1 * x2 * x2 * y2 * x3 * x3 * x3 * x3 * y3 * a * d * d * d * d - 5 * x1 * x1 * x1 * x1 * y1 * x2 * x2 * x2 * x3 * a * d * d * d - 3 * x1 * x1 * x1 * x1 * y1 * x2 * x2 * x2 * x3 * a * a * d * d + 10 * x1 * x1 * x1 * x1 * y1 * x2 * x2 * x2 * x3 * x3 * x3 * a * d * d * d * d + 6 * x1 * x1 * x1 * x1 * y1 * x2 * x2 * x2 * x3 * x3 * x3 * a * a * d * d * d - 5 * x1 * x1 * x1 * x1 * y1 * x2 * x2 * x2 * x3 * x3 * x3 * x3 * x3 * a * d * d * d * d * d - 3 * x1 * x1 * x1 * x1 * y1 * x2 * x2 * x2 * x3 * x3 * x3 * x3 * x3 * a * a * d * d * d * d - 2 * x1 * x1 * x1 * x1 * y1 * x2 * x2 * x2 * x2 * y2 * y3 * d * d * d * d + 3 * x1 * x1 * x1 * x1 * y1 * x2 * x2 * x2 * x2 * y2 * y3 * a * d * d * d - x1 * x1 * x1 * x1 * y1 * x2 * x2 * x2 * x2 * y2 * y3 * a * a * d * d + 4 * x1 * x1 * x1 * x1 * y1 * x2 * x2 * x2 * x2 * y2 * x3 * x3 * y3 * d * d * d * d * d - 6 * x1 * x1 * x1 * x1 * y1 * x2 * x2 * x2 * x2 * y2 * x3 * x3 * y3 * a * d * d * d * d + 2 * x1 * x1 * x1 * x1 * y1 * x2 * x2 * x2 * x2 * y2 * x3 * x3 * y3 * a * a * d * d * d - 2 * x1 * x1 * x1 * x1 * y1 * x2 * x2 * x2 * x2 * y2 * x3 * x3 * x3 * x3 * y3 * d * d * d * d * d * d + 3 * x1 * x1 * x1 * x1 * y1 * x2 * x2 * x2 * x2 * y2 * x3 * x3 * x3 * x3 * y3 * a * d * d * d * d * d - x1 * x1 * x1 * x1 * y1 * x2 * x2 * x2 * x2 * y2 * x3 * x3 * x3 * x3 * y3 * a * a * d * d * d * d + 4 * x1 * x1 * x1 * x1 * y1 * x2 * x2 * x2 * x2 * x2 * x3 * a * d * d * d * d + 7 * x1 * x1 * x1 * x1 * y1 * x2 * x2 * x2 * x2 * x2 * x3 * a * a * d * d * d + x1 * x1 * x1 * x1 * y1 * x2 * x2 * x2 * x2 * x2 * x3 * a * a * a * d * d - 8 * x1 * x1 * x1 * x1 * y1 * x2 * x2 * x2 * x2 * x2 * x3 * x3 * x3 * a * d * d * d * d * d - 14 * x1 * x1 * x1 * x1 * y1 * x2 * x2 * x2 * x2 * x2 * x3 * x3 * x3 * a * a * d * d * d * d - 2 * x1 * x1 * x1 * x1 * y1 * x2 * x2 * x2 * x2 * x2 * x3 * x3 * x3 * a * a * a * d * d * d + 4 * x1 * x1 * x1 * x1 * y1 * x2 * x2 * x2 * x2 * x2 * x3 * x3 * x3 * x3 * x3 * a * d * d * d * d * d * d + 7 * x1 * x1 * x1 * x1 * y1 * x2 * x2 * x2 * x2 * x2 * x3 * x3 * x3 * x3 * x3 * a * a * d * d * d * d * d + x1 * x1 * x1 * x1 * y1 * x2 * x2 * x2 * x2 * x2 * x3 * x3 * x3 * x3 * x3 * a * a * a * d * d * d * d + x1 * x1 * x1 * x1 * y1 * x2 * x2 * x2 * x2 * x2 * x2 * y2 * y3 * d * d * d * d * d - 3 * x1 * x1 * x1 * x1 * y1 * x2 * x2 * x2 * x2 * x2 * x2 * y2 * y3 * a * d * d * d * d + 2 * x1 * x1 * x1 * x1 * y1 * x2 * x2 * x2 * x2 * x2 * x2 * y2 * y3 * a * a * d * d * d - 2 * x1 * x1 * x1 * x1 * y1 * x2 * x2 * x2 * x2 * x2 * x2 * y2 * x3 * x3 * y3 * d * d * d * d * d * d + 6 * x1 * x1 * x1 * x1 * y1 * x2 * x2 * x2 * x2 * x2 * x2 * y2 * x3 * x3 * y3 * a * d * d * d * d * d - 4 * x1 * x1 * x1 * x1 * y1 * x2 * x2 * x2 * x2 * x2 * x2 * y2 * x3 * x3 * y3 * a * a * d * d * d * d + x1 * x1 * x1 * x1 * y1 * x2 * x2 * x2 * x2 * x2 * x2 * y2 * x3 * x3 * x3 * x3 * y3 * d * d * d * d * d * d * d - 3 * x1 * x1 * x1 * x1 * y1 * x2 * x2 * x2 * x2 * x2 * x2 * y2 * x3 * x3 * x3 * x3 * y3 * a * d * d * d * d * d * d + 2 * x1 * x1 * x1 * x1 * y1 * x2 * x2 * x2 * x2 * x2 * x2 * y2 * x3 * x3 * x3 * x3 * y3 * a * a * d * d * d * d * d - x1 * x1 * x1 * x1 * y1 * x2 * x2 * x2 * x2 * x2 * x2 * x2 * x3 * a * d * d * d * d * d - 5 * x1 * x1 * x1 * x1 * y1 * x2 * x2 * x2 * x2 * x2 * x2 * x2 * x3 * a * a * d * d * d * d - 2 * x1 * x1 * x1 * x1 * y1 * x2 * x2 * x2 * x2 * x2 * x2 * x2 * x3 * a * a * a * d * d * d + 2 * x1 * x1 * x1 * x1 * y1 * x2 * x2 * x2 * x2 * x2 * x2 * x2 * x3 * x3 * x3 * a * d * d * d * d * d * d + 10 * x1 * x1 * x1 * x1 * y1 * x2 * x2 * x2 * x2 * x2 * x2 * x2 * x3 * x3 * x3 * a * a * d * d * d * d * d + 4 * x1 * x1 * x1 * x1 * y1 * x2 * x2 * x2 * x2 * x2 * x2 * x2 * x3 * x3 * x3 * a * a * a * d * d * d * d - x1 * x1 * x1 * x1 * y1 * x2 * x2 * x2 * x2 * x2 * x2 * x2 * x3 * x3 * x3 * x3 * x3 * a * d * d * d * d * d * d * d - 5 * x1 * x1 * x1 * x1 * y1 * x2 * x2 * x2 * x2 * x2 * x2 * x2 * x3 * x3 * x3 * x3 * x3 * a * a * d * d * d * d * d * d - 2 * x1 * x1 * x1 * x1 * y1 * x2 * x2 * x2 * x2 * x2 * x2 * x2 * x3 * x3 * x3 * x3 * x3 * a * a * a * d * d * d * d * d + x1 * x1 * x1 * x1 * y1 * x2 * x2 * x2 * x2 * x2 * x2 * x2 * x2 * y2 * y3 * a * d * d * d * d * d - x1 * x1 * x1 * x1 * y1 * x2 * x2 * x2 * x2 * x2 * x2 * x2 * x2 * y2 * y3 * a * a * d * d * d * d - 2 * x1 * x1 * x1 * x1 * y1 * x2 * x2 * x2 * x2 * x2 * x2 * x2 * x2 * y2 * x3 * x3 * y3 * a * d * d * d * d * d * d + 2 * x1 * x1 * x1 * x1 * y1 * x2 * x2 * x2 * x2 * x2 * x2 * x2 * x2 * y2 * x3 * x3 * y3 * a * a * d * d * d * d * d + x1 * x1 * x1 * x1 * y1 * x2 * x2 * x2 * x2 * x2 * x2 * x2 * x2 * y2 * x3 * x3 * x3 * x3 * y3 * a * d * d * d * d * d * d * d - x1 * x1 * x1 * x1 * y1 * x2 * x2 * x2 * x2 * x2 * x2 * x2 * x2 * y2 * x3 * x3 * x3 * x3 * y3 * a * a * d * d * d * d * d * d + x1 * x1 * x1 * x1 * y1 * x2 * x2 * x2 * x2 * x2 * x2 * x2 * x2 * x2 * x3 * a * a * d * d * d * d * d + x1 * x1 * x1 * x1 * y1 * x2 * x2 * x2 * x2 * x2 * x2 * x2 * x2 * x2 * x3 * a * a * a * d * d * d * d - 2 * x1 * x1 * x1 * x1 * y1 * x2 * x2 * x2 * x2 * x2 * x2 * x2 * x2 * x2 * x3 * x3 * x3 * a * a * d * d * d * d * d * d - 2 * x1 * x1 * x1 * x1 * y1 * x2 * x2 * x2 * x2 * x2 * x2 * x2 * x2 * x2 * x3 * x3 * x3 * a * a * a * d * d * d * d * d + x1 * x1 * x1 * x1 * y1 * x2 * x2 * x2 * x2 * x2 * x2 * x2 * x2 * x2 * x3 * x3 * x3 * x3 * x3 * a * a * d * d * d * d * d * d * d + x1 * x1 * x1 * x1 * y1 * x2 * x2 * x2 * x2 * x2 * x2 * x2 * x2 * x2 * x3 * x3 * x3 * x3 * x3 * a * a * a * d * d * d * d * d * d - x1 * x1 * x1 * x1 * x1 * x2 * y3 * a * d * d + 2 * x1 * x1 * x1 * x1 * x1 * x2 * x3 * x3 * y3 * a * d * d * d - x1 * x1 * x1 * x1 * x1 * x2 * x3 * x3 * x3 * x3 * y3 * a * d * d * d * d - x1 * x1 * x1 * x1 * x1 * x2 * x2 * y2 * x3 * a * d * d * d - 2 * x1 * x1 * x1 * x1 * x1 * x2 * x2 * y2 * x3 * a * a * d * d + 2 * x1 * x1 * x1 * x1 * x1 * x2 * x2 * y2 * x3 * x3 * x3 * a * d * d * d * d + 4 * x1 * x1 * x1 * x1 * x1 * x2 * x2 * y2 * x3 * x3 * x3 * a * a * d * d * d - x1 * x1 * x1 * x1 * x1 * x2 * x2 * y2 * x3 * x3 * x3 * x3 * x3 * a * d * d * d * d * d - 2 * x1 * x1 * x1 * x1 * x1 * x2 * x2 * y2 * x3 * x3 * x3 * x3 * x3 * a * a * d * d * d * d + x1 * x1 * x1 * x1 * x1 * x2 * x2 * x2 * y3 * a * d * d * d - 2 * x1 * x1 * x1 * x1 * x1 * x2 * x2 * x2 * x3 * x3 * y3 * a * d * d * d * d + x1 * x1 * x1 * x1 * x1 * x2 * x2 * x2 * x3 * x3 * x3 * x3 * y3 * a * d * d * d * d * d + 2 * x1 * x1 * x1 * x1 * x1 * x2 * x2 * x2 * x2 * y2 * x3 * a * d * d * d * d + 6 * x1 * x1 * x1 * x1 * x1 * x2 * x2 * x2 * x2 * y2 * x3 * a * a * d * d * d + x1 * x1 * x1 * x1 * x1 * x2 * x2 * x2 * x2 * y2 * x3 * a * a * a * d * d - 4 * x1 * x1 * x1 * x1 * x1 * x2 * x2 * x2 * x2 * y2 * x3 * x3 * x3 * a * d * d * d * d * d - 12 * x1 * x1 * x1 * x1 * x1 * x2 * x2 * x2 * x2 * y2 * x3 * x3 * x3 * a * a * d * d * d * d - 2 * x1 * x1 * x1 * x1 * x1 * x2 * x2 * x2 * x2 * y2 * x3 * x3 * x3 * a * a * a * d * d * d + 2 * x1 * x1 * x1 * x1 * x1 * x2 * x2 * x2 * x2 * y2 * x3 * x3 * x3 * x3 * x3 * a * d * d * d * d * d * d + 6 * x1 * x1 * x1 * x1 * x1 * x2 * x2 * x2 * x2 * y2 * x3 * x3 * x3 * x3 * x3 * a * a * d * d * d * d * d + x1 * x1 * x1 * x1 * x1 * x2 * x2 * x2 * x2 * y2 * x3 * x3 * x3 * x3 * x3 * a * a * a * d * d * d * d + x1 * x1 * x1 * x1 * x1 * x2 * x2 * x2 * x2 * x2 * y3 * a * d * d * d * d + x1 * x1 * x1 * x1 * x1 * x2 * x2 * x2 * x2 * x2 * y3 * a * a * d * d * d + x1 * x1 * x1 * x1 * x1 * x2 * x2 * x2 * x2 * x2 * y3 * a * a * a * d * d - 2 * x1 * x1 * x1 * x1 * x1 * x2 * x2 * x2 * x2 * x2 * x3 * x3 * y3 * a * d * d * d * d * d - 2 * x1 * x1 * x1 * x1 * x1 * x2 * x2 * x2 * x2 * x2 * x3 * x3 * y3 * a * a * d * d * d * d - 2 * x1 * x1 * x1 * x1 * x1 * x2 * x2 * x2 * x2 * x2 * x3 * x3 * y3 * a * a * a * d * d * d + x1 * x1 * x1 * x1 * x1 * x2 * x2 * x2 * x2 * x2 * x3 * x3 * x3 * x3 * y3 * a * d * d * d * d * d * d + x1 * x1 * x1 * x1 * x1 * x2 * x2 * x2 * x2 * x2 * x3 * x3 * x3 * x3 * y3 * a * a * d * d * d * d * d + x1 * x1 * x1 * x1 * x1 * x2 * x2 * x2 * x2 * x2 * x3 * x3 * x3 * x3 * y3 * a * a * a * d * d * d * d - x1 * x1 * x1 * x1 * x1 * x2 * x2 * x2 * x2 * x2 * x2 * y2 * x3 * a * d * d * d * d * d - 6 * x1 * x1 * x1 * x1 * x1 * x2 * x2 * x2 * x2 * x2 * x2 * y2 * x3 * a * a * d * d * d * d - 2 * x1 * x1 * x1 * x1 * x1 * x2 * x2 * x2 * x2 * x2 * x2 * y2 * x3 * a * a * a * d * d * d + 2 * x1 * x1 * x1 * x1 * x1 * x2 * x2 * x2 * x2 * x2 * x2 * y2 * x3 * x3 * x3 * a * d * d * d * d * d * d + 12 * x1 * x1 * x1 * x1 * x1 * x2 * x2 * x2 * x2 * x2 * x2 * y2 * x3 * x3 * x3 * a * a * d * d * d * d * d + 4 * x1 * x1 * x1 * x1 * x1 * x2 * x2 * x2 * x2 * x2 * x2 * y2 * x3 * x3 * x3 * a * a * a * d * d * d * d - x1 * x1 * x1 * x1 * x1 * x2 * x2 * x2 * x2 * x2 * x2 * y2 * x3 * x3 * x3 * x3 * x3 * a * d * d * d * d * d * d * d - 6 * x1 * x1 * x1 * x1 * x1 * x2 * x2 * x2 * x2 * x2 * x2 * y2 * x3 * x3 * x3 * x3 * x3 * a * a * d * d * d * d * d * d - 2 * x1 * x1 * x1 * x1 * x1 * x2 * x2 * x2 * x2 * x2 * x2 * y2 * x3 * x3 * x3 * x3 * x3 * a * a * a * d * d * d * d * d - x1 * x1 * x1 * x1 * x1 * x2 * x2 * x2 * x2 * x2 * x2 * x2 * y3 * a * d * d * d * d * d - 2 * x1 * x1 * x1 * x1 * x1 * x2 * x2 * x2 * x2 * x2 * x2 * x2 * y3 * a * a * d * d * d * d - 2 * x1 * x1 * x1 * x1 * x1 * x2 * x2 * x2 * x2 * x2 * x2 * x2 * y3 * a * a * a * d * d * d + 2 * x1 * x1 * x1 * x1 * x1 * x2 * x2 * x2 * x2 * x2 * x2 * x2 * x3 * x3 * y3 * a * d * d * d * d * d * d + 4 * x1 * x1 * x1 * x1 * x1 * x2 * x2 * x2 * x2 * x2 * x2 * x2 * x3 * x3 * y3 * a * a * d * d * d * d * d + 4 * x1 * x1 * x1 * x1 * x1 * x2 * x2 * x2 * x2 * x2 * x2 * x2 * x3 * x3 * y3 * a * a * a * d * d * d * d - x1 * x1 * x1 * x1 * x1 * x2 * x2 * x2 * x2 * x2 * x2 * x2 * x3 * x3 * x3 * x3 * y3 * a * d * d * d * d * d * d * d - 2 * x1 * x1 * x1 * x1 * x1 * x2 * x2 * x2 * x2 * x2 * x2 * x2 * x3 * x3 * x3 * x3 * y3 * a * a * d * d * d * d * d * d - 2 * x1 * x1 * x1 * x1 * x1 * x2 * x2 * x2 * x2 * x2 * x2 * x2 * x3 * x3 * x3 * x3 * y3 * a * a * a * d * d * d * d * d + 2 * x1 * x1 * x1 * x1 * x1 * x2 * x2 * x2 * x2 * x2 * x2 * x2 * x2 * y2 * x3 * a * a * d * d * d * d * d + x1 * x1 * x1 * x1 * x1 * x2 * x2 * x2 * x2 * x2 * x2 * x2 * x2 * y2 * x3 * a * a * a * d * d * d * d - 4 * x1 * x1 * x1 * x1 * x1 * x2 * x2 * x2 * x2 * x2 * x2 * x2 * x2 * y2 * x3 * x3 * x3 * a * a * d * d * d * d * d * d - 2 * x1 * x1 * x1 * x1 * x1 * x2 * x2 * x2 * x2 * x2 * x2 * x2 * x2 * y2 * x3 * x3 * x3 * a * a * a * d * d * d * d * d + 2 * x1 * x1 * x1 * x1 * x1 * x2 * x2 * x2 * x2 * x2 * x2 * x2 * x2 * y2 * x3 * x3 * x3 * x3 * x3 * a * a * d * d * d * d * d * d * d + x1 * x1 * x1 * x1 * x1 * x2 * x2 * x2 * x2 * x2 * x2 * x2 * x2 * y2 * x3 * x3 * x3 * x3 * x3 * a * a * a * d * d * d * d * d * d + x1 * x1 * x1 * x1 * x1 * x2 * x2 * x2 * x2 * x2 * x2 * x2 * x2 * x2 * y3 * a * a * d * d * d * d * d + x1 * x1 * x1 * x1 * x1 * x2 * x2 * x2 * x2 * x2 * x2 * x2 * x2 * x2 * y3 * a * a * a * d * d * d * d - 2 * x1 * x1 * x1 * x1 * x1 * x2 * x2 * x2 * x2 * x2 * x2 * x2 * x2 * x2 * x3 * x3 * y3 * a * a * d * d * d * d * d * d - 2 * x1 * x1 * x1 * x1 * x1 * x2 * x2 * x2 * x2 * x2 * x2 * x2 * x2 * x2 * x3 * x3 * y3 * a * a * a * d * d * d * d * d + x1 * x1 * x1 * x1 * x1 * x2 * x2 * x2 * x2 * x2 * x2 * x2 * x2 * x2 * x3 * x3 * x3 * x3 * y3 * a * a * d * d * d * d * d * d * d + x1 * x1 * x1 * x1 * x1 * x2 * x2 * x2 * x2 * x2 * x2 * x2 * x2 * x2 * x3 * x3 * x3 * x3 * y3 * a * a * a * d * d * d * d * d * d - x1 * x1 * x1 * x1 * x1 * x1 * y1 * x2 * x3 * a * d * d * d + 2 * x1 * x1 * x1 * x1 * x1 * x1 * y1 * x2 * x3 * x3 * x3 * a * d * d * d * d - x1 * x1 * x1 * x1 * x1 * x1 * y1 * x2 * x3 * x3 * x3 * x3 * x3 * a * d * d * d * d * d + 2 * x1 * x1 * x1 * x1 * x1 * x1 * y1 * x2 * x2 * x2 * x3 * a * d * d * d * d + 2 * x1 * x1 * x1 * x1 * x1 * x1 * y1 * x2 * x2 * x2 * x3 * a * a * d * d * d - 4 * x1 * x1 * x1 * x1 * x1 * x1 * y1 * x2 * x2 * x2 * x3 * x3 * x3 * a * d * d * d * d * d - 4 * x1 * x1 * x1 * x1 * x1 * x1 * y1 * x2 * x2 * x2 * x3 * x3 * x3 * a * a * d * d * d * d + 2 * x1 * x1 * x1 * x1 * x1 * x1 * y1 * x2 * x2 * x2 * x3 * x3 * x3 * x3 * x3 * a * d * d * d * d * d * d + 2 * x1 * x1 * x1 * x1 * x1 * x1 * y1 * x2 * x2 * x2 * x3 * x3 * x3 * x3 * x3 * a * a * d * d * d * d * d - x1 * x1 * x1 * x1 * x1 * x1 * y1 * x2 * x2 * x2 * x2 * y2 * y3 * a * d * d * d * d + x1 * x1 * x1 * x1 * x1 * x1 * y1 * x2 * x2 * x2 * x2 * y2 * y3 * a * a * d * d * d + 2 * x1 * x1 * x1 * x1 * x1 * x1 * y1 * x2 * x2 * x2 * x2 * y2 * x3 * x3 * y3 * a * d * d * d * d * d - 2 * x1 * x1 * x1 * x1 * x1 * x1 * y1 * x2 * x2 * x2 * x2 * y2 * x3 * x3 * y3 * a * a * d * d * d * d - x1 * x1 * x1 * x1 * x1 * x1 * y1 * x2 * x2 * x2 * x2 * y2 * x3 * x3 * x3 * x3 * y3 * a * d * d * d * d * d * d + x1 * x1 * x1 * x1 * x1 * x1 * y1 * x2 * x2 * x2 * x2 * y2 * x3 * x3 * x3 * x3 * y3 * a * a * d * d * d * d * d - x1 * x1 * x1 * x1 * x1 * x1 * y1 * x2 * x2 * x2 * x2 * x2 * x3 * a * d * d * d * d * d - 4 * x1 * x1 * x1 * x1 * x1 * x1 * y1 * x2 * x2 * x2 * x2 * x2 * x3 * a * a * d * d * d * d - x1 * x1 * x1 * x1 * x1 * x1 * y1 * x2 * x2 * x2 * x2 * x2 * x3 * a * a * a * d * d * d + 2 * x1 * x1 * x1 * x1 * x1 * x1 * y1 * x2 * x2 * x2 * x2 * x2 * x3 * x3 * x3 * a * d * d * d * d * d * d + 8 * x1 * x1 * x1 * x1 * x1 * x1 * y1 * x2 * x2 * x2 * x2 * x2 * x3 * x3 * x3 * a * a * d * d * d * d * d + 2 * x1 * x1 * x1 * x1 * x1 * x1 * y1 * x2 * x2 * x2 * x2 * x2 * x3 * x3 * x3 * a * a * a * d * d * d * d - x1 * x1 * x1 * x1 * x1 * x1 * y1 * x2 * x2 * x2 * x2 * x2 * x3 * x3 * x3 * x3 * x3 * a * d * d * d * d * d * d * d - 4 * x1 * x1 * x1 * x1 * x1 * x1 * y1 * x2 * x2 * x2 * x2 * x2 * x3 * x3 * x3 * x3 * x3 * a * a * d * d * d * d * d * d - x1 * x1 * x1 * x1 * x1 * x1 * y1 * x2 * x2 * x2 * x2 * x2 * x3 * x3 * x3 * x3 * x3 * a * a * a * d * d * d * d * d + 2 * x1 * x1 * x1 * x1 * x1 * x1 * y1 * x2 * x2 * x2 * x2 * x2 * x2 * y2 * y3 * a * d * d * d * d * d - 2 * x1 * x1 * x1 * x1 * x1 * x1 * y1 * x2 * x2 * x2 * x2 * x2 * x2 * y2 * y3 * a * a * d * d * d * d - 4 * x1 * x1 * x1 * x1 * x1 * x1 * y1 * x2 * x2 * x2 * x2 * x2 * x2 * y2 * x3 * x3 * y3 * a * d * d * d * d * d * d + 4 * x1 * x1 * x1 * x1 * x1 * x1 * y1 * x2 * x2 * x2 * x2 * x2 * x2 * y2 * x3 * x3 * y3 * a * a * d * d * d * d * d + 2 * x1 * x1 * x1 * x1 * x1 * x1 * y1 * x2 * x2 * x2 * x2 * x2 * x2 * y2 * x3 * x3 * x3 * x3 * y3 * a * d * d * d * d * d * d * d - 2 * x1 * x1 * x1 * x1 * x1 * x1 * y1 * x2 * x2 * x2 * x2 * x2 * x2 * y2 * x3 * x3 * x3 * x3 * y3 * a * a * d * d * d * d * d * d + 2 * x1 * x1 * x1 * x1 * x1 * x1 * y1 * x2 * x2 * x2 * x2 * x2 * x2 * x2 * x3 * a * a * d * d * d * d * d + 2 * x1 * x1 * x1 * x1 * x1 * x1 * y1 * x2 * x2 * x2 * x2 * x2 * x2 * x2 * x3 * a * a * a * d * d * d * d - 4 * x1 * x1 * x1 * x1 * x1 * x1 * y1 * x2 * x2 * x2 * x2 * x2 * x2 * x2 * x3 * x3 * x3 * a * a * d * d * d * d * d * d - 4 * x1 * x1 * x1 * x1 * x1 * x1 * y1 * x2 * x2 * x2 * x2 * x2 * x2 * x2 * x3 * x3 * x3 * a * a * a * d * d * d * d * d + 2 * x1 * x1 * x1 * x1 * x1 * x1 * y1 * x2 * x2 * x2 * x2 * x2 * x2 * x2 * x3 * x3 * x3 * x3 * x3 * a * a * d * d * d * d * d * d * d + 2 * x1 * x1 * x1 * x1 * x1 * x1 * y1 * x2 * x2 * x2 * x2 * x2 * x2 * x2 * x3 * x3 * x3 * x3 * x3 * a * a * a * d * d * d * d * d * d - x1 * x1 * x1 * x1 * x1 * x1 * y1 * x2 * x2 * x2 * x2 * x2 * x2 * x2 * x2 * y2 * y3 * a * d * d * d * d * d * d + x1 * x1 * x1 * x1 * x1 * x1 * y1 * x2 * x2 * x2 * x2 * x2 * x2 * x2 * x2 * y2 * y3 * a * a * d * d * d * d * d + 2 * x1 * x1 * x1 * x1 * x1 * x1 * y1 * x2 * x2 * x2 * x2 * x2 * x2 * x2 * x2 * y2 * x3 * x3 * y3 * a * d * d * d * d * d * d * d - 2 * x1 * x1 * x1 * x1 * x1 * x1 * y1 * x2 * x2 * x2 * x2 * x2 * x2 * x2 * x2 * y2 * x3 * x3 * y3 * a * a * d * d * d * d * d * d - x1 * x1 * x1 * x1 * x1 * x1 * y1 * x2 * x2 * x2 * x2 * x2 * x2 * x2 * x2 * y2 * x3 * x3 * x3 * x3 * y3 * a * d * d * d * d * d * d * d * d + x1 * x1 * x1 * x1 * x1 * x1 * y1 * x2 * x2 * x2 * x2 * x2 * x2 * x2 * x2 * y2 * x3 * x3 * x3 * x3 * y3 * a * a * d * d * d * d * d * d * d - x1 * x1 * x1 * x1 * x1 * x1 * y1 * x2 * x2 * x2 * x2 * x2 * x2 * x2 * x2 * x2 * x3 * a * a * a * d * d * d * d * d + 2 * x1 * x1 * x1 * x1 * x1 * x1 * y1 * x2 * x2 * x2 * x2 * x2 * x2 * x2 * x2 * x2 * x3 * x3 * x3 * a * a * a * d * d * d * d * d * d - x1 * x1 * x1 * x1 * x1 * x1 * y1 * x2 * x2 * x2 * x2 * x2 * x2 * x2 * x2 * x2 * x3 * x3 * x3 * x3 * x3 * a * a * a * d * d * d * d * d * d * d + x1 * x1 * x1 * x1 * x1 * x1 * x1 * x2 * x2 * y2 * x3 * a * a * d * d * d - 2 * x1 * x1 * x1 * x1 * x1 * x1 * x1 * x2 * x2 * y2 * x3 * x3 * x3 * a * a * d * d * d * d + x1 * x1 * x1 * x1 * x1 * x1 * x1 * x2 * x2 * y2 * x3 * x3 * x3 * x3 * x3 * a * a * d * d * d * d * d + x1 * x1 * x1 * x1 * x1 * x1 * x1 * x2 * x2 * x2 * y3 * a * a * d * d * d - 2 * x1 * x1 * x1 * x1 * x1 * x1 * x1 * x2 * x2 * x2 * x3 * x3 * y3 * a * a * d * d * d * d + x1 * x1 * x1 * x1 * x1 * x1 * x1 * x2 * x2 * x2 * x3 * x3 * x3 * x3 * y3 * a * a * d * d * d * d * d - 2 * x1 * x1 * x1 * x1 * x1 * x1 * x1 * x2 * x2 * x2 * x2 * y2 * x3 * a * a * d * d * d * d - x1 * x1 * x1 * x1 * x1 * x1 * x1 * x2 * x2 * x2 * x2 * y2 * x3 * a * a * a * d * d * d + 4 * x1 * x1 * x1 * x1 * x1 * x1 * x1 * x2 * x2 * x2 * x2 * y2 * x3 * x3 * x3 * a * a * d * d * d * d * d + 2 * x1 * x1 * x1 * x1 * x1 * x1 * x1 * x2 * x2 * x2 * x2 * y2 * x3 * x3 * x3 * a * a * a * d * d * d * d - 2 * x1 * x1 * x1 * x1 * x1 * x1 * x1 * x2 * x2 * x2 * x2 * y2 * x3 * x3 * x3 * x3 * x3 * a * a * d * d * d * d * d * d - x1 * x1 * x1 * x1 * x1 * x1 * x1 * x2 * x2 * x2 * x2 * y2 * x3 * x3 * x3 * x3 * x3 * a * a * a * d * d * d * d * d - 2 * x1 * x1 * x1 * x1 * x1 * x1 * x1 * x2 * x2 * x2 * x2 * x2 * y3 * a * a * d * d * d * d - x1 * x1 * x1 * x1 * x1 * x1 * x1 * x2 * x2 * x2 * x2 * x2 * y3 * a * a * a * d * d * d + 4 * x1 * x1 * x1 * x1 * x1 * x1 * x1 * x2 * x2 * x2 * x2 * x2 * x3 * x3 * y3 * a * a * d * d * d * d * d + 2 * x1 * x1 * x1 * x1 * x1 * x1 * x1 * x2 * x2 * x2 * x2 * x2 * x3 * x3 * y3 * a * a * a * d * d * d * d - 2 * x1 * x1 * x1 * x1 * x1 * x1 * x1 * x2 * x2 * x2 * x2 * x2 * x3 * x3 * x3 * x3 * y3 * a * a * d * d * d * d * d * d - x1 * x1 * x1 * x1 * x1 * x1 * x1 * x2 * x2 * x2 * x2 * x2 * x3 * x3 * x3 * x3 * y3 * a * a * a * d * d * d * d * d + x1 * x1 * x1 * x1 * x1 * x1 * x1 * x2 * x2 * x2 * x2 * x2 * x2 * y2 * x3 * a * a * d * d * d * d * d + 2 * x1 * x1 * x1 * x1 * x1 * x1 * x1 * x2 * x2 * x2 * x2 * x2 * x2 * y2 * x3 * a * a * a * d * d * d * d - 2 * x1 * x1 * x1 * x1 * x1 * x1 * x1 * x2 * x2 * x2 * x2 * x2 * x2 * y2 * x3 * x3 * x3 * a * a * d * d * d * d * d * d - 4 * x1 * x1 * x1 * x1 * x1 * x1 * x1 * x2 * x2 * x2 * x2 * x2 * x2 * y2 * x3 * x3 * x3 * a * a * a * d * d * d * d * d + x1 * x1 * x1 * x1 * x1 * x1 * x1 * x2 * x2 * x2 * x2 * x2 * x2 * y2 * x3 * x3 * x3 * x3 * x3 * a * a * d * d * d * d * d * d * d + 2 * x1 * x1 * x1 * x1 * x1 * x1 * x1 * x2 * x2 * x2 * x2 * x2 * x2 * y2 * x3 * x3 * x3 * x3 * x3 * a * a * a * d * d * d * d * d * d + x1 * x1 * x1 * x1 * x1 * x1 * x1 * x2 * x2 * x2 * x2 * x2 * x2 * x2 * y3 * a * a * d * d * d * d * d + 2 * x1 * x1 * x1 * x1 * x1 * x1 * x1 * x2 * x2 * x2 * x2 * x2 * x2 * x2 * y3 * a * a * a * d * d * d * d - 2 * x1 * x1 * x1 * x1 * x1 * x1 * x1 * x2 * x2 * x2 * x2 * x2 * x2 * x2 * x3 * x3 * y3 * a * a * d * d * d * d * d * d - 4 * x1 * x1 * x1 * x1 * x1 * x1 * x1 * x2 * x2 * x2 * x2 * x2 * x2 * x2 * x3 * x3 * y3 * a * a * a * d * d * d * d * d + x1 * x1 * x1 * x1 * x1 * x1 * x1 * x2 * x2 * x2 * x2 * x2 * x2 * x2 * x3 * x3 * x3 * x3 * y3 * a * a * d * d * d * d * d * d * d + 2 * x1 * x1 * x1 * x1 * x1 * x1 * x1 * x2 * x2 * x2 * x2 * x2 * x2 * x2 * x3 * x3 * x3 * x3 * y3 * a * a * a * d * d * d * d * d * d - x1 * x1 * x1 * x1 * x1 * x1 * x1 * x2 * x2 * x2 * x2 * x2 * x2 * x2 * x2 * y2 * x3 * a * a * a * d * d * d * d * d + 2 * x1 * x1 * x1 * x1 * x1 * x1 * x1 * x2 * x2 * x2 * x2 * x2 * x2 * x2 * x2 * y2 * x3 * x3 * x3 * a * a * a * d * d * d * d * d * d - x1 * x1 * x1 * x1 * x1 * x1 * x1 * x2 * x2 * x2 * x2 * x2 * x2 * x2 * x2 * y2 * x3 * x3 * x3 * x3 * x3 * a * a * a * d * d * d * d * d * d * d - x1 * x1 * x1 * x1 * x1 * x1 * x1 * x2 * x2 * x2 * x2 * x2 * x2 * x2 * x2 * x2 * y3 * a * a * a * d * d * d * d * d + 2 * x1 * x1 * x1 * x1 * x1 * x1 * x1 * x2 * x2 * x2 * x2 * x2 * x2 * x2 * x2 * x2 * x3 * x3 * y3 * a * a * a * d * d * d * d * d * d - x1 * x1 * x1 * x1 * x1 * x1 * x1 * x2 * x2 * x2 * x2 * x2 * x2 * x2 * x2 * x2 * x3 * x3 * x3 * x3 * y3 * a * a * a * d * d * d * d * d * d * d) * ((1 - d * x3 * x3) * (y3 * y3) - (1 - a * x3 * x3)).
Proof. unfold edN, edM, edP, edQ. ring. Qed.
