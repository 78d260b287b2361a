(** Specification of twisted Edwards curves a x^2 + y^2 = 1 + d x^2 y^2 over Z/p,
    d = d1/d2, independent of the code. *)
From Coq Require Import ZArith.
From Verif Require Import EcSpec.
Open Scope Z_scope.

Definition epoint : Type := (Z * Z)%type.
Definition ept_eq (p : Z) (P Q : epoint) : Prop := eqm p (fst P) (fst Q) /\ eqm p (snd P) (snd Q).
Definition ed_on (p a d1 d2 : Z) (P : epoint) : Prop :=
  let '(x, y) := P in eqm p (d2 * (a * (x * x) + y * y)) (d2 + d1 * (x * x * (y * y))).

(** x3 = (x1 y2 + x2 y1) / (1 + d x1 x2 y1 y2),  y3 = (y1 y2 - a x1 x2) / (1 - d x1 x2 y1 y2),
    with non-zero denominators. *)
Definition ed_add (p a d1 d2 : Z) (P Q R : epoint) : Prop :=
  let '(x1, y1) := P in let '(x2, y2) := Q in let '(x3, y3) := R in
  ~ eqm p (d2 + d1 * (x1 * x2 * (y1 * y2))) 0 /\ ~ eqm p (d2 - d1 * (x1 * x2 * (y1 * y2))) 0 /\
  eqm p (x3 * (d2 + d1 * (x1 * x2 * (y1 * y2)))) (d2 * (x1 * y2 + x2 * y1)) /\
  eqm p (y3 * (d2 - d1 * (x1 * x2 * (y1 * y2)))) (d2 * (y1 * y2 - a * (x1 * x2))).

(** k-fold sum. *)
Inductive ed_mul (p a d1 d2 : Z) (P : epoint) : nat -> epoint -> Prop :=
| ed_mul_0 : ed_mul p a d1 d2 P 0 (0, 1)
| ed_mul_S : forall k Q R, ed_mul p a d1 d2 P k Q -> ed_add p a d1 d2 P Q R -> ed_mul p a d1 d2 P (S k) R.

(** Extended coordinates: (X:Y:T:Z) stands for (X/Z, Y/Z) and T = XY/Z. *)
Definition extended (p X Y T Z : Z) (P : epoint) : Prop :=
  let '(x, y) := P in ~ eqm p Z 0 /\ eqm p X (x * Z) /\ eqm p Y (y * Z) /\ eqm p T (x * y * Z).

(** The addition law is complete on these curves: a is a square and d is not. *)
Definition ed_complete (p a d1 d2 : Z) : Prop :=
  ~ eqm p d2 0 /\ (exists s, eqm p a (s * s)) /\ ~ eqm p a 0 /\ forall z, ~ eqm p (d2 * (z * z)) d1.
