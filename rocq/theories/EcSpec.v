(** Specification vocabulary for elliptic curves over Z/p, independent of the
    code. *)
From Coq Require Import ZArith.
Open Scope Z_scope.

(** Congruence modulo p. *)
Definition eqm (p x y : Z) : Prop := (p | x - y).

(** Points of y^2 = x^3 + a x + b; coordinates are taken modulo p. *)
Inductive point : Type := Inf | Aff (x y : Z).

Definition on_curve (p a b : Z) (P : point) : Prop :=
  match P with Inf => True | Aff x y => eqm p (y * y) (x * x * x + a * x + b) end.

Definition pt_eq (p : Z) (P Q : point) : Prop :=
  match P, Q with
  | Inf, Inf => True
  | Aff x y, Aff x' y' => eqm p x x' /\ eqm p y y'
  | _, _ => False
  end.

(** The chord-and-tangent law as a relation: [l] is the slope. *)
Inductive ec_add (p a : Z) : point -> point -> point -> Prop :=
| add_inf_l : forall Q, ec_add p a Inf Q Q
| add_inf_r : forall P, ec_add p a P Inf P
| add_opp : forall x1 y1 x2 y2, eqm p x1 x2 -> eqm p y1 (- y2) ->
    ec_add p a (Aff x1 y1) (Aff x2 y2) Inf
| add_chord : forall x1 y1 x2 y2 l x3 y3, ~ eqm p x1 x2 ->
    eqm p (l * (x2 - x1)) (y2 - y1) ->
    eqm p x3 (l * l - x1 - x2) -> eqm p y3 (l * (x1 - x3) - y1) ->
    ec_add p a (Aff x1 y1) (Aff x2 y2) (Aff x3 y3)
| add_tangent : forall x1 y1 x2 y2 l x3 y3, eqm p x1 x2 -> eqm p y1 y2 -> ~ eqm p y1 (- y2) ->
    eqm p (l * (2 * y1)) (3 * x1 * x1 + a) ->
    eqm p x3 (l * l - x1 - x2) -> eqm p y3 (l * (x1 - x3) - y1) ->
    ec_add p a (Aff x1 y1) (Aff x2 y2) (Aff x3 y3).

(** Projective coordinates: (X:Y:Z) stands for (X/Z, Y/Z), or for the point at
    infinity when X = Z = 0. *)
Definition proj (p : Z) (X Y Z : Z) (P : point) : Prop :=
  match P with
  | Inf => eqm p X 0 /\ eqm p Z 0 /\ ~ eqm p Y 0
  | Aff x y => ~ eqm p Z 0 /\ eqm p X (x * Z) /\ eqm p Y (y * Z)
  end.

(** k-fold sum of P. *)
Inductive ec_mul (p a : Z) (P : point) : nat -> point -> Prop :=
| mul_0 : ec_mul p a P 0 Inf
| mul_S : forall k Q R, ec_mul p a P k Q -> ec_add p a P Q R -> ec_mul p a P (S k) R.
