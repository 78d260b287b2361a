(** Specification of X25519/X448 arithmetic (RFC 7748), independent of the code. *)
From Coq Require Import ZArith List Lia.
From Verif Require Import EcSpec.
Import ListNotations.
Open Scope Z_scope.

(** RFC 7748, section 5: the Montgomery ladder, on integers modulo p. *)
Definition rfc_swap (swap : Z) (a b : Z) : Z * Z := if swap =? 1 then (b, a) else (a, b).
Definition rfc_step (p a24 x1 : Z) (st : Z * Z * Z * Z) : Z * Z * Z * Z :=
  let '(x2, z2, x3, z3) := st in
  let A := x2 + z2 in let AA := A * A in
  let B := x2 - z2 in let BB := B * B in
  let E := AA - BB in
  let C := x3 + z3 in let D := x3 - z3 in
  let DA := D * A in let CB := C * B in
  ((AA * BB) mod p, (E * (AA + a24 * E)) mod p, ((DA + CB) * (DA + CB)) mod p, (x1 * ((DA - CB) * (DA - CB))) mod p).
Fixpoint rfc_loop (p a24 k x1 : Z) (t : nat) (swap : Z) (st : Z * Z * Z * Z) : Z * (Z * Z * Z * Z) :=
  match t with
  | O => (swap, st)
  | S t' =>
      let k_t := (k / 2 ^ Z.of_nat t') mod 2 in
      let swap := Z.lxor swap k_t in
      let '(x2, z2, x3, z3) := st in
      let '(x2, x3) := rfc_swap swap x2 x3 in
      let '(z2, z3) := rfc_swap swap z2 z3 in
      rfc_loop p a24 k x1 t' k_t (rfc_step p a24 x1 (x2, z2, x3, z3))
  end.
Definition rfc7748 (p a24 : Z) (bits : nat) (k u : Z) : Z :=
  let x1 := u mod p in
  let '(swap, (x2, z2, x3, z3)) := rfc_loop p a24 k x1 bits 0 (1, 0, x1, 1) in
  let '(x2, x3) := rfc_swap swap x2 x3 in
  let '(z2, z3) := rfc_swap swap z2 z3 in
  (x2 * z2 ^ (p - 2)) mod p.

(** u is the u-coordinate of a point of v^2 = u^3 + A u^2 + u over Z/p. *)
Definition on_montgomery (p A u : Z) : Prop := exists v, eqm p (v * v) (u * u * u + A * (u * u) + u).

(** RFC 7748, section 5: decodeScalar25519 and decodeScalar448 as numbers. *)
Definition rfc_scalar25519 (n : Z) : Z := 2 ^ 254 + 8 * ((n / 8) mod 2 ^ 251).
Definition rfc_scalar448 (n : Z) : Z := 2 ^ 447 + 4 * ((n / 4) mod 2 ^ 445).
