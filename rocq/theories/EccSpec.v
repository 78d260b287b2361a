(** Specification of ECDSA (SEC 1, 4.1.4) and SM2 (GM/T 0003.2, 7) verification, independent of the code. *)
From Coq Require Import ZArith.
From Verif Require Import EcSpec.
Open Scope Z_scope.

(** x is the x-coordinate, in [0, p-1], of u G + v Q (which is not the point at infinity). *)
Definition combination_x (p a : Z) (G Q : point) (u v x : Z) : Prop :=
  exists U V x0 y0, ec_mul p a G (Z.to_nat u) U /\ ec_mul p a Q (Z.to_nat v) V /\
    ec_add p a U V (Aff x0 y0) /\ x = x0 mod p.

(** ECDSA: with w the inverse of s modulo n, x is the x-coordinate of (e w) G + (r w) Q. *)
Definition ecdsa_x (p a n : Z) (G Q : point) (e r s x : Z) : Prop :=
  exists w, eqm n (s * w) 1 /\ combination_x p a G Q ((e * w) mod n) ((r * w) mod n) x.
Definition ecdsa_valid (p a n : Z) (G Q : point) (e r s : Z) : Prop :=
  1 <= r < n /\ 1 <= s < n /\ exists x, ecdsa_x p a n G Q e r s x /\ x mod n = r.

(** SM2: t = r + s mod n is not 0, x is the x-coordinate of s G + t Q, and r = e + x modulo n. *)
Definition sm2_valid (p a n : Z) (G Q : point) (e r s : Z) : Prop :=
  1 <= r < n /\ 1 <= s < n /\ (r + s) mod n <> 0 /\
  exists x, combination_x p a G Q s ((r + s) mod n) x /\ (e + x) mod n = r.
