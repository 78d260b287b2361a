(** The strong probable-prime test of the literature (Miller-Rabin). *)
From Coq Require Import ZArith.
Local Open Scope Z_scope.

(** w - 1 = 2^s * m with m odd; base b passes when b^m = 1 or
    b^(m*2^j) = -1 (mod w) for some j < s. *)
Definition strong_probable_prime (w b : Z) : Prop :=
  exists s m, 0 < s /\ 0 < m /\ w - 1 = 2 ^ s * m /\ Z.odd m = true /\
    (b ^ m mod w = 1 \/ exists j, 0 <= j < s /\ b ^ (m * 2 ^ j) mod w = w - 1).
