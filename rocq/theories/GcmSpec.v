(** Specification: GF(2^128) in GCM bit order and GCM (SP 800-38D).  Independent of the model. *)
From Verif Require Import Base HashSpec.

(** Polynomials over GF(2) are non-negative integers, bit i = coefficient of x^i.
    Carry-less product of an [n]-bit a with b. *)
Fixpoint clmul (n : nat) (a b : Z) : Z :=
  match n with
  | O => 0
  | S n => Z.lxor (if Z.odd a then b else 0) (2 * clmul n (a / 2) b)
  end.
(** x^128 + x^7 + x^2 + x + 1 *)
Definition gcm_poly : Z := 2 ^ 128 + 0x87.
(** Remainder of a polynomial of degree below 128 + k: schoolbook division. *)
Fixpoint poly_rem (k : nat) (v : Z) : Z :=
  match k with
  | O => v
  | S k => poly_rem k (if Z.testbit v (128 + Z.of_nat k) then Z.lxor v (gcm_poly * 2 ^ Z.of_nat k) else v)
  end.
(** 6.3: the leftmost bit of a block is the coefficient of x^0. *)
Fixpoint bitrev (n : nat) (v : Z) : Z :=
  match n with O => 0 | S n => (if Z.odd v then 2 ^ Z.of_nat n else 0) + bitrev n (v / 2) end.
Definition gf_of (b : list Z) : Z := bitrev 128 (be_val b).
Definition of_gf (p : Z) : list Z := be_bytes 16 (bitrev 128 p).
Definition gf_mul (a b : list Z) : list Z := of_gf (poly_rem 128 (clmul 128 (gf_of a) (gf_of b))).

(** 6.4 *)
Definition ghash (H X : list Z) : list Z :=
  fold_left (fun Y B => gf_mul (xorb_list Y B) H) (blocks 16 X) (repeat 0 16).
(** 6.2 *)
Definition inc32 (b : list Z) : list Z := firstn 12 b ++ be_bytes 4 (be_val (skipn 12 b) + 1).
(** 6.5 *)
Definition gctr (E : list Z -> list Z) (icb X : list Z) : list Z :=
  xorb_list X (concat (map (fun i => E (Nat.iter i inc32 icb)) (seq 0 ((length X + 15) / 16)))).
Definition pad16 (X : list Z) : list Z := X ++ repeat 0 ((16 - length X mod 16) mod 16).
(** 7.1, for 96-bit IVs *)
Definition gcm_J0 (iv : list Z) : list Z := iv ++ [0; 0; 0; 1].
Definition gcm_C (E : list Z -> list Z) (iv P : list Z) : list Z := gctr E (inc32 (gcm_J0 iv)) P.
Definition gcm_T (E : list Z -> list Z) (iv A C : list Z) : list Z :=
  gctr E (gcm_J0 iv)
    (ghash (E (repeat 0 16)) (pad16 A ++ pad16 C ++ be_bytes 8 (8 * Z.of_nat (length A)) ++ be_bytes 8 (8 * Z.of_nat (length C)))).
