(** Specification vocabulary for the RSA and number-theory properties. *)
From Coq Require Import Znumtheory.
From Verif Require Import Base Vlong Rsa.

(** product of a list *)
Definition prodZ (l : list Z) : Z := fold_right Z.mul 1 l.

(** two's-complement reading of a c-word number *)
Definition signed (c : nat) (v : Z) : Z :=
  if v <? 2 ^ (32 * Z.of_nat c) / 2 then v else v - 2 ^ (32 * Z.of_nat c).

(** a modulus r > 1 with a spare word in wf-word variables *)
Definition fits (wf : nat) (r : list Z) : Prop :=
  words_ok r /\ (length r <= wf)%nat /\ 1 < vval r /\ vval r * 2 ^ 32 <= 2 ^ (32 * Z.of_nat wf).

(** the words of one CRT record, as rsa_fastdec reads them *)
Definition prime_ok (wf : nat) (pr : rsa_prime) : Prop :=
  fits wf (r_ pr) /\ words_ok (d_ pr) /\ (0 < length (d_ pr))%nat /\ words_ok (t_ pr) /\ (0 < length (t_ pr))%nat.

Definition rvals (k : list rsa_prime) : list Z := map (fun pr => vval (r_ pr)) k.

(** The t_i are inverses of the product of the primes before them. *)
Fixpoint coeffs_ok (R : Z) (l : list rsa_prime) : Prop :=
  match l with
  | [] => True
  | pr :: l' => (R * vval (t_ pr)) mod vval (r_ pr) = 1 mod vval (r_ pr) /\ coeffs_ok (R * vval (r_ pr)) l'
  end.

(** what rsa_fastdec needs of a private key, for the widths wm and wf *)
Definition key_fits (wm wf : nat) (k : rsa_priv) : Prop :=
  (0 < wf)%nat /\
  fits wf (key_q k) /\ words_ok (key_dQ k) /\ (0 < length (key_dQ k))%nat /\
  Forall (prime_ok wf) (key_rest k) /\
  vval (key_q k) * prodZ (rvals (key_rest k)) < 2 ^ (32 * Z.of_nat wm).

(** a prime as drawn by gen_oddint_bits: wf words with a spare one *)
Definition drawn (wf : nat) (r : list Z) : Prop := fits wf r /\ length r = wf /\ prime (vval r) /\ 2 < vval r.

(** product of the r-1 *)
Definition phi_of (l : list Z) : Z := prodZ (map (fun r => r - 1) l).

