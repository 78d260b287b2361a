(** Properties C30 (fast reductions modulo the curve primes), C31 (signed
    reduction) and C32 (inverses and square roots).  [val_le 32 l] is the number
    denoted by the words l. *)
From Coq Require Import Znumtheory.
From Verif Require Import Base Vlong VlongLemmas EcMod EcModLemmas EcFieldLemmas EcExpLemmas EcCurveLemmas.

(** The moduli are the intended ones. *)
Theorem C30_moduli :
  val_le 32 Fp_secp256r1 = 2 ^ 256 - 2 ^ 224 + 2 ^ 192 + 2 ^ 96 - 1 /\
  val_le 32 Fp_secp384r1 = 2 ^ 384 - 2 ^ 128 - 2 ^ 96 + 2 ^ 32 - 1 /\
  val_le 32 Fp_SM2 = 2 ^ 256 - 2 ^ 224 - 2 ^ 96 + 2 ^ 64 - 1 /\
  val_le 32 Fp_25519 = 2 ^ 255 - 19 /\ val_le 32 Fp_448 = 2 ^ 448 - 2 ^ 224 - 1.
Proof. exact (conj Fp_secp256r1_val (conj Fp_secp384r1_val (conj Fp_SM2_val (conj Fp_25519_val Fp_448_val)))). Qed.
Print Assumptions C30_moduli.

(** Each reduction keeps the width, always succeeds and leaves the residue,
    except that a non-zero multiple of p may be left as p instead of 0.
    Missing from the full claim: that exception, inputs with fewer words than
    p (returned as they are) and, for SM2, values from 2^288. *)
Definition residue_or_p (p v v' : list Z) : Prop :=
  Forall (fun w => 0 <= w < 2 ^ 32) v' /\ length v' = length v /\
  (val_le 32 v' = val_le 32 v mod val_le 32 p \/
   val_le 32 v' = val_le 32 p /\ val_le 32 v mod val_le 32 p = 0).

Theorem C30_reductions_partial :
  (forall v, words_ok v -> (8 <= length v)%nat -> exists v', remv_secp256r1 v = (v', true) /\ residue_or_p Fp_secp256r1 v v') /\
  (forall v, words_ok v -> (12 <= length v)%nat -> exists v', remv_secp384r1 v = (v', true) /\ residue_or_p Fp_secp384r1 v v') /\
  (forall v, words_ok v -> (8 <= length v)%nat -> val_le 32 v < 2 ^ 288 -> exists v', remv_SM2 v = (v', true) /\ residue_or_p Fp_SM2 v v') /\
  (forall v, words_ok v -> (8 <= length v)%nat -> exists v', remv_25519 v = (v', true) /\ residue_or_p Fp_25519 v v') /\
  (forall v, words_ok v -> (14 <= length v)%nat -> exists v', remv_448 v = (v', true) /\ residue_or_p Fp_448 v v').
Proof. exact (conj remv_secp256r1_spec (conj remv_secp384r1_spec (conj remv_SM2_spec (conj remv_25519_spec remv_448_spec)))). Qed.
Print Assumptions C30_reductions_partial.

(** The full claim is false: p is not reduced to 0, by any of the five ... *)
Theorem C30_canonical_refuted :
  Forall (fun '(p, g) => exists v : list Z, words_ok v /\ (length p <= length v)%nat /\
            val_le 32 (fst (g v)) <> val_le 32 v mod val_le 32 p)
    [(Fp_secp256r1, remv_secp256r1); (Fp_secp384r1, remv_secp384r1); (Fp_SM2, remv_SM2);
     (Fp_25519, remv_25519); (Fp_448, remv_448)].
Proof.
  assert (H : forall (p : list Z) (g : modfun), words_ok p ->
     (val_le 32 (fst (g p)) =? val_le 32 p mod val_le 32 p) = false ->
     exists v, words_ok v /\ (length p <= length v)%nat /\ val_le 32 (fst (g v)) <> val_le 32 v mod val_le 32 p).
  { intros p g W E. exists p. split; [exact W|]. split; [apply le_n|]. now apply Z.eqb_neq. }
  repeat constructor; apply H; try (repeat constructor; unfold word_ok; lia); vm_compute; reflexivity.
Qed.
Print Assumptions C30_canonical_refuted.

(** ... and the SM2 reduction is not below 2p (not even the modulus' width) for
    a 10-word input. *)
Theorem C30_SM2_wide_refuted : exists v : list Z, words_ok v /\ length v = 10%nat /\
  2 ^ 287 < val_le 32 (fst (remv_SM2 v)).
Proof.
  exists (repeat (2 ^ 32 - 1) 10). split; [repeat constructor; unfold word_ok; lia|]. split; [reflexivity|].
  vm_compute. reflexivity.
Qed.
Print Assumptions C30_SM2_wide_refuted.

Example C30_nonvacuous :
  words_ok (repeat (2 ^ 32 - 1) 11) /\
  val_le 32 (fst (remv_secp256r1 (repeat (2 ^ 32 - 1) 11))) = (2 ^ 352 - 1) mod (2 ^ 256 - 2 ^ 224 + 2 ^ 192 + 2 ^ 96 - 1) /\
  val_le 32 (fst (remv_25519 (repeat (2 ^ 32 - 1) 11))) = (2 ^ 352 - 1) mod (2 ^ 255 - 19) /\
  val_le 32 (fst (remv_448 (repeat (2 ^ 32 - 1) 17))) = (2 ^ 544 - 1) mod (2 ^ 448 - 2 ^ 224 - 1) /\
  val_le 32 (fst (remv_SM2 (repeat (2 ^ 32 - 1) 9))) = (2 ^ 288 - 1) mod (2 ^ 256 - 2 ^ 224 - 2 ^ 96 + 2 ^ 64 - 1).
Proof. split; [repeat constructor; unfold word_ok; lia|]. vm_compute. auto. Qed.

(** * C31.  For each curve: the two's-complement value s of the words (here any s
    whose absolute value is at most p * 2^32, far above what the curve
    arithmetic produces) is replaced by a representative in [0,p] of s mod p. *)
Definition curve_field (n : nat) (p : list Z) (g : modfun) : Prop :=
  ((10 <= n)%nat /\ p = Fp_secp256r1 /\ g = remv_secp256r1) \/ ((14 <= n)%nat /\ p = Fp_secp384r1 /\ g = remv_secp384r1) \/
  ((10 <= n)%nat /\ p = Fp_SM2 /\ g = remv_SM2) \/ ((10 <= n)%nat /\ p = Fp_25519 /\ g = remv_25519) \/
  ((16 <= n)%nat /\ p = Fp_448 /\ g = remv_448).

Lemma curve_field_ok n p g : curve_field n p g -> field_ok n p g.
Proof.
  intros [H|[H|[H|[H|H]]]]; destruct H as (A & -> & ->).
  - now apply field_secp256r1. - now apply field_secp384r1. - now apply field_SM2. - now apply field_25519. - now apply field_448.
Qed.

Theorem C31_signed_residue : forall (n : nat) (p : list Z) (g : modfun) (v : list Z) (s : Z),
  curve_field n p g -> words_ok v -> length v = n ->
  val_le 32 v = s mod 2 ^ (32 * Z.of_nat n) -> - (val_le 32 p * 2 ^ 32) <= s <= val_le 32 p * 2 ^ 32 ->
  words_ok (ecp_imod_inplace g p v) /\ length (ecp_imod_inplace g p v) = n /\
  0 <= val_le 32 (ecp_imod_inplace g p v) <= val_le 32 p /\
  val_le 32 (ecp_imod_inplace g p v) mod val_le 32 p = s mod val_le 32 p.
Proof.
  intros n p g v s H W L E B. apply curve_field_ok in H.
  destruct (imod_rep n p g H v s s W L E B eq_refl) as (A1 & A2 & A3 & A4).
  repeat split; auto. now apply vval_bound.
Qed.
Print Assumptions C31_signed_residue.

(** a negative number is always mapped below p unless it is a multiple of p *)
Example C31_nonvacuous :
  curve_field 11 Fp_secp256r1 remv_secp256r1 /\
  val_le 32 (ecp_imod_inplace remv_secp256r1 Fp_secp256r1 (vlong_subv 11 [] [5])) = 2 ^ 256 - 2 ^ 224 + 2 ^ 192 + 2 ^ 96 - 1 - 5 /\
  val_le 32 (ecp_imod_inplace remv_secp256r1 Fp_secp256r1 (vlong_subv 11 [] (Fp_secp256r1))) = 0.
Proof. split; [left; repeat split; lia|]. vm_compute. auto. Qed.

(** * C32.  [p] may also be the group order with the generic reduction. *)
Theorem C32_inverse : forall (n : nat) (p : list Z) (g : modfun) (v : list Z),
  curve_field n p g \/ (words_ok p /\ (length p + 2 <= n)%nat /\ g = fun v => vlong_remv_inplace v p) ->
  prime (val_le 32 p) -> 2 <= nthZ 0 p ->
  words_ok v -> length v = n -> val_le 32 v <= val_le 32 p -> val_le 32 v mod val_le 32 p <> 0 ->
  let r := vlong_inv_fermat n v g p in
  words_ok r /\ length r = n /\ val_le 32 r <= val_le 32 p /\
  val_le 32 r mod val_le 32 p = val_le 32 v ^ (val_le 32 p - 2) mod val_le 32 p /\
  (val_le 32 v * val_le 32 r) mod val_le 32 p = 1.
Proof.
  intros n p g v H Hp H2 W L B N r. pose proof (prime_ge_2 _ Hp) as G2.
  assert (F : field_ok n p g).
  { destruct H as [H|(A & C & ->)]; [now apply curve_field_ok|]. apply field_remv; auto. lia. }
  destruct (inv_spec n p g v (val_le 32 v) F Hp H2) as ((A1 & A2 & A3 & A4) & I).
  - split; [|split; [|split]]; auto.
  - intros D. apply N. apply Z.mod_divide; auto. lia.
  - unfold r. auto.
Qed.
Print Assumptions C32_inverse.

(** the low words of the curve primes and orders do not borrow *)
Theorem C32_low_words : Forall (fun p => 2 <= nthZ 0 p) [Fp_secp256r1; Fp_secp384r1; Fp_SM2; Fp_25519; Fp_448].
Proof. repeat constructor; vm_compute; congruence. Qed.
Print Assumptions C32_low_words.

(** Square roots for p = 3 (mod 4): the result is a root exactly when there is one. *)
Theorem C32_square_root : forall (n : nat) (p : list Z) (g : modfun) (v : list Z),
  curve_field n p g \/ (words_ok p /\ (length p + 2 <= n)%nat /\ g = fun v => vlong_remv_inplace v p) ->
  prime (val_le 32 p) -> val_le 32 p mod 4 = 3 ->
  words_ok v -> length v = n -> val_le 32 v <= val_le 32 p ->
  exists r, vlong_sqrt_c3m4 n v g p = Some r /\ words_ok r /\ length r = n /\ val_le 32 r <= val_le 32 p /\
    val_le 32 r mod val_le 32 p = val_le 32 v ^ ((val_le 32 p + 1) / 4) mod val_le 32 p /\
    ((exists y, val_le 32 v mod val_le 32 p = (y * y) mod val_le 32 p) <->
     (val_le 32 r * val_le 32 r) mod val_le 32 p = val_le 32 v mod val_le 32 p).
Proof.
  intros n p g v H Hp H4 W L B. pose proof (prime_ge_2 _ Hp) as G2.
  assert (F : field_ok n p g).
  { destruct H as [H|(A & C & ->)]; [now apply curve_field_ok|]. apply field_remv; auto. lia. }
  destruct (sqrt_spec n p g v (val_le 32 v) F Hp H4) as (r & E & (A1 & A2 & A3 & A4) & I).
  - split; [|split; [|split]]; auto.
  - exists r. auto 10.
Qed.
Print Assumptions C32_square_root.

Theorem C32_square_root_refused : forall (n : nat) (p : list Z) (g : modfun) (v : list Z),
  words_ok p -> (vlong_sqrt_c3m4 n v g p = None <-> val_le 32 p mod 4 <> 3).
Proof.
  intros n p g v W. unfold vlong_sqrt_c3m4.
  assert (N0 : nthZ 0 p = val_le 32 p mod 2 ^ 32).
  { rewrite (nthZ_vval p 0 W). change (32 * Z.of_nat 0) with 0. now rewrite Z.pow_0_r, Z.div_1_r. }
  assert (C : Z.land (nthZ 0 p) 3 = val_le 32 p mod 4).
  { change 3 with (Z.ones 2). rewrite Z.land_ones, N0 by lia. change (2 ^ 2) with 4.
    symmetry. apply Zmod_div_mod; try lia. exists (2 ^ 30). reflexivity. }
  rewrite C. destruct (Z.eqb_spec (val_le 32 p mod 4) 3) as [E|E]; cbn [negb]; split; intros; congruence.
Qed.
Print Assumptions C32_square_root_refused.

Lemma prime_23 : prime 23.
Proof.
  apply prime_alt. split; [lia|]. intros n Hn [k Hk].
  assert (k <= 11) by nia. assert (2 <= k) by nia.
  assert (k = 2 \/ k = 3 \/ k = 4 \/ k = 5 \/ k = 6 \/ k = 7 \/ k = 8 \/ k = 9 \/ k = 10 \/ k = 11) by lia.
  intuition (subst k; lia).
Qed.

Example C32_nonvacuous :
  let g := fun v => vlong_remv_inplace v [23] in
  (5 * val_le 32 (vlong_inv_fermat 3 [5; 0; 0] g [23])) mod 23 = 1 /\
  exists r, vlong_sqrt_c3m4 3 [13; 0; 0] g [23] = Some r /\ (val_le 32 r * val_le 32 r) mod 23 = 13.
Proof.
  cbv zeta. assert (W : forall a, 0 <= a < 2 ^ 32 -> words_ok [a; 0; 0]) by (intros; repeat constructor; unfold word_ok; lia).
  assert (H : curve_field 3 [23] (fun v => vlong_remv_inplace v [23]) \/
     words_ok [23] /\ (length [23] + 2 <= 3)%nat /\ (fun v => vlong_remv_inplace v [23]) = fun v => vlong_remv_inplace v [23]).
  { right. split; [repeat constructor; unfold word_ok; lia|]. split; [cbn; lia|reflexivity]. }
  split.
  - apply (C32_inverse 3 [23] (fun v => vlong_remv_inplace v [23]) [5; 0; 0] H prime_23);
      [cbn; lia|apply W; lia|reflexivity|vm_compute; congruence|vm_compute; congruence].
  - destruct (C32_square_root 3 [23] (fun v => vlong_remv_inplace v [23]) [13; 0; 0] H prime_23) as (r & E & _ & _ & _ & _ & I);
      [reflexivity|apply W; lia|reflexivity|vm_compute; congruence|].
    exists r. split; [exact E|]. apply I. exists 6. reflexivity.
Qed.
