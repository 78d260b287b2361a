(** Fermat's little theorem over Z (prime from the standard library's
    Znumtheory), and the Chinese-remainder facts used for RSA. *)
From Coq Require Import ZArith Znumtheory List Permutation Lia.
From Verif Require Import Base Vlong Rsa RsaSpec.
Import ListNotations.
Local Open Scope Z_scope.

Lemma prodZ_perm l l' : Permutation l l' -> prodZ l = prodZ l'.
Proof. unfold prodZ. induction 1; cbn; lia. Qed.

Lemma prodZ_map_mul p a l : prodZ (map (fun i => (a * i) mod p) l) mod p = (a ^ Z.of_nat (length l) * prodZ l) mod p.
Proof.
  induction l as [|x l IH]; [reflexivity|].
  cbn [map prodZ fold_right length]. fold (prodZ l). fold (prodZ (map (fun i => (a * i) mod p) l)).
  rewrite Zmult_mod, IH, Zmod_mod, <- Zmult_mod. f_equal.
  rewrite Nat2Z.inj_succ, Z.pow_succ_r by lia. ring.
Qed.

Definition units (p : Z) : list Z := map Z.of_nat (seq 1 (Z.to_nat (p - 1))).

Lemma units_in p x : In x (units p) <-> 1 <= x < p.
Proof.
  unfold units. rewrite in_map_iff. split.
  - intros (n & <- & H). apply in_seq in H. lia.
  - intros H. exists (Z.to_nat x). split; [lia|]. apply in_seq. lia.
Qed.

Lemma units_nodup p : NoDup (units p).
Proof. unfold units. apply FinFun.Injective_map_NoDup; [intros x y; lia|apply seq_NoDup]. Qed.

Lemma prime_mod_nz p x : prime p -> ~ (p | x) -> 1 <= x mod p < p.
Proof.
  intros Hp H. pose proof (prime_ge_2 p Hp). pose proof (Z.mod_pos_bound x p ltac:(lia)).
  assert (x mod p <> 0) by (intros E; apply H; apply Z.mod_divide; [lia|auto]). lia.
Qed.

Lemma prime_cancel p a x y : prime p -> ~ (p | a) -> (a * x) mod p = (a * y) mod p -> x mod p = y mod p.
Proof.
  intros Hp Ha E. pose proof (prime_ge_2 p Hp).
  assert (D : (p | a * (x - y))).
  { apply Z.mod_divide; [lia|]. replace (a * (x - y)) with (a * x - a * y) by ring.
    rewrite Zminus_mod, E, Z.sub_diag. apply Z.mod_0_l. lia. }
  apply prime_mult in D; [|auto]. destruct D as [D|[k D]]; [contradiction|].
  replace x with (y + k * p) by lia. apply Z_mod_plus_full.
Qed.

Lemma units_perm p a : prime p -> ~ (p | a) -> Permutation (map (fun i => (a * i) mod p) (units p)) (units p).
Proof.
  intros Hp Ha. pose proof (prime_ge_2 p Hp).
  apply NoDup_Permutation_bis.
  - assert (G : forall l, NoDup l -> (forall x, In x l -> 1 <= x < p) -> NoDup (map (fun i => (a * i) mod p) l)).
    { induction 1 as [|x l Hx Hl IH]; intros B; [constructor|]. cbn [map]. constructor.
      - intros H1. apply in_map_iff in H1. destruct H1 as (y & E & Hy).
        apply prime_cancel in E; auto. rewrite !Z.mod_small in E.
        + subst. contradiction.
        + specialize (B x (or_introl eq_refl)). lia.
        + specialize (B y (or_intror Hy)). lia.
      - apply IH. intros; apply B; right; auto. }
    apply G; [apply units_nodup|]. intros x. apply units_in.
  - rewrite map_length. lia.
  - intros y Hy. apply in_map_iff in Hy. destruct Hy as (x & <- & Hx). apply units_in in Hx. apply units_in.
    apply prime_mod_nz; auto. intros D. apply prime_mult in D; auto. destruct D as [D|D]; [contradiction|].
    apply Z.divide_pos_le in D; lia.
Qed.

Lemma prodZ_not_div p l : prime p -> (forall x, In x l -> 1 <= x < p) -> ~ (p | prodZ l).
Proof.
  intros Hp. induction l as [|x l IH]; intros B D.
  - cbn in D. apply Z.divide_1_r_nonneg in D; [|pose proof (prime_ge_2 p Hp); lia]. pose proof (prime_ge_2 p Hp). lia.
  - cbn [prodZ fold_right] in D. apply prime_mult in D; auto. destruct D as [D|D].
    + specialize (B x (or_introl eq_refl)). apply Z.divide_pos_le in D; lia.
    + apply IH in D; auto. intros; apply B; right; auto.
Qed.

Theorem fermat p a : prime p -> ~ (p | a) -> a ^ (p - 1) mod p = 1.
Proof.
  intros Hp Ha. pose proof (prime_ge_2 p Hp).
  assert (E := prodZ_map_mul p a (units p)).
  rewrite (prodZ_perm _ _ (units_perm p a Hp Ha)) in E.
  assert (L : Z.of_nat (length (units p)) = p - 1) by (unfold units; rewrite map_length, seq_length; lia).
  rewrite L in E. rewrite <- (Z.mul_1_r (prodZ (units p))) in E at 1. rewrite (Z.mul_comm (a ^ (p - 1))) in E.
  apply prime_cancel in E; auto.
  - rewrite <- E. apply Z.mod_small. lia.
  - apply prodZ_not_div; auto. intros x. apply units_in.
Qed.

Lemma pow_mod p a k : 0 < p -> (a mod p) ^ k mod p = a ^ k mod p.
Proof.
  intros Hp. destruct (Z.ltb_spec k 0); [rewrite !Z.pow_neg_r by lia; reflexivity|].
  revert k H. apply natlike_ind; [reflexivity|]. intros k Hk IH.
  rewrite !Z.pow_succ_r by lia. rewrite Zmult_mod, IH, Zmod_mod, <- Zmult_mod. reflexivity.
Qed.

Lemma divide_pow p a k : 0 < k -> (p | a) -> (p | a ^ k).
Proof.
  intros Hk D. replace k with (Z.succ (k - 1)) by lia. rewrite Z.pow_succ_r by lia. apply Z.divide_mul_l. auto.
Qed.

(** x^k = x mod p when k = 1 mod (p-1), for every x. *)
Theorem fermat_exp p a k : prime p -> 0 < k -> (p - 1 | k - 1) -> a ^ k mod p = a mod p.
Proof.
  intros Hp Hk [j Hj]. pose proof (prime_ge_2 p Hp).
  destruct (Znumtheory.Zdivide_dec p a) as [D|D].
  - rewrite (proj2 (Z.mod_divide (a ^ k) p ltac:(lia))) by (apply divide_pow; auto).
    symmetry. apply Z.mod_divide; [lia|auto].
  - assert (0 <= j) by nia.
    replace k with (1 + (p - 1) * j) by lia. rewrite Z.pow_add_r, Z.pow_1_r by nia.
    rewrite Z.pow_mul_r by lia. rewrite Zmult_mod, <- pow_mod, fermat, Z.pow_1_l, Z.mod_1_l, Z.mul_1_r, Zmod_mod by (auto; lia).
    reflexivity.
Qed.

Theorem fermat_inverse p a : prime p -> ~ (p | a) -> (a * a ^ (p - 2)) mod p = 1.
Proof.
  intros Hp Ha. pose proof (prime_ge_2 p Hp). rewrite <- Z.pow_succ_r by lia.
  replace (Z.succ (p - 2)) with (p - 1) by lia. apply fermat; auto.
Qed.

(** square roots of 1 *)
Theorem sqrt_one p z : prime p -> (z * z) mod p = 1 -> z mod p = 1 \/ z mod p = p - 1.
Proof.
  intros Hp E. pose proof (prime_ge_2 p Hp).
  assert (D : (p | (z - 1) * (z + 1))).
  { apply Z.mod_divide; [lia|]. replace ((z - 1) * (z + 1)) with (z * z - 1) by ring.
    rewrite Zminus_mod, E, (Z.mod_small 1) by lia. apply Z.mod_0_l. lia. }
  apply prime_mult in D; auto. destruct D as [[k D]|[k D]].
  - left. replace z with (1 + k * p) by lia. rewrite Z_mod_plus_full. apply Z.mod_small; lia.
  - right. replace z with ((p - 1) + (k - 1) * p) by lia. rewrite Z_mod_plus_full. apply Z.mod_small; lia.
Qed.

(** a number below the product of pairwise coprime moduli is determined by its residues *)
Lemma crt_divide (l : list Z) x : Forall (fun r => 0 < r) l ->
  ForallOrdPairs (fun a b => rel_prime a b) l -> (forall r, In r l -> (r | x)) -> (prodZ l | x).
Proof.
  induction l as [|r l IH]; intros P C D.
  - cbn. apply Z.divide_1_l.
  - cbn [prodZ fold_right]. fold (prodZ l). inversion P as [|? ? P1 P2]; subst. inversion C as [|? ? C1 C2]; subst.
    destruct (IH P2 C2 (fun r H => D r (or_intror H))) as [k Hk].
    assert (R : rel_prime r (prodZ l)).
    { clear -C1. induction C1; cbn; [apply rel_prime_sym, rel_prime_1|]. apply rel_prime_mult; auto. }
    assert (H : (r | prodZ l * k)) by (rewrite Z.mul_comm, <- Hk; apply D; left; auto).
    apply Gauss in H; auto. destruct H as [j Hj]. exists j. rewrite Hk, Hj. ring.
Qed.

Theorem crt_unique (l : list Z) x y : Forall (fun r => 0 < r) l -> ForallOrdPairs rel_prime l ->
  0 <= x < prodZ l -> 0 <= y < prodZ l -> (forall r, In r l -> x mod r = y mod r) -> x = y.
Proof.
  intros P C Bx By E.
  assert (D : (prodZ l | x - y)).
  { apply crt_divide; auto. intros r Hr. rewrite Forall_forall in P. specialize (P r Hr).
    apply Z.mod_divide; [lia|]. rewrite Zminus_mod, (E r Hr), Z.sub_diag. apply Z.mod_0_l. lia. }
  destruct D as [k Hk]. assert (k = 0) by nia. lia.
Qed.
