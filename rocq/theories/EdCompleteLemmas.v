(** The two Edwards curves satisfy the conditions of completeness, given that p is prime. *)
From Coq Require Import ZArith Znumtheory Lia.
From Verif Require Import Base Fermat EcSpec EcGroupLemmas EdSpec EdGroupLemmas EcMod EcEd.
Open Scope Z_scope.

Lemma pow_eqm p x y k : 0 <= k -> eqm p x y -> eqm p (x ^ k) (y ^ k).
Proof.
  intros Hk E. pattern k. apply natlike_ind; [reflexivity| |exact Hk]. intros j Hj IH. rewrite !Z.pow_succ_r by lia. now rewrite IH, E.
Qed.
Lemma m1_odd p k : 0 <= k -> eqm p ((-1) ^ (2 * k + 1)) (-1).
Proof.
  intros Hk. rewrite Z.pow_add_r, Z.pow_mul_r by lia. replace ((-1) ^ 2) with 1 by reflexivity. rewrite Z.pow_1_l by lia. apply eqm_eq. reflexivity.
Qed.
Lemma not_m1 p : prime p -> p <> 2 -> ~ eqm p 1 (-1).
Proof.
  intros Hp H2 E. apply eqm_mod in E; [|pose proof (prime_ge_2 p Hp); lia]. pose proof (prime_ge_2 p Hp).
  rewrite Z.mod_small in E by lia. replace (-1) with (p - 1 + (-1) * p) in E by ring. rewrite Z_mod_plus_full in E.
  rewrite Z.mod_small in E by lia. lia.
Qed.
Lemma eqm_pow_unit p w : prime p -> p <> 2 -> ~ eqm p w 0 -> eqm p (w ^ (p - 1)) 1.
Proof.
  intros Hp H2 N. pose proof (prime_ge_2 p Hp). apply eqm_mod; [lia|]. rewrite (Z.mod_small 1) by lia. apply fermat; auto. now rewrite <- eqm0.
Qed.
(** p = 5 (mod 8): -1 is no fourth power *)
Lemma no_fourth p k w : prime p -> 0 <= k -> p = 8 * k + 5 -> ~ eqm p (w ^ 4) (-1).
Proof.
  intros Hp Hk E H. assert (H2 : p <> 2) by lia.
  assert (N : ~ eqm p w 0).
  { intros Z. apply (not_m1 p Hp H2). pose proof (pow_eqm p w 0 4 ltac:(lia) Z) as Q. rewrite H in Q. change (0 ^ 4) with 0 in Q.
    apply eqm_minus. apply eqm_minus in Q. replace (1 - -1) with (-2 * (-1 - 0)) by reflexivity. rewrite Q. now apply eqm_eq. }
  pose proof (eqm_pow_unit p w Hp H2 N) as U. replace (p - 1) with (4 * (2 * k + 1)) in U by lia. rewrite Z.pow_mul_r in U by lia.
  pose proof (pow_eqm p (w ^ 4) (-1) (2 * k + 1) ltac:(lia) H) as Q. rewrite U in Q. rewrite m1_odd in Q by lia. exact (not_m1 p Hp H2 Q).
Qed.
(** p = 3 (mod 4): -1 is no square *)
Lemma no_square p k w : prime p -> 0 <= k -> p = 4 * k + 3 -> ~ eqm p (w ^ 2) (-1).
Proof.
  intros Hp Hk E H. assert (H2 : p <> 2) by lia.
  assert (N : ~ eqm p w 0).
  { intros Z. apply (not_m1 p Hp H2). pose proof (pow_eqm p w 0 2 ltac:(lia) Z) as Q. rewrite H in Q. change (0 ^ 2) with 0 in Q.
    apply eqm_minus. apply eqm_minus in Q. replace (1 - -1) with (-2 * (-1 - 0)) by reflexivity. rewrite Q. now apply eqm_eq. }
  pose proof (eqm_pow_unit p w Hp H2 N) as U. replace (p - 1) with (2 * (2 * k + 1)) in U by lia. rewrite Z.pow_mul_r in U by lia.
  pose proof (pow_eqm p (w ^ 2) (-1) (2 * k + 1) ltac:(lia) H) as Q. rewrite U in Q. rewrite m1_odd in Q by lia. exact (not_m1 p Hp H2 Q).
Qed.

(** d = i t^2 with i^2 = -1, resp. d = - s^2 *)
Lemma complete_5mod8 p k a d1 d2 s i t : prime p -> 0 <= k -> p = 8 * k + 5 -> ~ eqm p d2 0 -> ~ eqm p d1 0 ->
  eqm p a (s * s) -> ~ eqm p a 0 -> eqm p (i * i) (-1) -> eqm p d1 (d2 * (i * (t * t))) -> ed_complete p a d1 d2.
Proof.
  intros Hp Hk E N2 N1 Ha Na Hi Hd. split; [exact N2|]. split; [now exists s|]. split; [exact Na|]. intros z Hz.
  assert (H2 : p <> 2) by lia.
  assert (Nt : ~ eqm p t 0). { intros T. apply N1. rewrite Hd, T. apply eqm_eq; ring. }
  rewrite Hd in Hz. apply (cancel p Hp _ _ _ N2) in Hz.
  destruct (div_ex p 0 Hp H2 t z Nt) as (w & Hw). apply (no_fourth p k w Hp Hk E).
  assert (W : eqm p (w * w) i).
  { apply (cancel p Hp (t * t)); [now apply mul_nz|]. replace (t * t * (w * w)) with (w * t * (w * t)) by ring. rewrite Hw, Hz. apply eqm_eq; ring. }
  replace (w ^ 4) with (w * w * (w * w)) by ring. rewrite W. exact Hi.
Qed.
Lemma complete_3mod4 p k a d1 d2 s r : prime p -> 0 <= k -> p = 4 * k + 3 -> ~ eqm p d2 0 -> ~ eqm p d1 0 ->
  eqm p a (s * s) -> ~ eqm p a 0 -> eqm p (- d1) (d2 * (r * r)) -> ed_complete p a d1 d2.
Proof.
  intros Hp Hk E N2 N1 Ha Na Hd. split; [exact N2|]. split; [now exists s|]. split; [exact Na|]. intros z Hz.
  assert (H2 : p <> 2) by lia.
  assert (Nr : ~ eqm p r 0). { intros T. apply N1. replace d1 with (- (- d1)) by ring. rewrite Hd, T. apply eqm_eq; ring. }
  destruct (div_ex p 0 Hp H2 r z Nr) as (w & Hw). apply (no_square p k w Hp Hk E).
  apply (cancel p Hp (d2 * (r * r))); [now repeat apply (mul_nz p Hp)|].
  replace (d2 * (r * r) * w ^ 2) with (d2 * (w * r * (w * r))) by ring. rewrite Hw, Hz, <- Hd. apply eqm_eq; ring.
Qed.

Lemma eqm_by p x y : (Z.rem (x - y) p =? 0) = true -> p <> 0 -> eqm p x y.
Proof. intros H N. apply Z.eqb_eq in H. apply Z.rem_divide; auto. Qed.
Lemma neqm_by p x : (Z.rem x p =? 0) = false -> p <> 0 -> ~ eqm p x 0.
Proof. intros H N E. apply Z.eqb_neq in H. apply H. apply Z.rem_divide; auto. unfold eqm in E. now rewrite Z.sub_0_r in E. Qed.

Lemma p25519_val : val_le 32 Fp_25519 = 2 ^ 255 - 19. Proof. vm_compute. reflexivity. Qed.
Lemma p448_val : val_le 32 Fp_448 = 2 ^ 448 - 2 ^ 224 - 1. Proof. vm_compute. reflexivity. Qed.
Lemma complete_25519 : prime (2 ^ 255 - 19) -> ed_complete (2 ^ 255 - 19) (-1) (-121665) 121666.
Proof.
  intros Hp. 
  set (s := 0x2b8324804fc1df0b2b4d00993dfbd7a72f431806ad2fe478c4ee1b274a0ea0b0).
  set (t := 0x7f9fc7820e794ddf7a006aa05bc9db32568d16f14f5434a82e885b1924614b82).
  assert (N0 : 2 ^ 255 - 19 <> 0) by (apply Z.eqb_neq; vm_compute; reflexivity).
  apply (complete_5mod8 _ (2 ^ 252 - 3) _ _ _ s s t); [exact Hp| | | | | | | | ].
  - apply Z.leb_le. vm_compute. reflexivity.
  - apply Z.eqb_eq. vm_compute. reflexivity.
  - apply neqm_by; [vm_compute; reflexivity|exact N0].
  - apply neqm_by; [vm_compute; reflexivity|exact N0].
  - apply eqm_by; [vm_compute; reflexivity|exact N0].
  - apply neqm_by; [vm_compute; reflexivity|exact N0].
  - apply eqm_by; [vm_compute; reflexivity|exact N0].
  - apply eqm_by; [vm_compute; reflexivity|exact N0].
Qed.
Lemma complete_448 : prime (2 ^ 448 - 2 ^ 224 - 1) -> ed_complete (2 ^ 448 - 2 ^ 224 - 1) 1 (-39081) 1.
Proof.
  intros Hp. 
  set (r := 0xdd269d0414db0897c409728dd05d955f5e0e58475a472ab49b5d287e6973eb457c65990b0291212d9fcc840955df31ad69bd10f0baa8d8c9).
  assert (N0 : 2 ^ 448 - 2 ^ 224 - 1 <> 0) by (apply Z.eqb_neq; vm_compute; reflexivity).
  apply (complete_3mod4 _ (2 ^ 446 - 2 ^ 222 - 1) _ _ _ 1 r); [exact Hp| | | | | | | ].
  - apply Z.leb_le. vm_compute. reflexivity.
  - apply Z.eqb_eq. vm_compute. reflexivity.
  - apply neqm_by; [vm_compute; reflexivity|exact N0].
  - apply neqm_by; [vm_compute; reflexivity|exact N0].
  - apply eqm_by; [vm_compute; reflexivity|exact N0].
  - apply neqm_by; [vm_compute; reflexivity|exact N0].
  - apply eqm_by; [vm_compute; reflexivity|exact N0].
Qed.
