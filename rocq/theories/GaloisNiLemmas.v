(** Lemmas: bit mirroring inside octets and the folding reduction. *)
From Verif Require Import Base HashSpec Blocks HashLemmas CmacLemmas CipherLemmas GcmSpec Gcm GaloisLemmas GaloisNi.

(* ---------- polynomial algebra ---------- *)
Lemma clmul_0_r n : forall a, clmul n a 0 = 0.
Proof. induction n as [|n IH]; intros a; [reflexivity|]. cbn [clmul]. rewrite IH. now destruct (Z.odd a). Qed.
Lemma clmul_0_l n : forall b, clmul n 0 b = 0.
Proof. induction n as [|n IH]; intros b; [reflexivity|]. cbn [clmul]. change (0 / 2) with 0. now rewrite IH. Qed.
Lemma clmul_lxor_r n : forall a b c, clmul n a (Z.lxor b c) = Z.lxor (clmul n a b) (clmul n a c).
Proof.
  induction n as [|n IH]; intros a b c; [reflexivity|]. cbn [clmul]. rewrite IH, lxor_double.
  destruct (Z.odd a); [apply lxor_swap|]. now rewrite !Z.lxor_0_l.
Qed.
Lemma clmul_double_r n : forall a b, clmul n a (2 * b) = 2 * clmul n a b.
Proof.
  induction n as [|n IH]; intros a b; [reflexivity|]. cbn [clmul]. rewrite IH, lxor_double. f_equal. now destruct (Z.odd a).
Qed.
Lemma clmul_pow_r n a k : forall b, clmul n a (b * 2 ^ Z.of_nat k) = clmul n a b * 2 ^ Z.of_nat k.
Proof.
  induction k as [|k IH]; intros b; [now rewrite !Z.mul_1_r|]. rewrite Nat2Z.inj_succ, Z.pow_succ_r by lia.
  replace (b * (2 * 2 ^ Z.of_nat k)) with (2 * b * 2 ^ Z.of_nat k) by lia. rewrite IH, clmul_double_r. lia.
Qed.
Lemma clmul_app n m : forall a b, clmul (n + m) a b = Z.lxor (clmul n (a mod 2 ^ Z.of_nat n) b) (clmul m (a / 2 ^ Z.of_nat n) b * 2 ^ Z.of_nat n).
Proof.
  induction n as [|n IH]; intros a b.
  - cbn [Nat.add clmul]. change (2 ^ Z.of_nat 0) with 1. now rewrite Z.div_1_r, Z.mul_1_r, Z.lxor_0_l.
  - cbn [Nat.add clmul]. rewrite IH, lxor_double. rewrite Nat2Z.inj_succ, Z.pow_succ_r by lia.
    assert (P : 0 < 2 ^ Z.of_nat n) by (apply Z.pow_pos_nonneg; lia).
    assert (E1 : Z.odd (a mod (2 * 2 ^ Z.of_nat n)) = Z.odd a).
    { rewrite <- !Z.bit0_odd. rewrite <- Z.pow_succ_r by lia. apply Z.mod_pow2_bits_low. lia. }
    assert (E2 : a mod (2 * 2 ^ Z.of_nat n) / 2 = a / 2 mod 2 ^ Z.of_nat n).
    { rewrite Z.rem_mul_r by lia. rewrite Z.add_comm, Z.mul_comm, Z.div_add_l by lia.
      rewrite (Z.div_small (a mod 2)) by (apply Z.mod_pos_bound; lia). lia. }
    rewrite E1, E2, <- Z.lxor_assoc. f_equal. rewrite Z.div_div by lia. lia.
Qed.
Lemma clmul_1 n : forall a, 0 <= a < 2 ^ Z.of_nat n -> clmul n a 1 = a.
Proof.
  induction n as [|n IH]; intros a Ha; [change (2 ^ Z.of_nat 0) with 1 in Ha; cbn [clmul]; lia|].
  rewrite Nat2Z.inj_succ, Z.pow_succ_r in Ha by lia. cbn [clmul]. rewrite IH by (split; [apply Z.div_pos; lia|apply Z.div_lt_upper_bound; lia]).
  rewrite (Z.div_mod a 2) at 3 by lia. rewrite Zmod_odd. destruct (Z.odd a); [|now rewrite Z.lxor_0_l, Z.add_0_r].
  rewrite <- Z.add_nocarry_lxor; [lia|]. apply Z.bits_inj'. intros i Hi. rewrite Z.land_spec, Z.bits_0.
  destruct (Z.eq_dec i 0) as [->|N]; [rewrite Z.testbit_even_0; apply andb_false_r|].
  replace (Z.testbit 1 i) with false; [reflexivity|]. symmetry. apply (testbit_high 1 1); lia.
Qed.
Lemma clmul_bound n m : forall a b, 0 <= b < 2 ^ Z.of_nat m -> 0 <= clmul n a b < 2 ^ Z.of_nat (n + m).
Proof.
  induction n as [|n IH]; intros a b Hb; [cbn [clmul]; split; [lia|apply Z.pow_pos_nonneg; lia]|].
  cbn [clmul Nat.add]. apply lxor_bound; [lia| |].
  - destruct (Z.odd a); [|split; [lia|apply Z.pow_pos_nonneg; lia]].
    split; [lia|]. apply Z.lt_le_trans with (2 ^ Z.of_nat m); [lia|]. apply Z.pow_le_mono_r; lia.
  - specialize (IH (a / 2) b Hb). rewrite Nat2Z.inj_succ, Z.pow_succ_r by lia. lia.
Qed.
Lemma lxor_low_high a b k : 0 <= k -> 0 <= a < 2 ^ k -> Z.lxor a (b * 2 ^ k) = a + b * 2 ^ k.
Proof.
  intros Hk Ha. symmetry. apply Z.add_nocarry_lxor. apply Z.bits_inj'. intros i Hi. rewrite Z.land_spec, Z.bits_0.
  destruct (Z.lt_ge_cases i k) as [L|G].
  - rewrite (Z.mul_pow2_bits_low b k i) by lia. apply andb_false_r.
  - now rewrite (testbit_high a k i) by lia.
Qed.
Lemma split_pow v k : 0 <= k -> v = Z.lxor (v mod 2 ^ k) (v / 2 ^ k * 2 ^ k).
Proof.
  intros Hk. assert (P : 0 < 2 ^ k) by (apply Z.pow_pos_nonneg; lia).
  rewrite lxor_low_high by (auto; apply Z.mod_pos_bound; lia). rewrite Z.mul_comm, Z.add_comm. apply Z.div_mod. lia.
Qed.
Lemma lxor_mul_pow a b k : 0 <= k -> Z.lxor a b * 2 ^ k = Z.lxor (a * 2 ^ k) (b * 2 ^ k).
Proof. intros Hk. rewrite <- !Z.shiftl_mul_pow2 by lia. apply Z.shiftl_lxor. Qed.

(* ---------- reduction ---------- *)
Fixpoint xs (k : nat) (v : Z) : Z := match k with O => v | S k => mulx (xs k v) end.
Lemma poly_rem_pow j k : forall v, poly_rem (k + j) (v * 2 ^ Z.of_nat k) = xs k (poly_rem j v).
Proof.
  induction k as [|k IH]; intros v; [cbn [Nat.add xs]; now rewrite Z.mul_1_r|].
  cbn [Nat.add xs]. rewrite Nat2Z.inj_succ, Z.pow_succ_r by lia.
  replace (v * (2 * 2 ^ Z.of_nat k)) with (2 * (v * 2 ^ Z.of_nat k)) by lia. now rewrite poly_rem_double, IH.
Qed.
Lemma acc_xs n a k : forall b, acc n a (xs k b) = xs k (acc n a b).
Proof. induction k as [|k IH]; intros b; [reflexivity|]. cbn [xs]. now rewrite acc_mulx, IH. Qed.
Lemma xs128_1 : xs 128 1 = 0x87. Proof. vm_compute. reflexivity. Qed.
(** x^128 = x^7+x^2+x+1 *)
Lemma rem_fold v : 0 <= v < 2 ^ 128 -> poly_rem 128 (v * 2 ^ 128) = poly_rem 128 (clmul 128 v 0x87).
Proof.
  intros Hv. change (poly_rem 128 (v * 2 ^ 128)) with (poly_rem (128 + 0) (v * 2 ^ Z.of_nat 128)). rewrite poly_rem_pow. change (poly_rem 0 v) with v.
  rewrite poly_rem_clmul by lia. rewrite <- xs128_1, acc_xs. f_equal.
  rewrite <- (poly_rem_clmul 128 v 1) by lia. rewrite clmul_1 by exact Hv. symmetry. now apply poly_rem_small.
Qed.
Lemma fold87 v : 0 <= v < 2 ^ 64 -> clmul 64 0x87 v = clmul 64 v 0x87.
Proof.
  intros Hv. assert (E : forall n a b, clmul (S n) a b = Z.lxor (if Z.odd a then b else 0) (2 * clmul n (a / 2) b)) by reflexivity.
  assert (EL : clmul 64 0x87 v = Z.lxor v (2 * Z.lxor v (2 * Z.lxor v (2 * (2 * (2 * (2 * (2 * v)))))))).
  { change 64%nat with (8 + 56)%nat. rewrite clmul_app. change (0x87 mod 2 ^ Z.of_nat 8) with 0x87. change (0x87 / 2 ^ Z.of_nat 8) with 0.
    rewrite clmul_0_l, Z.mul_0_l, Z.lxor_0_r. rewrite !E. change (clmul 0 _ v) with 0.
    change (0x87 / 2) with 0x43. change (0x43 / 2) with 0x21. change (0x21 / 2) with 0x10. change (0x10 / 2) with 8. change (8 / 2) with 4. change (4 / 2) with 2. change (2 / 2) with 1.
    change (Z.odd 0x87) with true. change (Z.odd 0x43) with true. change (Z.odd 0x21) with true. change (Z.odd 0x10) with false. change (Z.odd 8) with false.
    change (Z.odd 4) with false. change (Z.odd 2) with false. change (Z.odd 1) with true. cbv iota. rewrite !Z.lxor_0_l, Z.mul_0_r, Z.lxor_0_r. reflexivity. }
  rewrite EL. change 0x87 with (Z.lxor 1 (2 * Z.lxor 1 (2 * Z.lxor 1 (2 * (2 * (2 * (2 * (2 * 1)))))))).
  repeat (rewrite clmul_lxor_r || rewrite clmul_double_r). rewrite !clmul_1 by exact Hv. reflexivity.
Qed.
Lemma fold64 v : 0 <= v < 2 ^ 64 -> poly_rem 128 (v * 2 ^ 128) = mul64 0x87 v.
Proof.
  intros Hv. rewrite rem_fold by lia. unfold mul64. rewrite (Z.mod_small v), (Z.mod_small 0x87) by lia. rewrite fold87 by exact Hv.
  change 128%nat with (64 + 64)%nat at 2. rewrite clmul_app. change (Z.of_nat 64) with 64. rewrite Z.mod_small, Z.div_small by lia.
  rewrite clmul_0_l, Z.mul_0_l, Z.lxor_0_r. apply poly_rem_small.
  apply (clmul_bound 64 64). change (Z.of_nat 64) with 64. lia.
Qed.
Lemma mul64_mod a b : mul64 (a mod 2 ^ 64) (b mod 2 ^ 64) = mul64 a b.
Proof. unfold mul64. now rewrite !Z.mod_mod by lia. Qed.
Lemma mul64_bound a b : 0 <= mul64 a b < 2 ^ 128.
Proof. unfold mul64. apply (clmul_bound 64 64). change (Z.of_nat 64) with 64. apply Z.mod_pos_bound. lia. Qed.
Lemma shl64 v : shl128 v 64 = (v mod 2 ^ 64) * 2 ^ 64.
Proof.
  unfold shl128. rewrite Z.shiftl_mul_pow2 by lia. change (2 ^ 128) with (2 ^ 64 * 2 ^ 64). rewrite Z.mul_mod_distr_r by lia. reflexivity.
Qed.
(** the straight-line code of the three multipliers, on mirrored operands *)
Definition fold_mul (x y : Z) : Z :=
  let L := mul64 x y in
  let M := Z.lxor (mul64 x (y / 2 ^ 64)) (mul64 (x / 2 ^ 64) y) in
  let H := mul64 (x / 2 ^ 64) (y / 2 ^ 64) in
  let c := mul64 0x87 (H / 2 ^ 64) in
  Z.lxor (Z.lxor (Z.lxor (Z.lxor (Z.lxor L (shl128 M 64)) (mul64 0x87 (M / 2 ^ 64))) (mul64 0x87 H)) (shl128 c 64)) (mul64 0x87 (c / 2 ^ 64)).
Lemma clmul128_split x y : 0 <= x < 2 ^ 128 -> 0 <= y < 2 ^ 128 ->
  clmul 128 x y = Z.lxor (Z.lxor (mul64 x y) (Z.lxor (mul64 x (y / 2 ^ 64)) (mul64 (x / 2 ^ 64) y) * 2 ^ 64))
                         (mul64 (x / 2 ^ 64) (y / 2 ^ 64) * 2 ^ 128).
Proof.
  intros Hx Hy.
  assert (Dx : 0 <= x / 2 ^ 64 < 2 ^ 64) by (split; [apply Z.div_pos; lia|apply Z.div_lt_upper_bound; lia]).
  assert (Dy : 0 <= y / 2 ^ 64 < 2 ^ 64) by (split; [apply Z.div_pos; lia|apply Z.div_lt_upper_bound; lia]).
  change 128%nat with (64 + 64)%nat. rewrite clmul_app. change (Z.of_nat 64) with 64.
  assert (G : forall a, clmul 64 a y = Z.lxor (clmul 64 a (y mod 2 ^ 64)) (clmul 64 a (y / 2 ^ 64) * 2 ^ 64)).
  { intros a. rewrite (split_pow y 64) at 1 by lia. rewrite clmul_lxor_r. f_equal. exact (clmul_pow_r 64 a 64 (y / 2 ^ 64)). }
  rewrite !G. unfold mul64. rewrite !(Z.mod_small (x / 2 ^ 64)), !(Z.mod_small (y / 2 ^ 64)) by assumption.
  rewrite !lxor_mul_pow by lia. rewrite <- Z.mul_assoc. change (2 ^ 64 * 2 ^ 64) with (2 ^ 128).
  rewrite !Z.lxor_assoc. reflexivity.
Qed.
Lemma fold_mul_spec x y : 0 <= x < 2 ^ 128 -> 0 <= y < 2 ^ 128 -> fold_mul x y = poly_rem 128 (clmul 128 x y).
Proof.
  intros Hx Hy. rewrite clmul128_split by assumption. unfold fold_mul. cbv zeta.
  pose proof (mul64_bound x y) as BL. set (L := mul64 x y) in *.
  assert (BM : 0 <= Z.lxor (mul64 x (y / 2 ^ 64)) (mul64 (x / 2 ^ 64) y) < 2 ^ 128) by (apply lxor_bound; [lia|apply mul64_bound|apply mul64_bound]).
  set (M := Z.lxor (mul64 x (y / 2 ^ 64)) (mul64 (x / 2 ^ 64) y)) in *.
  pose proof (mul64_bound (x / 2 ^ 64) (y / 2 ^ 64)) as BH. set (H := mul64 (x / 2 ^ 64) (y / 2 ^ 64)) in *.
  clearbody L M H. clear Hx Hy x y.
  assert (hi : forall v, 0 <= v < 2 ^ 128 -> 0 <= v / 2 ^ 64 < 2 ^ 64) by (intros v Hv; split; [apply Z.div_pos; lia|apply Z.div_lt_upper_bound; lia]).
  assert (lo : forall v, 0 <= v mod 2 ^ 64 < 2 ^ 64) by (intros; apply Z.mod_pos_bound; lia).
  assert (F : forall v, 0 <= v < 2 ^ 128 -> poly_rem 128 (v * 2 ^ 64) = Z.lxor (shl128 v 64) (mul64 0x87 (v / 2 ^ 64))).
  { intros v Hv. rewrite (split_pow v 64) at 1 by lia. rewrite lxor_mul_pow by lia. rewrite <- Z.mul_assoc. change (2 ^ 64 * 2 ^ 64) with (2 ^ 128).
    rewrite poly_rem_lxor, fold64 by (apply hi; exact Hv). rewrite shl64. f_equal. apply poly_rem_small. specialize (lo v). lia. }
  assert (M0 : forall v, mul64 0x87 (v mod 2 ^ 64) = mul64 0x87 v) by (intros v; unfold mul64; now rewrite Z.mod_mod by lia).
  rewrite !poly_rem_lxor. rewrite (poly_rem_small 128 L) by exact BL. rewrite (F M BM).
  assert (EH : poly_rem 128 (H * 2 ^ 128) = Z.lxor (mul64 0x87 H) (Z.lxor (shl128 (mul64 0x87 (H / 2 ^ 64)) 64) (mul64 0x87 (mul64 0x87 (H / 2 ^ 64) / 2 ^ 64)))).
  { rewrite <- F by apply mul64_bound. rewrite (split_pow H 64) at 1 by lia. rewrite lxor_mul_pow by lia. rewrite poly_rem_lxor.
    rewrite fold64 by apply lo. rewrite M0. f_equal.
    rewrite rem_fold by (specialize (hi H BH); lia).
    change 128%nat with (64 + 64)%nat at 2. rewrite clmul_app. change (Z.of_nat 64) with 64.
    rewrite Z.mod_mul, Z.div_mul, clmul_0_l, Z.lxor_0_l by lia. do 2 f_equal.
    unfold mul64. rewrite (Z.mod_small (H / 2 ^ 64)), (Z.mod_small 0x87) by (try apply hi; lia). symmetry. apply fold87. apply hi, BH. }
  rewrite EH. rewrite !Z.lxor_assoc. reflexivity.
Qed.
Lemma fold_mul_bound x y : 0 <= fold_mul x y < 2 ^ 128.
Proof.
  unfold fold_mul. cbv zeta. assert (S : forall v, 0 <= shl128 v 64 < 2 ^ 128) by (intros; unfold shl128; apply Z.mod_pos_bound; lia).
  repeat (apply lxor_bound; [lia| |first [apply mul64_bound|apply S]]). apply mul64_bound.
Qed.

(* ---------- mirroring ---------- *)
Definition sig (n : Z) : Z := 8 * (n / 8) + 7 - n mod 8.
Definition idx128 : list Z := map Z.of_nat (seq 0 128).
Lemma all128 (P : Z -> bool) : forallb P idx128 = true -> forall n, 0 <= n < 128 -> P n = true.
Proof.
  intros F n Hn. rewrite forallb_forall in F. apply F. unfold idx128. apply in_map_iff. exists (Z.to_nat n). split; [lia|].
  apply in_seq. lia.
Qed.
(** one exchange of neighbouring groups of k bits *)
Definition swp (k m x : Z) : Z := Z.lor (Z.shiftr (Z.land x m) k) (shl128 (Z.land x (Z.shiftr m k)) k).
Definition sg (k m n : Z) : Z := if Z.testbit m (n + k) then n + k else n - k.
Definition swp_ok (k m : Z) : bool :=
  forallb (fun n => (0 <=? sg k m n) && (sg k m n <? 128) &&
                    xorb (Z.testbit m (n + k)) ((k <=? n) && Z.testbit (Z.shiftr m k) (n - k))) idx128.
Lemma swp_bit k m x n : 0 <= k -> 0 <= n < 128 -> swp_ok k m = true -> Z.testbit (swp k m x) n = Z.testbit x (sg k m n) /\ 0 <= sg k m n < 128.
Proof.
  intros Hk Hn W. pose proof (all128 _ W n Hn) as B. cbv beta in B. apply andb_prop in B. destruct B as [B1 B2].
  apply andb_prop in B1. destruct B1 as [B0 B1]. apply Z.leb_le in B0. apply Z.ltb_lt in B1. split; [|lia].
  unfold swp, shl128. rewrite Z.lor_spec, Z.shiftr_spec, Z.land_spec by lia. rewrite Z.mod_pow2_bits_low by lia. rewrite Z.shiftl_spec by lia.
  rewrite Z.land_spec. unfold sg. destruct (Z.testbit m (n + k)).
  - rewrite andb_true_r. destruct (Z.leb_spec k n).
    + cbn [xorb andb] in B2. destruct (Z.testbit (Z.shiftr m k) (n - k)); [discriminate|]. now rewrite andb_false_r, orb_false_r.
    + rewrite (Z.testbit_neg_r x (n - k)) by lia. now rewrite orb_false_r.
  - rewrite andb_false_r, orb_false_l. rewrite xorb_false_l in B2. apply andb_prop in B2. destruct B2 as [_ B2]. rewrite B2. apply andb_true_r.
Qed.
Lemma swp_bound k m x : 0 <= k -> 0 <= m < 2 ^ 128 -> 0 <= swp k m x < 2 ^ 128.
Proof.
  intros Hk Hm. unfold swp. apply lor_range; [lia| |unfold shl128; apply Z.mod_pos_bound; lia].
  pose proof (land_range x m 128 ltac:(lia) Hm) as B. rewrite Z.shiftr_div_pow2 by lia.
  assert (P : 0 < 2 ^ k) by (apply Z.pow_pos_nonneg; lia). split; [apply Z.div_pos; lia|].
  apply Z.div_lt_upper_bound; [lia|]. nia.
Qed.
Lemma mirror_arm_swp x : bytes_mirror_arm x = swp 4 (mask_of 0xf0f0) (swp 2 (mask_of 0xcccc) (swp 1 (mask_of 0xaaaa) x)).
Proof. reflexivity. Qed.
Lemma mirror_arm_bound x : 0 <= bytes_mirror_arm x < 2 ^ 128.
Proof. rewrite mirror_arm_swp. apply swp_bound; [lia|]. vm_compute. split; congruence. Qed.
Lemma sig_sg n : 0 <= n < 128 -> sg 1 (mask_of 0xaaaa) (sg 2 (mask_of 0xcccc) (sg 4 (mask_of 0xf0f0) n)) = sig n.
Proof.
  intros Hn. apply Z.eqb_eq. apply (all128 (fun n => sg 1 (mask_of 0xaaaa) (sg 2 (mask_of 0xcccc) (sg 4 (mask_of 0xf0f0) n)) =? sig n)); [|exact Hn].
  vm_compute. reflexivity.
Qed.
Lemma mirror_arm_bit x n : 0 <= n < 128 -> Z.testbit (bytes_mirror_arm x) n = Z.testbit x (sig n).
Proof.
  intros Hn. rewrite mirror_arm_swp.
  destruct (swp_bit 4 (mask_of 0xf0f0) (swp 2 (mask_of 0xcccc) (swp 1 (mask_of 0xaaaa) x)) n ltac:(lia) Hn) as [-> B1]; [vm_compute; reflexivity|].
  destruct (swp_bit 2 (mask_of 0xcccc) (swp 1 (mask_of 0xaaaa) x) _ ltac:(lia) B1) as [-> B2]; [vm_compute; reflexivity|].
  destruct (swp_bit 1 (mask_of 0xaaaa) x _ ltac:(lia) B2) as [-> B3]; [vm_compute; reflexivity|].
  now rewrite sig_sg.
Qed.
(* x86: shifting the 16-bit lanes of a masked register is shifting the register *)
Lemma val16_bit l : Forall (fun d => 0 <= d < 2 ^ 16) l -> forall n, 0 <= n -> Z.testbit (val_le 16 l) n = Z.testbit (nthZ (Z.to_nat (n / 16)) l) (n mod 16).
Proof.
  induction l as [|d l IH]; intros F n Hn.
  - cbn [val_le]. unfold nthZ. destruct (Z.to_nat (n / 16)); now rewrite !Z.bits_0.
  - inversion F as [|? ? Fd Fl]; subst. cbn [val_le]. rewrite (Z.mul_comm (2 ^ 16)). rewrite <- lxor_low_high by lia. rewrite Z.lxor_spec.
    destruct (Z.lt_ge_cases n 16) as [G|G].
    + rewrite Z.mul_pow2_bits_low by lia. rewrite xorb_false_r. rewrite (Z.div_small n 16), (Z.mod_small n 16) by lia. reflexivity.
    + rewrite (testbit_high d 16) by lia. rewrite xorb_false_l. rewrite Z.mul_pow2_bits by lia. rewrite IH by (auto; lia).
      replace (Z.to_nat (n / 16)) with (S (Z.to_nat ((n - 16) / 16))).
      * unfold nthZ. cbn [nth]. f_equal. rewrite <- (Z.mod_add (n - 16) 1 16) by lia. f_equal. lia.
      * rewrite <- Z2Nat.inj_succ by (apply Z.div_pos; lia). f_equal. replace n with (n - 16 + 1 * 16) at 2 by lia. rewrite Z.div_add by lia. lia.
Qed.
Lemma lane_bit v n j : 0 <= n < 128 -> 0 <= j < 16 -> Z.testbit (nthZ (Z.to_nat (n / 16)) (to_le 16 8 v)) j = Z.testbit v (16 * (n / 16) + j).
Proof.
  intros Hn Hj. assert (0 <= n / 16 < 8) by (split; [apply Z.div_pos; lia|apply Z.div_lt_upper_bound; lia]).
  rewrite nth_to_le by lia. rewrite Z2Nat.id by lia. rewrite Z.mod_pow2_bits_low by lia. rewrite Z.div_pow2_bits by lia. f_equal. lia.
Qed.
Lemma lanes_ok w v : 0 <= w -> Forall (fun d => 0 <= d < 2 ^ 16) (map (fun l => Z.shiftr l w) (to_le 16 8 v)) .
Proof.
  intros Hw. apply Forall_map. pose proof (to_le_digits 16 8 v ltac:(lia)) as F. revert F. apply Forall_impl. intros d Hd.
  rewrite Z.shiftr_div_pow2 by lia. assert (P : 0 < 2 ^ w) by (apply Z.pow_pos_nonneg; lia).
  split; [apply Z.div_pos; lia|]. apply Z.div_lt_upper_bound; [lia|]. nia.
Qed.
Lemma srli_bit v k n : 0 <= k < 16 -> 0 <= n < 128 -> Z.testbit (srli_epi16 v k) n = (n mod 16 + k <? 16) && Z.testbit v (n + k).
Proof.
  intros Hk Hn. unfold srli_epi16. rewrite val16_bit by (try apply lanes_ok; lia).
  pose proof (Z.mod_pos_bound n 16 ltac:(lia)) as Bm. pose proof (Z.div_mod n 16 ltac:(lia)) as Dm.
  unfold nthZ.
  rewrite (nth_indep _ 0 (Z.shiftr 0 k)) by (rewrite map_length, to_le_length; assert (0 <= n / 16 < 8) by (split; [apply Z.div_pos; lia|apply Z.div_lt_upper_bound; lia]); lia).
  rewrite (map_nth (fun l => Z.shiftr l k)). fold (nthZ (Z.to_nat (n / 16)) (to_le 16 8 v)). rewrite Z.shiftr_spec by lia.
  destruct (Z.ltb_spec (n mod 16 + k) 16); cbn [andb].
  - rewrite lane_bit by lia. f_equal. lia.
  - apply (testbit_high _ 16); [|lia|lia]. rewrite nth_to_le; [apply Z.mod_pos_bound; lia|lia|].
    assert (0 <= n / 16 < 8) by (split; [apply Z.div_pos; lia|apply Z.div_lt_upper_bound; lia]). lia.
Qed.
Lemma slli_bit v k n : 0 <= k < 16 -> 0 <= n < 128 -> Z.testbit (slli_epi16 v k) n = (k <=? n mod 16) && Z.testbit v (n - k).
Proof.
  intros Hk Hn. unfold slli_epi16. rewrite val16_bit; [|apply Forall_map, Forall_forall; intros; apply Z.mod_pos_bound; lia|lia].
  pose proof (Z.mod_pos_bound n 16 ltac:(lia)) as Bm. pose proof (Z.div_mod n 16 ltac:(lia)) as Dm.
  unfold nthZ.
  rewrite (nth_indep _ 0 (Z.shiftl 0 k mod 2 ^ 16)) by (rewrite map_length, to_le_length; assert (0 <= n / 16 < 8) by (split; [apply Z.div_pos; lia|apply Z.div_lt_upper_bound; lia]); lia).
  rewrite (map_nth (fun l => Z.shiftl l k mod 2 ^ 16)). fold (nthZ (Z.to_nat (n / 16)) (to_le 16 8 v)).
  rewrite Z.mod_pow2_bits_low by lia. rewrite Z.shiftl_spec by lia.
  destruct (Z.leb_spec k (n mod 16)); cbn [andb].
  - rewrite lane_bit by lia. f_equal. lia.
  - apply Z.testbit_neg_r. lia.
Qed.
Definition swpx (k m1 m2 x : Z) : Z := Z.lor (srli_epi16 (Z.land x m1) k) (slli_epi16 (Z.land x m2) k).
Definition swpx_ok (k m1 m2 : Z) : bool :=
  forallb (fun n => Bool.eqb ((n mod 16 + k <? 16) && Z.testbit m1 (n + k)) (Z.testbit m1 (n + k)) &&
                    Bool.eqb ((k <=? n mod 16) && Z.testbit m2 (n - k)) ((k <=? n) && Z.testbit (Z.shiftr m1 k) (n - k))) idx128.
Lemma swpx_swp k m1 m2 x n : 0 <= k < 16 -> swpx_ok k m1 m2 = true -> 0 <= n < 128 -> Z.testbit (swpx k m1 m2 x) n = Z.testbit (swp k m1 x) n.
Proof.
  intros Hk W Hn. pose proof (all128 _ W n Hn) as B. cbv beta in B. apply andb_prop in B. destruct B as [B1 B2].
  apply Bool.eqb_prop in B1, B2. unfold swpx, swp, shl128. rewrite !Z.lor_spec. rewrite srli_bit, slli_bit by lia.
  rewrite Z.shiftr_spec by lia. rewrite Z.mod_pow2_bits_low by lia. rewrite Z.shiftl_spec by lia. rewrite !Z.land_spec. f_equal.
  - destruct (n mod 16 + k <? 16); [reflexivity|]. cbn [andb] in *. rewrite <- B1. now rewrite andb_false_r.
  - destruct (k <=? n mod 16); cbn [andb] in *.
    + rewrite B2. destruct (Z.leb_spec k n); [reflexivity|]. cbn [andb]. rewrite andb_false_r. now rewrite (Z.testbit_neg_r x) by lia.
    + destruct (Z.leb_spec k n); cbn [andb] in B2; [now rewrite <- B2, andb_false_r|]. now rewrite (Z.testbit_neg_r x) by lia.
Qed.
Lemma val16_bound l : Forall (fun d => 0 <= d < 2 ^ 16) l -> length l = 8%nat -> 0 <= val_le 16 l < 2 ^ 128.
Proof. intros F L. pose proof (val_le_bound 16 l ltac:(lia) F) as B. rewrite L in B. exact B. Qed.
Lemma swpx_bound k m1 m2 x : 0 <= k -> 0 <= swpx k m1 m2 x < 2 ^ 128.
Proof.
  intros Hk. unfold swpx. apply lor_range; [lia| |].
  - apply val16_bound; [now apply lanes_ok|]. now rewrite map_length, to_le_length.
  - apply val16_bound; [|now rewrite map_length, to_le_length]. apply Forall_map, Forall_forall. intros; apply Z.mod_pos_bound; lia.
Qed.
Lemma bits128 a b : 0 <= a < 2 ^ 128 -> 0 <= b < 2 ^ 128 -> (forall n, 0 <= n < 128 -> Z.testbit a n = Z.testbit b n) -> a = b.
Proof.
  intros Ha Hb E. apply Z.bits_inj'. intros n Hn. destruct (Z.lt_ge_cases n 128); [apply E; lia|].
  now rewrite !(testbit_high _ 128) by lia.
Qed.
Lemma swpx_eq k m1 m2 x : 0 <= k < 16 -> 0 <= m1 < 2 ^ 128 -> swpx_ok k m1 m2 = true -> swpx k m1 m2 x = swp k m1 x.
Proof. intros Hk Hm W. apply bits128; [apply swpx_bound; lia|apply swp_bound; lia|]. intros n Hn. now apply swpx_swp. Qed.
Lemma mirror_x86_arm x : bytes_mirror_x86 x = bytes_mirror_arm x.
Proof.
  rewrite mirror_arm_swp.
  assert (E : bytes_mirror_x86 x = swpx 4 (set1_epi8 0xf0) (set1_epi8 0x0f) (swpx 2 (set1_epi8 0xcc) (set1_epi8 0x33) (swpx 1 (set1_epi8 0xaa) (set1_epi8 0x55) x)))
    by (unfold bytes_mirror_x86, swpx; cbv zeta; reflexivity).
  rewrite E. rewrite !swpx_eq by (first [lia|vm_compute; split; congruence|vm_compute; reflexivity]).
  assert (E1 : set1_epi8 0xf0 = mask_of 0xf0f0) by (vm_compute; reflexivity).
  assert (E2 : set1_epi8 0xcc = mask_of 0xcccc) by (vm_compute; reflexivity).
  assert (E3 : set1_epi8 0xaa = mask_of 0xaaaa) by (vm_compute; reflexivity).
  rewrite E1, E2, E3. reflexivity.
Qed.
(** mirroring is the change between octet order and GCM bit order *)
Lemma sig_range n : 0 <= n < 128 -> 0 <= sig n < 128.
Proof.
  intros Hn. unfold sig. pose proof (Z.mod_pos_bound n 8 ltac:(lia)). pose proof (Z.div_mod n 8 ltac:(lia)).
  assert (0 <= n / 8 < 16) by (split; [apply Z.div_pos; lia|apply Z.div_lt_upper_bound; lia]). lia.
Qed.
Lemma sig_sig n : 0 <= n < 128 -> sig (sig n) = n.
Proof. intros Hn. apply Z.eqb_eq. apply (all128 (fun n => sig (sig n) =? n)); [vm_compute; reflexivity|exact Hn]. Qed.
Lemma mirror_twice x : 0 <= x < 2 ^ 128 -> bytes_mirror_arm (bytes_mirror_arm x) = x.
Proof.
  intros Hx. apply bits128; [apply mirror_arm_bound|exact Hx|]. intros n Hn. rewrite mirror_arm_bit by exact Hn.
  rewrite mirror_arm_bit by now apply sig_range. now rewrite sig_sig.
Qed.
Lemma le_val_bit l : bytes_ok l -> forall n, 0 <= n -> Z.testbit (le_val l) n = Z.testbit (nthZ (Z.to_nat (n / 8)) l) (n mod 8).
Proof.
  unfold le_val. induction l as [|d l IH]; intros F n Hn.
  - cbn [val_le]. unfold nthZ. destruct (Z.to_nat (n / 8)); now rewrite !Z.bits_0.
  - inversion F as [|? ? Fd Fl]; subst. unfold byte_ok in Fd. cbn [val_le]. rewrite (Z.mul_comm (2 ^ 8)). rewrite <- lxor_low_high by lia. rewrite Z.lxor_spec.
    destruct (Z.lt_ge_cases n 8) as [G|G].
    + rewrite Z.mul_pow2_bits_low by lia. rewrite xorb_false_r. rewrite (Z.div_small n 8), (Z.mod_small n 8) by lia. reflexivity.
    + rewrite (testbit_high d 8) by lia. rewrite xorb_false_l. rewrite Z.mul_pow2_bits by lia. rewrite IH by (auto; lia).
      replace (Z.to_nat (n / 8)) with (S (Z.to_nat ((n - 8) / 8))).
      * unfold nthZ. cbn [nth]. f_equal. rewrite <- (Z.mod_add (n - 8) 1 8) by lia. f_equal. lia.
      * rewrite <- Z2Nat.inj_succ by (apply Z.div_pos; lia). f_equal. replace n with (n - 8 + 1 * 8) at 2 by lia. rewrite Z.div_add by lia. lia.
Qed.
Lemma mirror_gf b : bytes_ok b -> length b = 16%nat -> bytes_mirror_arm (le_val b) = gf_of b.
Proof.
  intros B L. apply bits128; [apply mirror_arm_bound|apply (bitrev_bound 128)|]. intros n Hn. rewrite mirror_arm_bit by exact Hn.
  unfold gf_of. rewrite bitrev_spec. change (Z.of_nat 128) with 128.
  replace (0 <=? n) with true by (symmetry; apply Z.leb_le; lia). replace (n <? 128) with true by (symmetry; apply Z.ltb_lt; lia). cbn [andb].
  change (be_val b) with (le_val (rev b)). pose proof (sig_range n Hn) as Hs.
  rewrite !le_val_bit by (try apply Forall_rev; auto; lia).
  assert (Dn : 0 <= n / 8 < 16) by (split; [apply Z.div_pos; lia|apply Z.div_lt_upper_bound; lia]).
  pose proof (Z.mod_pos_bound n 8 ltac:(lia)) as Bm. pose proof (Z.div_mod n 8 ltac:(lia)) as Dm.
  assert (E1 : sig n / 8 = n / 8) by (unfold sig; symmetry; apply (Z.div_unique _ 8 _ (7 - n mod 8)); lia).
  assert (E2 : sig n mod 8 = 7 - n mod 8) by (unfold sig; symmetry; apply (Z.mod_unique _ 8 (n / 8)); lia).
  assert (E3 : (128 - 1 - n) / 8 = 15 - n / 8) by (symmetry; apply (Z.div_unique _ 8 _ (7 - n mod 8)); lia).
  assert (E4 : (128 - 1 - n) mod 8 = 7 - n mod 8) by (symmetry; apply (Z.mod_unique _ 8 (15 - n / 8)); lia).
  rewrite E1, E2, E3, E4. f_equal. unfold nthZ. rewrite rev_nth by (rewrite L; lia). f_equal. rewrite L. lia.
Qed.
Lemma of_gf_mirror a : 0 <= a < 2 ^ 128 -> le_bytes 16 (bytes_mirror_arm a) = of_gf a.
Proof.
  intros Ha. unfold of_gf. set (c := be_bytes 16 (bitrev 128 a)).
  assert (Bc : bytes_ok c) by apply be_bytes_ok. assert (Lc : length c = 16%nat) by apply be_bytes_length.
  assert (G : gf_of c = a).
  { unfold gf_of, c. rewrite be_val_be_bytes. change (8 * Z.of_nat 16) with 128. rewrite Z.mod_small by apply (bitrev_bound 128). now apply bitrev_twice. }
  rewrite <- G at 1. rewrite <- mirror_gf by assumption. rewrite mirror_twice.
  - rewrite <- Lc at 1. now apply le_bytes_le_val.
  - pose proof (le_val_bound c Bc) as B. rewrite Lc in B. exact B.
Qed.
