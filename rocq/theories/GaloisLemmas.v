(** galois128_mul is polynomial multiplication modulo x^128+x^7+x^2+x+1. *)
From Verif Require Import Base HashSpec Blocks HashLemmas CmacLemmas CipherLemmas GcmSpec Gcm.

Lemma testbit_high v n i : 0 <= v < 2 ^ n -> n <= i -> 0 <= n -> Z.testbit v i = false.
Proof.
  intros Hv Hi Hn. rewrite <- (Z.mod_small v (2 ^ n)) by auto. apply Z.mod_pow2_bits_high. lia.
Qed.

Definition mulx (p : Z) : Z := Z.lxor (2 * p) (if Z.testbit p 127 then gcm_poly else 0).
Lemma lxor_double a b : 2 * Z.lxor a b = Z.lxor (2 * a) (2 * b).
Proof. rewrite !(Z.mul_comm 2). rewrite <- !(Z.shiftl_mul_pow2 _ 1) by lia. apply Z.shiftl_lxor. Qed.
Lemma lxor_swap a b c d : Z.lxor (Z.lxor a b) (Z.lxor c d) = Z.lxor (Z.lxor a c) (Z.lxor b d).
Proof. rewrite !Z.lxor_assoc. f_equal. rewrite <- !Z.lxor_assoc. f_equal. apply Z.lxor_comm. Qed.
Lemma if_lxor (a b : bool) m : (if xorb a b then m else 0) = Z.lxor (if a then m else 0) (if b then m else 0).
Proof. destruct a, b; cbn [xorb]; now rewrite ?Z.lxor_0_r, ?Z.lxor_0_l, ?Z.lxor_nilpotent. Qed.
Lemma mulx_lxor a b : mulx (Z.lxor a b) = Z.lxor (mulx a) (mulx b).
Proof. unfold mulx. rewrite Z.lxor_spec, if_lxor, lxor_double. apply lxor_swap. Qed.
Lemma mulx_0 : mulx 0 = 0. Proof. reflexivity. Qed.

Definition redstep (k : nat) (v : Z) : Z := Z.lxor v (if Z.testbit v (128 + Z.of_nat k) then gcm_poly * 2 ^ Z.of_nat k else 0).
Lemma poly_rem_S k v : poly_rem (S k) v = poly_rem k (redstep k v).
Proof. cbn [poly_rem]. unfold redstep. f_equal. destruct (Z.testbit v _); [reflexivity|now rewrite Z.lxor_0_r]. Qed.
Lemma redstep_lxor k a b : redstep k (Z.lxor a b) = Z.lxor (redstep k a) (redstep k b).
Proof. unfold redstep. rewrite Z.lxor_spec, if_lxor. apply lxor_swap. Qed.
Lemma poly_rem_lxor k : forall a b, poly_rem k (Z.lxor a b) = Z.lxor (poly_rem k a) (poly_rem k b).
Proof. induction k as [|k IH]; intros a b; [reflexivity|]. now rewrite !poly_rem_S, redstep_lxor, IH. Qed.
Lemma redstep_double k v : redstep (S k) (2 * v) = 2 * redstep k v.
Proof.
  unfold redstep. rewrite lxor_double. f_equal.
  replace (128 + Z.of_nat (S k)) with (Z.succ (128 + Z.of_nat k)) by lia. rewrite Z.double_bits_succ.
  destruct (Z.testbit v _); [|reflexivity]. rewrite Nat2Z.inj_succ, Z.pow_succ_r by lia. lia.
Qed.
Lemma redstep0_double v : redstep 0 (2 * v) = mulx v.
Proof.
  unfold redstep, mulx. f_equal. change (128 + Z.of_nat 0) with (Z.succ 127). rewrite Z.double_bits_succ.
  now destruct (Z.testbit v 127).
Qed.
Lemma poly_rem_double k : forall v, poly_rem (S k) (2 * v) = mulx (poly_rem k v).
Proof.
  induction k as [|k IH]; intros v.
  - rewrite poly_rem_S, redstep0_double. reflexivity.
  - rewrite poly_rem_S, redstep_double, IH. now rewrite poly_rem_S.
Qed.
Lemma poly_rem_small k v : 0 <= v < 2 ^ 128 -> poly_rem k v = v.
Proof.
  intros Hv. induction k as [|k IH]; [reflexivity|]. rewrite poly_rem_S. unfold redstep.
  replace (Z.testbit v (128 + Z.of_nat k)) with false; [now rewrite Z.lxor_0_r|].
  symmetry. apply (testbit_high _ 128); lia.
Qed.

Fixpoint acc (n : nat) (a b : Z) : Z :=
  match n with O => 0 | S n => Z.lxor (if Z.odd a then b else 0) (acc n (a / 2) (mulx b)) end.
Lemma acc_mulx n : forall a b, acc n a (mulx b) = mulx (acc n a b).
Proof.
  induction n as [|n IH]; intros a b; [reflexivity|]. cbn [acc]. rewrite mulx_lxor, IH. f_equal. now destruct (Z.odd a).
Qed.
Lemma poly_rem_clmul n : forall a b, 0 <= b < 2 ^ 128 -> poly_rem n (clmul n a b) = acc n a b.
Proof.
  induction n as [|n IH]; intros a b Hb; [reflexivity|]. cbn [clmul acc].
  rewrite poly_rem_lxor, poly_rem_double, IH, acc_mulx by auto. f_equal.
  apply poly_rem_small. destruct (Z.odd a); lia.
Qed.

(* ---- bit reversal ---- *)
Lemma bitrev_spec n : forall v i, Z.testbit (bitrev n v) i = (0 <=? i) && (i <? Z.of_nat n) && Z.testbit v (Z.of_nat n - 1 - i).
Proof.
  assert (B : forall n v, 0 <= bitrev n v < 2 ^ Z.of_nat n).
  { clear n. induction n as [|n IH]; intros v; cbn [bitrev]; [cbn; lia|]. specialize (IH (v / 2)).
    rewrite Nat2Z.inj_succ, Z.pow_succ_r by lia. destruct (Z.odd v); lia. }
  induction n as [|n IH]; intros v i.
  - cbn [bitrev]. rewrite Z.bits_0. destruct (Z.leb_spec 0 i), (Z.ltb_spec i (Z.of_nat 0)); cbn [andb]; auto. lia.
  - cbn [bitrev]. destruct (Z.leb_spec 0 i); cbn [andb]; [|now apply Z.testbit_neg_r].
    replace ((if Z.odd v then 2 ^ Z.of_nat n else 0) + bitrev n (v / 2)) with (bitrev n (v / 2) + (if Z.odd v then 1 else 0) * 2 ^ Z.of_nat n) by (destruct (Z.odd v); lia).
    destruct (Z.lt_ge_cases i (Z.of_nat n)).
    + rewrite Z.add_comm. rewrite <- (Z.mod_pow2_bits_low _ (Z.of_nat n)) by lia. rewrite Z.add_comm, Z.mod_add by (apply Z.pow_nonzero; lia).
      rewrite Z.mod_small by apply B. rewrite IH. rewrite (proj2 (Z.leb_le 0 i)), (proj2 (Z.ltb_lt i (Z.of_nat n))), (proj2 (Z.ltb_lt i (Z.of_nat (S n)))) by lia. cbn [andb].
      replace (Z.of_nat (S n) - 1 - i) with (Z.succ (Z.of_nat n - 1 - i)) by lia. rewrite <- Z.div2_div, Z.div2_spec, Z.shiftr_spec by lia. f_equal.
    + replace i with ((i - Z.of_nat n) + Z.of_nat n) at 1 by lia. rewrite <- Z.div_pow2_bits by lia.
      rewrite Z.div_add by (apply Z.pow_nonzero; lia). rewrite Z.div_small by apply B. rewrite Z.add_0_l.
      destruct (Z.ltb_spec i (Z.of_nat (S n))).
      * replace (i - Z.of_nat n) with 0 by lia. replace (Z.of_nat (S n) - 1 - i) with 0 by lia. rewrite !Z.bit0_odd. cbn [andb]. destruct (Z.odd v); reflexivity.
      * cbn [andb]. destruct (Z.odd v); [|apply Z.bits_0]. apply Z.bits_above_log2; [lia|]. change (Z.log2 1) with 0. lia.
Qed.
Lemma bitrev_bound n v : 0 <= bitrev n v < 2 ^ Z.of_nat n.
Proof.
  revert v. induction n as [|n IH]; intros v; cbn [bitrev]; [cbn; lia|]. specialize (IH (v / 2)).
  rewrite Nat2Z.inj_succ, Z.pow_succ_r by lia. destruct (Z.odd v); lia.
Qed.
Lemma bitrev_twice n v : 0 <= v < 2 ^ Z.of_nat n -> bitrev n (bitrev n v) = v.
Proof.
  intros Hv. apply Z.bits_inj'. intros i Hi. rewrite !bitrev_spec.
  destruct (Z.leb_spec 0 i), (Z.ltb_spec i (Z.of_nat n)), (Z.leb_spec 0 (Z.of_nat n - 1 - i)), (Z.ltb_spec (Z.of_nat n - 1 - i) (Z.of_nat n)); cbn [andb]; try lia.
  - f_equal. lia.
  - symmetry. apply (testbit_high _ (Z.of_nat n)); lia.
Qed.
Lemma bitrev_lxor n a b : bitrev n (Z.lxor a b) = Z.lxor (bitrev n a) (bitrev n b).
Proof.
  apply Z.bits_inj'. intros i Hi. rewrite Z.lxor_spec, !bitrev_spec, Z.lxor_spec.
  destruct (0 <=? i), (i <? Z.of_nat n); cbn [andb xorb]; auto.
Qed.

(* ---- the C code on (w0, w1) as a 128-bit number ---- *)
Definition cat (p : galois128_t) : Z := fst p * 2 ^ 64 + snd p.
Definition wd2 (p : galois128_t) : Prop := 0 <= fst p < 2 ^ 64 /\ 0 <= snd p < 2 ^ 64.
Lemma cat_testbit p i : wd2 p -> 0 <= i -> Z.testbit (cat p) i = if i <? 64 then Z.testbit (snd p) i else Z.testbit (fst p) (i - 64).
Proof.
  intros [A B] Hi. unfold cat. destruct (Z.ltb_spec i 64).
  - rewrite <- (Z.mod_pow2_bits_low _ 64) by lia. rewrite Z.add_comm, Z.mod_add by lia. now rewrite Z.mod_small.
  - replace i with ((i - 64) + 64) at 1 by lia. rewrite <- Z.div_pow2_bits by lia. rewrite Z.add_comm, Z.div_add by lia.
    rewrite Z.div_small by lia. now rewrite Z.add_0_l.
Qed.
Lemma cat_bound p : wd2 p -> 0 <= cat p < 2 ^ 128.
Proof. intros [A B]. unfold cat. change (2 ^ 128) with (2 ^ 64 * 2 ^ 64). nia. Qed.
Lemma mask_full b : Z.b2z b = 0 \/ Z.b2z b = 1.
Proof. destruct b; auto. Qed.
Lemma mask64 (b : bool) y : 0 <= y < 2 ^ 64 -> Z.land y (u64 (Z.lnot (u64 (Z.b2z b - 1)))) = if b then y else 0.
Proof.
  intros Hy. destruct b; cbn [Z.b2z].
  - change (u64 (Z.lnot (u64 (1 - 1)))) with (Z.ones 64). rewrite Z.land_ones by lia. now apply Z.mod_small.
  - change (u64 (Z.lnot (u64 (0 - 1)))) with 0. apply Z.land_0_r.
Qed.
Lemma land1 v : 0 <= v -> Z.land v 1 = Z.b2z (Z.odd v).
Proof. intros Hv. change 1 with (Z.ones 1). rewrite Z.land_ones by lia. change (2 ^ 1) with 2. rewrite Zmod_odd. now destruct (Z.odd v). Qed.

Lemma galois_x_spec Y : wd2 Y -> wd2 (galois128_x Y) /\ bitrev 128 (cat (galois128_x Y)) = mulx (bitrev 128 (cat Y)).
Proof.
  intros W. pose proof W as [A B]. unfold galois128_x. cbv zeta. rewrite land1 by lia.
  rewrite mask64 by lia.
  set (x := if Z.odd (snd Y) then 0xE100000000000000 else 0).
  assert (Hx : 0 <= x < 2 ^ 64) by (unfold x; destruct (Z.odd (snd Y)); lia).
  assert (W0 : 0 <= Z.lxor (Z.shiftr (fst Y) 1) x < 2 ^ 64).
  { apply lxor_bound; [lia| |auto]. rewrite Z.shiftr_div_pow2 by lia. change (2 ^ 1) with 2.
    pose proof (Z.div_le_upper_bound (fst Y) 2 (fst Y)). pose proof (Z.div_pos (fst Y) 2). lia. }
  set (w1 := Z.lor _ _).
  assert (T1 : forall i, 0 <= i -> Z.testbit w1 i = if i <? 63 then Z.testbit (snd Y) (i + 1) else if i =? 63 then Z.odd (fst Y) else false).
  { intros i Hi. unfold w1. rewrite Z.lor_spec, Z.shiftr_spec by lia. unfold u64.
    destruct (Z.lt_ge_cases i 64).
    - rewrite Z.mod_pow2_bits_low by lia. destruct (Z.ltb_spec i 63).
      + rewrite Z.shiftl_spec_low by lia. apply orb_false_r.
      + assert (i = 63) by lia. subst. rewrite Z.shiftl_spec by lia. cbn [Z.eqb Pos.eqb Z.sub Z.opp Z.pos_sub]. replace (63 - 63) with 0 by lia. rewrite Z.bit0_odd.
        replace (Z.testbit (snd Y) (63 + 1)) with false; [reflexivity|]. symmetry. apply (testbit_high _ 64); lia.
    - rewrite Z.mod_pow2_bits_high by lia. rewrite orb_false_r.
      destruct (Z.ltb_spec i 63), (Z.eqb_spec i 63); try lia. apply (testbit_high _ 64); lia. }
  assert (W1 : 0 <= w1 < 2 ^ 64).
  { split.
    - unfold w1. apply Z.lor_nonneg. split; [apply Z.shiftr_nonneg; lia|]. unfold u64. apply Z.mod_pos_bound. lia.
    - destruct (Z.lt_ge_cases w1 (2 ^ 64)); auto. exfalso.
      assert (w1 <> 0) by lia. assert (0 < w1) by lia. pose proof (Z.bit_log2 w1 ltac:(lia)) as X.
      assert (64 <= Z.log2 w1) by (apply Z.log2_le_pow2; lia). rewrite T1 in X by lia.
      destruct (Z.ltb_spec (Z.log2 w1) 63), (Z.eqb_spec (Z.log2 w1) 63); try lia; discriminate. }
  split; [split; cbn [fst snd]; auto|].
  apply Z.bits_inj'. intros i Hi. unfold mulx. rewrite Z.lxor_spec, !bitrev_spec.
  rewrite (proj2 (Z.leb_le 0 i)) by lia. cbn [andb]. change (Z.of_nat 128) with 128.
  change ((0 <=? 127) && (127 <? 128)) with true. cbn [andb]. change (128 - 1 - 127) with 0.
  assert (O : Z.testbit (cat Y) 0 = Z.odd (snd Y)) by (rewrite cat_testbit by (auto; lia); apply Z.bit0_odd). rewrite O.
  assert (P : Z.testbit (if Z.odd (snd Y) then gcm_poly else 0) i = Z.odd (snd Y) && ((i =? 128) || (i =? 0) || (i =? 1) || (i =? 2) || (i =? 7))).
  { destruct (Z.odd (snd Y)); cbn [andb]; [|apply Z.bits_0]. destruct (Z.lt_ge_cases i 129).
    - assert (E : forallb (fun i => Bool.eqb (Z.testbit gcm_poly i) ((i =? 128) || (i =? 0) || (i =? 1) || (i =? 2) || (i =? 7))) (map Z.of_nat (seq 0 129)) = true) by reflexivity.
      rewrite forallb_forall in E. apply eqb_prop. apply E. apply in_map_iff. exists (Z.to_nat i). split; [lia|]. apply in_seq. lia.
    - replace (i =? 128) with false by lia. replace (i =? 0) with false by lia. replace (i =? 1) with false by lia. replace (i =? 2) with false by lia. replace (i =? 7) with false by lia. cbn [orb].
      apply Z.bits_above_log2; [discriminate|]. change (Z.log2 gcm_poly) with 128. lia. }
  rewrite P.
  assert (D : Z.testbit (2 * bitrev 128 (cat Y)) i = (0 <? i) && (i <? 129) && Z.testbit (cat Y) (128 - i)).
  { destruct (Z.eq_dec i 0) as [->|N]; [rewrite Z.testbit_even_0; reflexivity|].
    replace i with (Z.succ (i - 1)) at 1 by lia. rewrite Z.double_bits_succ, bitrev_spec. change (Z.of_nat 128) with 128.
    replace (0 <=? i - 1) with true by lia. replace (0 <? i) with true by lia. replace (i - 1 <? 128) with (i <? 129) by lia.
    replace (128 - 1 - (i - 1)) with (128 - i) by lia. reflexivity. }
  rewrite D. destruct (Z.ltb_spec i 128) as [I|I]; cbn [andb].
  - rewrite cat_testbit by (try split; auto; lia). cbn [fst snd]. replace (i =? 128) with false by lia. cbn [orb].
    replace (i <? 129) with true by lia. rewrite andb_true_r.
    destruct (Z.ltb_spec (128 - 1 - i) 64) as [J|J].
    + rewrite T1 by lia. replace (i =? 0) with false by lia. replace (i =? 1) with false by lia. replace (i =? 2) with false by lia. replace (i =? 7) with false by lia.
      cbn [orb]. rewrite andb_false_r, xorb_false_r. replace (0 <? i) with true by lia. cbn [andb].
      rewrite cat_testbit by (auto; lia). destruct (Z.ltb_spec (128 - 1 - i) 63).
      * replace (128 - i <? 64) with true by lia. f_equal. lia.
      * replace (128 - 1 - i =? 63) with true by lia. replace (128 - i <? 64) with false by lia. replace (128 - i - 64) with 0 by lia. now rewrite Z.bit0_odd.
    + rewrite Z.lxor_spec, Z.shiftr_spec by lia. f_equal.
      * destruct (Z.ltb_spec 0 i); cbn [andb].
        -- rewrite cat_testbit by (auto; lia). replace (128 - i <? 64) with false by lia. f_equal. lia.
        -- replace (128 - 1 - i - 64 + 1) with 64 by lia. apply (testbit_high _ 64); lia.
      * unfold x. destruct (Z.odd (snd Y)); cbn [andb]; [|apply Z.bits_0].
        assert (E : forallb (fun i => Bool.eqb (Z.testbit 0xE100000000000000 (128 - 1 - i - 64)) ((i =? 0) || (i =? 1) || (i =? 2) || (i =? 7))) (map Z.of_nat (seq 0 64)) = true) by reflexivity.
        rewrite forallb_forall in E. apply eqb_prop. apply E. apply in_map_iff. exists (Z.to_nat i). split; [lia|]. apply in_seq. lia.
  - destruct (Z.eq_dec i 128) as [->|N].
    + cbn [Z.eqb Pos.eqb orb]. rewrite andb_true_r. change ((0 <? 128) && (128 <? 129)) with true. cbn [andb]. change (128 - 128) with 0. rewrite O. now destruct (Z.odd (snd Y)).
    + replace (i <? 129) with false by lia. rewrite andb_false_r. cbn [andb]. replace (i =? 128) with false by lia. replace (i =? 0) with false by lia. replace (i =? 1) with false by lia. replace (i =? 2) with false by lia. replace (i =? 7) with false by lia. cbn [orb]. now rewrite andb_false_r.
Qed.

Lemma lxor_wd2 a b : wd2 a -> wd2 b -> wd2 (Z.lxor (fst a) (fst b), Z.lxor (snd a) (snd b)).
Proof. intros [A1 A2] [B1 B2]. split; cbn [fst snd]; apply lxor_bound; auto; lia. Qed.
Lemma cat_lxor a b : wd2 a -> wd2 b -> cat (Z.lxor (fst a) (fst b), Z.lxor (snd a) (snd b)) = Z.lxor (cat a) (cat b).
Proof.
  intros A B. apply Z.bits_inj'. intros i Hi. rewrite Z.lxor_spec, !cat_testbit by (auto using lxor_wd2).
  cbn [fst snd]. destruct (i <? 64); apply Z.lxor_spec.
Qed.

Lemma mul_loop X : wd2 X -> forall n i Zc Y, (i + n <= 128)%nat -> wd2 Zc -> wd2 Y ->
  let r := fst (fold_left (galois128_step X) (seq i n) (Zc, Y)) in
  wd2 r /\ bitrev 128 (cat r) = Z.lxor (bitrev 128 (cat Zc)) (acc n (bitrev 128 (cat X) / 2 ^ Z.of_nat i) (bitrev 128 (cat Y))).
Proof.
  intros WX. induction n as [|n IH]; intros i Zc Y Hi WZ WY; cbn [seq fold_left acc].
  - cbn [fst]. rewrite Z.lxor_0_r. auto.
  - set (b := Z.testbit (bitrev 128 (cat X)) (Z.of_nat i)).
    assert (ES : galois128_step X (Zc, Y) i = ((Z.lxor (fst Zc) (if b then fst Y else 0), Z.lxor (snd Zc) (if b then snd Y else 0)), galois128_x Y)).
    { unfold galois128_step. cbv zeta. pose proof WX as [X0 X1]. destruct WY as [Y0 Y1].
      set (w := if (i / 64 =? 0)%nat then fst X else snd X).
      assert (Hw : 0 <= w < 2 ^ 64) by (unfold w; destruct (i / 64 =? 0)%nat; auto).
      assert (M : Z.land (Z.shiftr w (63 - Z.land (Z.of_nat i) 63)) 1 = Z.b2z b).
      { change 63 with (Z.ones 6) at 2. rewrite Z.land_ones by lia. change (2 ^ 6) with 64.
        pose proof (Z.mod_pos_bound (Z.of_nat i) 64 ltac:(lia)). rewrite land1 by (apply Z.shiftr_nonneg; lia). f_equal.
        rewrite <- Z.bit0_odd, Z.shiftr_spec by lia. rewrite Z.add_0_l. unfold b. rewrite bitrev_spec. change (Z.of_nat 128) with 128.
        replace (0 <=? Z.of_nat i) with true by lia. replace (Z.of_nat i <? 128) with true by lia. cbn [andb].
        rewrite cat_testbit by (auto; lia). unfold w. destruct (Nat.eqb_spec (i / 64) 0) as [E|E].
        - apply Nat.div_small_iff in E; [|lia]. replace (128 - 1 - Z.of_nat i <? 64) with false by lia. f_equal. rewrite Z.mod_small by lia. lia.
        - assert (64 <= i)%nat. { destruct (Nat.le_gt_cases 64 i); auto. exfalso. apply E. apply Nat.div_small. lia. }
          replace (128 - 1 - Z.of_nat i <? 64) with true by lia. f_equal. replace (Z.of_nat i) with (Z.of_nat i - 64 + 1 * 64) at 1 by lia. rewrite Z.mod_add, Z.mod_small by lia. lia. }
      rewrite M, !mask64 by auto. reflexivity. }
    cbv zeta. rewrite ES. destruct (galois_x_spec Y WY) as [WY' EY'].
    assert (WB : wd2 (if b then fst Y else 0, if b then snd Y else 0)) by (destruct WY; destruct b; split; cbn [fst snd]; lia).
    destruct (IH (S i) (Z.lxor (fst Zc) (if b then fst Y else 0), Z.lxor (snd Zc) (if b then snd Y else 0)) (galois128_x Y)) as [R1 R2]; auto; [lia|exact (lxor_wd2 _ _ WZ WB)|].
    cbv zeta in R2. split; [exact R1|]. etransitivity; [exact R2|]. pose proof (cat_lxor Zc _ WZ WB) as CL. cbn [fst snd] in CL. rewrite CL, bitrev_lxor, EY', Z.lxor_assoc. f_equal. f_equal.
    + unfold b. rewrite <- Z.bit0_odd, Z.div_pow2_bits, Z.add_0_l by lia. fold b.
      destruct b; [destruct Y; reflexivity|]. reflexivity.
    + f_equal. rewrite Nat2Z.inj_succ, Z.pow_succ_r by lia. rewrite Z.mul_comm. symmetry. apply Z.div_div; [apply Z.pow_nonzero; lia|lia].
Qed.

Lemma galois_mul_spec X Y : wd2 X -> wd2 Y -> wd2 (galois128_mul X Y) /\
  bitrev 128 (cat (galois128_mul X Y)) = poly_rem 128 (clmul 128 (bitrev 128 (cat X)) (bitrev 128 (cat Y))).
Proof.
  intros WX WY. unfold galois128_mul. destruct (mul_loop X WX 128 0 (0, 0) Y) as [A B]; auto; [split; cbn; lia|].
  split; [exact A|]. cbv zeta in B. etransitivity; [exact B|]. change (bitrev 128 (cat (0, 0))) with 0. rewrite Z.lxor_0_l.
  change (2 ^ Z.of_nat 0) with 1. rewrite Z.div_1_r, poly_rem_clmul; [reflexivity|]. change (2 ^ 128) with (2 ^ Z.of_nat 128). apply bitrev_bound.
Qed.

Lemma load_spec b : bytes_ok b -> length b = 16%nat -> wd2 (galois128_load b) /\ cat (galois128_load b) = be_val b.
Proof.
  intros B L. unfold galois128_load, cat. cbn [fst snd]. rewrite (@firstn_all2 Z 8 (skipn 8 b)) by (rewrite skipn_length; lia).
  split.
  - split; cbn [fst snd].
    + pose proof (be_val_bound (firstn 8 b) (Forall_firstn _ _ _ B)) as X. rewrite firstn_length, L in X. exact X.
    + pose proof (be_val_bound (skipn 8 b) (Forall_skipn _ _ _ B)) as X. rewrite skipn_length, L in X. exact X.
  - rewrite <- (firstn_skipn 8 b) at 3. rewrite be_val_app, skipn_length, L. reflexivity.
Qed.
Lemma store_spec v : wd2 v -> galois128_store v = be_bytes 16 (cat v).
Proof.
  intros [A B]. unfold galois128_store. rewrite <- (be_bytes_be_val (be_bytes 8 (fst v) ++ be_bytes 8 (snd v))).
  - rewrite app_length, !be_bytes_length. f_equal. rewrite be_val_app, !be_val_be_bytes, be_bytes_length. change (2 ^ (8 * Z.of_nat 8)) with (2 ^ 64). now rewrite !Z.mod_small by lia.
  - apply Forall_app. split; apply be_bytes_ok.
Qed.
Lemma be_val_xorb a b : bytes_ok a -> bytes_ok b -> length a = length b -> be_val (xorb_list a b) = Z.lxor (be_val a) (be_val b).
Proof.
  intros A. revert b. induction A as [|x a Hx A IH]; intros b B L; destruct b as [|y b]; try discriminate; [reflexivity|].
  inversion B; subst. cbn [xorb_list length] in *. change (?p :: ?q) with ([p] ++ q). rewrite !be_val_app.
  rewrite IH by (auto; lia). rewrite xorb_list_length, Nat.min_l by lia. replace (length b) with (length a) by lia.
  set (k := 8 * Z.of_nat (length a)).
  pose proof (be_val_bound a A) as Ba. pose proof (be_val_bound b H2) as Bb. replace (length b) with (length a) in Bb by lia. fold k in Ba, Bb.
  assert (E1 : forall z, be_val [z] = z) by (intros; unfold be_val; cbn [rev app val_le]; lia). rewrite !E1.
  assert (LB : 0 <= Z.lxor (be_val a) (be_val b) < 2 ^ k) by (apply lxor_bound; lia).
  apply Z.bits_inj'. intros i Hi. rewrite Z.lxor_spec.
  assert (T : forall u v, 0 <= v < 2 ^ k -> Z.testbit (u * 2 ^ k + v) i = if i <? k then Z.testbit v i else Z.testbit u (i - k)).
  { intros u v Hv. destruct (Z.ltb_spec i k).
    - rewrite <- (Z.mod_pow2_bits_low _ k) by lia. rewrite Z.add_comm, Z.mod_add by (apply Z.pow_nonzero; lia). now rewrite Z.mod_small.
    - replace i with ((i - k) + k) at 1 by lia. rewrite <- Z.div_pow2_bits by lia. rewrite Z.add_comm, Z.div_add by (apply Z.pow_nonzero; lia).
      rewrite Z.div_small by lia. now rewrite Z.add_0_l. }
  rewrite !T by auto. destruct (i <? k); apply Z.lxor_spec.
Qed.

Lemma hash1block_spec Y H X : bytes_ok Y -> bytes_ok H -> bytes_ok X -> length Y = 16%nat -> length H = 16%nat -> length X = 16%nat ->
  galois128_hash1block Y H X = gf_mul (xorb_list Y X) H.
Proof.
  intros BY BH BX LY LH LX. unfold galois128_hash1block. cbv zeta.
  destruct (load_spec Y BY LY) as [W1 E1]. destruct (load_spec H BH LH) as [W2 E2]. destruct (load_spec X BX LX) as [W3 E3].
  destruct (galois_mul_spec _ _ (lxor_wd2 _ _ W1 W3) W2) as [W4 E4].
  rewrite store_spec by auto. unfold gf_mul, of_gf, gf_of. f_equal. rewrite be_val_xorb by (auto; lia).
  rewrite <- E1, <- E2, <- E3, <- cat_lxor by auto. rewrite <- E4. symmetry. apply bitrev_twice. apply cat_bound. exact W4.
Qed.
