(** gen_oddint_bits: odd, exactly [bits] bits long, top five bits set; so a
    product of at most 21 such numbers never loses a bit. *)
From Verif Require Import Base Vlong VlongLemmas VlongDivLemmas VlongMulLemmas DerLemmas Rsa RsaSpec Fermat.

Lemma lor_lt a b n : 0 <= n -> 0 <= a < 2 ^ n -> 0 <= b < 2 ^ n -> 0 <= Z.lor a b < 2 ^ n.
Proof.
  intros Hn Ha Hb. replace (Z.lor a b) with (Z.lor a b mod 2 ^ n); [apply Z.mod_pos_bound; lia|].
  apply Z.bits_inj'. intros k Hk. destruct (Z.ltb_spec k n).
  - apply Z.mod_pow2_bits_low; lia.
  - rewrite Z.mod_pow2_bits_high, Z.lor_spec by lia.
    rewrite <- (Z.mod_small a (2 ^ n)), <- (Z.mod_small b (2 ^ n)), !Z.mod_pow2_bits_high by lia. reflexivity.
Qed.

Lemma lor_ge a b : 0 <= a -> 0 <= b -> b <= Z.lor a b.
Proof.
  intros Ha Hb. apply Z.ldiff_le; [apply Z.lor_nonneg; auto|]. apply Z.bits_inj'. intros k Hk.
  rewrite Z.ldiff_spec, Z.lor_spec, Z.bits_0. destruct (Z.testbit b k); destruct (Z.testbit a k); reflexivity.
Qed.

Lemma vval_upd_lor w k x : words_ok w -> (k < length w)%nat -> 0 <= x < 2 ^ 32 ->
  words_ok (upd k (Z.lor (nthZ k w) x) w) /\ length (upd k (Z.lor (nthZ k w) x) w) = length w /\
  vval (upd k (Z.lor (nthZ k w) x) w) = Z.lor (vval w) (x * 2 ^ (32 * Z.of_nat k)).
Proof.
  intros W L Hx.
  assert (Wo : word_ok (Z.lor (nthZ k w) x)) by (apply lor_lt; auto; [lia|apply nthZ_range; auto]).
  assert (W' : words_ok (upd k (Z.lor (nthZ k w) x) w)) by (apply upd_words; auto).
  split; [auto|]. split; [apply upd_length|].
  apply Z.bits_inj'. intros i Hi. rewrite Z.lor_spec. rewrite <- Z.shiftl_mul_pow2, Z.shiftl_spec by lia.
  pose proof (Z.div_mod i 32 ltac:(lia)) as DM. pose proof (Z.mod_pos_bound i 32 ltac:(lia)) as MB.
  assert (0 <= i / 32) by (apply Z.div_pos; lia).
  set (a := Z.to_nat (i / 32)).
  replace i with (32 * Z.of_nat a + i mod 32) by lia.
  set (j := i mod 32) in *.
  assert (T : forall b, words_ok b -> Z.testbit (vval b) (32 * Z.of_nat a + j) = Z.testbit (nthZ a b) j).
  { intros b Hb. rewrite nth_testbit by (auto; lia). rewrite (proj2 (Z.ltb_lt j 32)) by lia. reflexivity. }
  rewrite !T by auto. destruct (Nat.eq_dec a k) as [->|N].
  - rewrite nthZ_upd_eq by auto. rewrite Z.lor_spec. f_equal. f_equal. lia.
  - rewrite nthZ_upd_neq by auto. rewrite <- (Bool.orb_false_r (Z.testbit (nthZ a w) j)) at 1. f_equal. symmetry.
    destruct (Nat.ltb_spec a k).
    + apply Z.testbit_neg_r. lia.
    + rewrite <- (Z.mod_small x (2 ^ 32)) by lia. apply Z.mod_pow2_bits_high. lia.
Qed.

Lemma gen_mask w bits : words_ok w -> (bits / 32 < length w)%nat ->
  let w1 := map (fun t => if (t <? bits / 32)%nat then nthZ t w
      else Z.land (nthZ t w) (2 ^ Z.of_nat (if (bits <=? t * 32)%nat then O else (bits - t * 32)%nat) - 1)) (seq 0 (length w)) in
  words_ok w1 /\ length w1 = length w /\ vval w1 = vval w mod 2 ^ Z.of_nat bits.
Proof.
  intros W L. cbv zeta.
  assert (E : forall t, (if (t <? bits / 32)%nat then nthZ t w
      else Z.land (nthZ t w) (2 ^ Z.of_nat (if (bits <=? t * 32)%nat then O else (bits - t * 32)%nat) - 1))
      = (vval w mod 2 ^ Z.of_nat bits / 2 ^ (32 * Z.of_nat t)) mod 2 ^ 32).
  { intros t. pose proof (Nat.div_mod bits 32 ltac:(lia)) as DM. pose proof (Nat.mod_upper_bound bits 32 ltac:(lia)) as MB.
    rewrite nthZ_vval by auto. destruct (Nat.ltb_spec t (bits / 32)).
    - replace (Z.of_nat bits) with (32 * Z.of_nat t + 32 + (Z.of_nat bits - 32 * Z.of_nat t - 32)) by lia.
      apply Z.bits_inj'. intros i Hi. destruct (Z.ltb_spec i 32).
      + rewrite !Z.mod_pow2_bits_low by lia. rewrite <- !Z.shiftr_div_pow2, !Z.shiftr_spec by lia.
        rewrite Z.mod_pow2_bits_low by lia. reflexivity.
      + rewrite !Z.mod_pow2_bits_high by lia. reflexivity.
    - assert (ON : forall m, 2 ^ Z.of_nat m - 1 = Z.ones (Z.of_nat m)) by (intros; rewrite Z.ones_equiv; lia).
      rewrite ON, Z.land_ones by lia. apply Z.bits_inj'. intros i Hi.
      set (m := if (bits <=? t * 32)%nat then O else (bits - t * 32)%nat).
      assert (Hm : (m < 32)%nat /\ (Z.of_nat m = 0 /\ Z.of_nat bits <= 32 * Z.of_nat t \/ Z.of_nat bits = 32 * Z.of_nat t + Z.of_nat m)).
      { unfold m. destruct (Nat.leb_spec bits (t * 32)); lia. }
      clearbody m. destruct (Z.ltb_spec i (Z.of_nat m)).
      + rewrite !Z.mod_pow2_bits_low by lia. rewrite <- !Z.shiftr_div_pow2, !Z.shiftr_spec by lia.
        rewrite Z.mod_pow2_bits_low by lia. reflexivity.
      + rewrite Z.mod_pow2_bits_high by lia. symmetry. destruct (Z.ltb_spec i 32).
        * rewrite Z.mod_pow2_bits_low by lia. rewrite <- Z.shiftr_div_pow2, Z.shiftr_spec by lia.
          apply Z.mod_pow2_bits_high. lia.
        * apply Z.mod_pow2_bits_high. lia. }
  split; [apply map_words; intros t; rewrite E; apply Z.mod_pos_bound; lia|].
  split; [rewrite map_length, seq_length; auto|].
  rewrite (vval_map_seq (length w) (vval w mod 2 ^ Z.of_nat bits)) by exact E.
  assert (PB : 0 < 2 ^ Z.of_nat bits) by (apply Z.pow_pos_nonneg; lia).
  apply Z.mod_small. pose proof (vval_bound w W). pose proof (Z.mod_pos_bound (vval w) (2 ^ Z.of_nat bits) ltac:(lia)).
  pose proof (Z.mod_le (vval w) (2 ^ Z.of_nat bits) ltac:(lia) ltac:(lia)). lia.
Qed.

Lemma gen_oddint_spec w bits : words_ok w -> (bits / 32 < length w)%nat -> (64 <= bits)%nat ->
  words_ok (gen_oddint_bits w bits) /\ length (gen_oddint_bits w bits) = length w /\
  Z.odd (vval (gen_oddint_bits w bits)) = true /\
  31 * 2 ^ (Z.of_nat bits - 5) <= vval (gen_oddint_bits w bits) < 2 ^ Z.of_nat bits.
Proof.
  intros W L Hb. unfold gen_oddint_bits.
  pose proof (Nat.div_mod bits 32 ltac:(lia)) as DM. pose proof (Nat.mod_upper_bound bits 32 ltac:(lia)) as MB.
  destruct (gen_mask w bits W L) as (W1 & L1 & V1). cbv zeta in *.
  set (w1 := map _ _) in *. clearbody w1.
  destruct (vval_upd_lor w1 0 1 W1 ltac:(lia) ltac:(lia)) as (W2 & L2 & V2).
  set (w2 := upd 0 _ w1) in *. clearbody w2.
  set (b := (bits - 1)%nat) in *.
  pose proof (Nat.div_mod b 32 ltac:(lia)) as DMb. pose proof (Nat.mod_upper_bound b 32 ltac:(lia)) as MBb.
  set (k := (b / 32)%nat) in *. set (r := (b mod 32)%nat) in *. clearbody k r.
  set (x := Z.shiftl 0x1f0000000 (Z.of_nat r)).
  assert (Ex : x = 31 * 2 ^ (28 + Z.of_nat r)).
  { unfold x. rewrite Z.shiftl_mul_pow2, Z.pow_add_r by lia. change (2 ^ 28) with 268435456. lia. }
  assert (Bx : 0 <= x < 2 ^ 64).
  { rewrite Ex. assert (2 ^ (28 + Z.of_nat r) <= 2 ^ 59) by (apply Z.pow_le_mono_r; lia).
    assert (0 < 2 ^ (28 + Z.of_nat r)) by (apply Z.pow_pos_nonneg; lia). lia. }
  clearbody x. rewrite Z.shiftr_div_pow2 by lia.
  assert (Bh : 0 <= x / 2 ^ 32 < 2 ^ 32).
  { split; [apply Z.div_pos; lia|]. apply Z.div_lt_upper_bound; [lia|]. change (2 ^ 32 * 2 ^ 32) with (2 ^ 64). lia. }
  assert (Bl : 0 <= u32 x < 2 ^ 32) by (apply Z.mod_pos_bound; lia).
  destruct (vval_upd_lor w2 k (x / 2 ^ 32) W2 ltac:(lia) Bh) as (W3 & L3 & V3).
  set (w3 := upd k _ w2) in *. clearbody w3.
  destruct (vval_upd_lor w3 (k - 1) (u32 x) W3 ltac:(lia) Bl) as (W4 & L4 & V4).
  set (w4 := upd (k - 1) _ w3) in *. clearbody w4.
  split; [auto|]. split; [lia|].
  set (T := x * 2 ^ (32 * Z.of_nat (k - 1))).
  assert (ET : T = 31 * 2 ^ (Z.of_nat bits - 5)).
  { unfold T. rewrite Ex, <- Z.mul_assoc, <- Z.pow_add_r by lia. f_equal. f_equal. lia. }
  assert (EL : Z.lor (x / 2 ^ 32 * 2 ^ (32 * Z.of_nat k)) (u32 x * 2 ^ (32 * Z.of_nat (k - 1))) = T).
  { unfold T. replace (32 * Z.of_nat k) with (32 + 32 * Z.of_nat (k - 1)) by lia.
    rewrite Z.pow_add_r, Z.mul_assoc by lia. rewrite <- !Z.shiftl_mul_pow2 by lia. rewrite <- Z.shiftl_lor. f_equal.
    unfold u32. apply Z.bits_inj'. intros i Hi. rewrite Z.lor_spec, Z.shiftl_spec by lia.
    destruct (Z.ltb_spec i 32).
    - rewrite Z.mod_pow2_bits_low, Z.testbit_neg_r by lia. reflexivity.
    - rewrite Z.mod_pow2_bits_high by lia. rewrite <- Z.shiftr_div_pow2, Z.shiftr_spec by lia.
      rewrite Bool.orb_false_r. f_equal. lia. }
  rewrite V4, V3, <- Z.lor_assoc, EL, V2, V1. rewrite Z.mul_1_l. change (2 ^ (32 * Z.of_nat 0)) with 1.
  assert (PB : 0 < 2 ^ Z.of_nat bits) by (apply Z.pow_pos_nonneg; lia).
  assert (P5 : 2 ^ Z.of_nat bits = 32 * 2 ^ (Z.of_nat bits - 5)).
  { change 32 with (2 ^ 5) at 1. rewrite <- Z.pow_add_r by lia. f_equal. lia. }
  assert (P1 : 2 ^ 1 <= 2 ^ Z.of_nat bits) by (apply Z.pow_le_mono_r; lia).
  pose proof (Z.mod_pos_bound (vval w) (2 ^ Z.of_nat bits) PB) as MP.
  assert (BT : 0 <= T < 2 ^ Z.of_nat bits) by lia.
  assert (B1 : 0 <= Z.lor (vval w mod 2 ^ Z.of_nat bits) 1 < 2 ^ Z.of_nat bits) by (apply lor_lt; lia).
  split; [|split].
  - rewrite <- Z.bit0_odd, !Z.lor_spec. rewrite (Z.bit0_odd 1). cbn. rewrite Bool.orb_true_r. reflexivity.
  - rewrite <- ET. apply lor_ge; lia.
  - apply lor_lt; lia.
Qed.

(** at most 21 factors of this shape keep the full length *)
Lemma no_shrink bpp l : (64 <= bpp)%nat -> Forall (fun r => 31 * 2 ^ (Z.of_nat bpp - 5) <= r) l -> (length l <= 21)%nat ->
  2 ^ (Z.of_nat bpp * Z.of_nat (length l)) <= 2 * prodZ l.
Proof.
  intros Hb H L.
  assert (G : 31 ^ Z.of_nat (length l) * 2 ^ (Z.of_nat bpp * Z.of_nat (length l)) <= 32 ^ Z.of_nat (length l) * prodZ l).
  { clear L. induction H as [|r l Hr _ IH].
    - cbn [length prodZ fold_right]. rewrite Z.mul_0_r. reflexivity.
    - cbn [length prodZ fold_right]. fold (prodZ l). rewrite Nat2Z.inj_succ.
      rewrite !Z.pow_succ_r by lia. rewrite Z.mul_succ_r, Z.pow_add_r by lia.
      replace (2 ^ Z.of_nat bpp) with (32 * 2 ^ (Z.of_nat bpp - 5)).
      2:{ change 32 with (2 ^ 5). rewrite <- Z.pow_add_r by lia. f_equal. lia. }
      set (A := 31 ^ Z.of_nat (length l) * 2 ^ (Z.of_nat bpp * Z.of_nat (length l))) in *.
      assert (0 <= A). { unfold A. apply Z.mul_nonneg_nonneg; apply Z.pow_nonneg; lia. }
      assert (0 < 2 ^ (Z.of_nat bpp - 5)) by (apply Z.pow_pos_nonneg; lia).
      replace (31 * 31 ^ Z.of_nat (length l) * (2 ^ (Z.of_nat bpp * Z.of_nat (length l)) * (32 * 2 ^ (Z.of_nat bpp - 5))))
        with (32 * (A * (31 * 2 ^ (Z.of_nat bpp - 5)))) by (unfold A; ring).
      replace (32 * 32 ^ Z.of_nat (length l) * (r * prodZ l)) with (32 * ((32 ^ Z.of_nat (length l) * prodZ l) * r)) by ring.
      apply Z.mul_le_mono_nonneg_l; [lia|]. apply Z.mul_le_mono_nonneg; lia. }
  assert (C : 32 ^ Z.of_nat (length l) <= 2 * 31 ^ Z.of_nat (length l)).
  { clear -L. do 22 (destruct l as [|? l]; [cbn [length]; vm_compute; discriminate|cbn [length] in L]). lia. }
  assert (P31 : 0 < 31 ^ Z.of_nat (length l)) by (apply Z.pow_pos_nonneg; lia).
  assert (P2 : 0 < 2 ^ (Z.of_nat bpp * Z.of_nat (length l))) by (apply Z.pow_pos_nonneg; lia).
  assert (P32 : 0 < 32 ^ Z.of_nat (length l)) by (apply Z.pow_pos_nonneg; lia).
  set (A := 31 ^ Z.of_nat (length l)) in *. set (D := 32 ^ Z.of_nat (length l)) in *.
  set (Q := prodZ l) in *. set (E := 2 ^ (Z.of_nat bpp * Z.of_nat (length l))) in *. clearbody A D Q E. clear -G C P31 P2 P32.
  assert (0 < A * E) by (apply Z.mul_pos_pos; auto). assert (HQ : 0 < Q) by (apply (Z.mul_pos_cancel_l D); lia).
  assert (D * Q <= 2 * A * Q) by (apply Z.mul_le_mono_nonneg_r; lia).
  apply (Z.mul_le_mono_pos_l _ _ A); lia.
Qed.
