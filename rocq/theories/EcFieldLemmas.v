(** Field arithmetic on word lists with a reduction callback. *)
From Coq Require Import Znumtheory.
From Verif Require Import Base Vlong VlongLemmas VlongDivLemmas VlongMulLemmas EcMod EcModLemmas.

(** Like [good_modfun], but the callback is only asked about values up to Q. *)
Definition good_on (n : nat) (m K Q : Z) (g : modfun) : Prop :=
  forall v, words_ok v -> length v = n -> vval v <= Q ->
    exists v', g v = (v', true) /\ words_ok v' /\ length v' = n /\
               vval v' mod m = vval v mod m /\ vval v' <= K.

Lemma beff_words' b mask : words_ok b -> words_ok (beff b mask).
Proof.
  intros Hb. unfold beff. destruct (mask =? 1); auto. destruct b; [constructor|].
  constructor; [unfold word_ok; lia|apply repeat_words].
Qed.

Lemma bv_spec' b mask i : words_ok b -> mask = 0 \/ mask = 1 -> (i < length b)%nat ->
  Z.lor (Z.land (if Nat.eqb i 0 then 1 else 0) (u32 (Z.lnot (u32 (0 - mask))))) (Z.land (nthZ i b) (u32 (0 - mask)))
  = nthZ i (beff b mask).
Proof.
  intros Hb Hmask Hi. unfold beff. destruct Hmask as [-> | ->]; cbn [Z.eqb].
  - change (u32 (0 - 0)) with 0. rewrite Z.land_0_r, Z.lor_0_r. change (u32 (Z.lnot 0)) with (2 ^ 32 - 1).
    destruct b as [|h t]; [cbn in Hi; lia|].
    destruct i as [|i]; [reflexivity|]. cbn [Nat.eqb]. rewrite Z.land_0_l. unfold nthZ. cbn [nth].
    symmetry. apply nth_repeat.
  - change (u32 (0 - 1)) with (2 ^ 32 - 1). change (u32 (Z.lnot (2 ^ 32 - 1))) with 0.
    rewrite Z.land_0_r, Z.lor_0_l, Z.land_comm. apply land_ones32. now apply nthZ_words.
Qed.

Lemma mulv_loop_on n a b mask m K g :
  words_ok a -> words_ok b -> mask = 0 \/ mask = 1 -> good_on n m K (K * 2 ^ 32) g -> vval a <= K -> 0 <= K ->
  K * 2 ^ 32 < pw n ->
  forall i out, (i <= length b)%nat -> (0 < i)%nat -> words_ok out -> length out = n -> vval out <= K ->
    vval out mod m = (vval a * (vval (beff b mask) / pw i) * 2 ^ 32) mod m ->
    exists r, mulv_loop a b mask (Some g) i out = (r, true) /\ words_ok r /\ length r = n /\
              vval r <= K /\ vval r mod m = (vval a * vval (beff b mask)) mod m.
Proof.
  intros Ha Hb Hm Hg Ba HK0 HK. induction i as [|i IH]; intros out Hi H0 Wo Lo Io Vo; [lia|].
  cbn [mulv_loop]. cbv zeta. rewrite bv_spec' by (auto; lia).
  pose proof (beff_words' b mask Hb) as WB.
  pose proof (nthZ_words (beff b mask) i WB) as Wb.
  pose proof (muls_nowrap n out a (nthZ i (beff b mask)) K Wo Lo Io Ha Ba HK Wb) as VM.
  pose proof (vval_bound out Wo) as Bo. pose proof (vval_bound a Ha) as Ba0.
  destruct (Hg (vlong_muls out a (nthZ i (beff b mask)) true)) as (o1 & E1 & W1 & L1 & V1 & I1).
  { apply vlong_muls_words. } { now rewrite vlong_muls_length. }
  { rewrite VM. unfold word_ok in Wb. clear -Wb Io Ba Bo Ba0. nia. }
  cbn [run_mod]. rewrite E1. cbn [negb].
  assert (S1 : vval o1 mod m = (vval a * (vval (beff b mask) / pw i)) mod m).
  { rewrite V1, VM, <- Zplus_mod_idemp_l, Vo, Zplus_mod_idemp_l. f_equal.
    rewrite (div_step (vval (beff b mask)) i), <- nthZ_vval by auto. ring. }
  destruct (Nat.eqb_spec i 0) as [->|N0].
  - exists o1. repeat split; auto. rewrite S1. change (32 * Z.of_nat 0) with 0. now rewrite Z.pow_0_r, Z.div_1_r.
  - rewrite L1. pose proof (mulx_nowrap n o1 K W1 I1 HK) as VX. pose proof (vval_bound o1 W1) as Bo1.
    destruct (Hg (vlong_mulx n o1)) as (o2 & E2 & W2 & L2 & V2 & I2).
    { now apply vlong_mulx_words. } { apply vlong_mulx_length. } { rewrite VX. clear -I1. nia. }
    rewrite E2. cbn [negb]. apply IH; [lia|lia|assumption|assumption|assumption|].
    rewrite V2, VX. now rewrite <- Zmult_mod_idemp_l, S1, Zmult_mod_idemp_l.
Qed.

Lemma mulv_on n a b mask m K g :
  words_ok a -> words_ok b -> (0 < length b)%nat -> mask = 0 \/ mask = 1 ->
  good_on n m K (K * 2 ^ 32) g -> vval a <= K -> 0 <= K -> K * 2 ^ 32 < pw n ->
  exists r, vlong_mulv_masked n a b mask (Some g) = (r, true) /\ words_ok r /\ length r = n /\
            vval r <= K /\ vval r mod m = (vval a * (if mask =? 1 then vval b else 1)) mod m.
Proof.
  intros Ha Hb Hl Hm Hg Ba HK0 HK. unfold vlong_mulv_masked.
  destruct (mulv_loop_on n a b mask m K g Ha Hb Hm Hg Ba HK0 HK (length b) (repeat 0 n)) as (r & E & W & L & I & V); auto.
  - apply repeat_words.
  - apply repeat_length.
  - now rewrite val_le_zeros.
  - rewrite val_le_zeros.
    assert (LB : length (beff b mask) = length b).
    { unfold beff. destruct (mask =? 1); auto. destruct b; auto. cbn. now rewrite repeat_length. }
    rewrite vval_div_top; [|now apply beff_words'|lia]. f_equal. ring.
  - exists r. repeat split; auto. rewrite V. f_equal. f_equal.
    unfold beff. destruct (mask =? 1); auto. destruct b; [cbn in Hl; lia|].
    cbn [val_le]. rewrite val_le_zeros. ring.
Qed.

(** ecp_imod_inplace *)
Lemma sval_of v s n : words_ok v -> length v = n -> (0 < n)%nat -> vval v = s mod pw n -> - pw n < 2 * s < pw n -> sval v = s.
Proof.
  intros W L Hn E B. unfold sval. rewrite L.
  assert (P : pw n = 2 * 2 ^ (32 * Z.of_nat n - 1)) by (rewrite <- Z.pow_succ_r by lia; f_equal; lia).
  destruct (Z_lt_le_dec s 0) as [N|N].
  - assert (X : s mod pw n = s + pw n). { symmetry. apply Z.mod_unique_pos with (q := -1); lia. }
    rewrite E, X. destruct (Z.ltb_spec (s + pw n) (2 ^ (32 * Z.of_nat n - 1))); lia.
  - rewrite E, Z.mod_small by lia. destruct (Z.ltb_spec s (2 ^ (32 * Z.of_nat n - 1))); lia.
Qed.

Lemma mod_sub_l x p : 0 < p -> (p - x) mod p = (- x) mod p.
Proof. intros H. replace (p - x) with (- x + 1 * p) by ring. apply Z_mod_plus_full. Qed.

Lemma mod_opp_congr x y p : 0 < p -> x mod p = y mod p -> (- x) mod p = (- y) mod p.
Proof. intros H E. replace (- x) with (0 - x) by ring. replace (- y) with (0 - y) by ring. now rewrite Zminus_mod, E, <- Zminus_mod. Qed.

Lemma ecp_imod_spec n g p Q rem :
  words_ok p -> (length p <= n)%nat -> 0 < vval p -> good_on n (vval p) (vval p) Q g ->
  words_ok rem -> length rem = n -> (0 < n)%nat -> - Q <= sval rem <= Q ->
  let r := ecp_imod_inplace g p rem in
  words_ok r /\ length r = n /\ vval r <= vval p /\ vval r mod vval p = sval rem mod vval p.
Proof.
  intros Hb HL Hpos Hg Hr Lr Hn HQ. assert (Hne : rem <> []) by (intros ->; cbn in Lr; lia).
  unfold ecp_imod_inplace.
  rewrite top_bit_spec by auto.
  pose proof (vval_bound rem Hr) as B. pose proof (vval_bound p Hb) as Bb.
  assert (Bn : vval p < pw (length rem)).
  { apply Z.lt_le_trans with (1 := proj2 Bb). apply pw_le; lia. }
  cbv zeta. unfold sval in *.
  destruct (Z.ltb_spec (vval rem) (2 ^ (32 * Z.of_nat (length rem) - 1))) as [NN|NN].
  - (* non-negative *)
    rewrite lxor_0_map. change (Z.land 0 1) with 0.
    assert (A : vlong_adds (length rem) rem 0 0 = rem).
    { apply (val_le_inj 32); try lia; auto. apply vlong_adds_words. apply vlong_adds_length.
      rewrite vlong_adds_val by (auto; lia). rewrite Z.mul_0_l, Z.add_0_r. apply Z.mod_small; lia. }
    rewrite A. destruct (Hg rem Hr Lr (proj2 HQ)) as (q & Eq & W & L & V & K). rewrite Eq. cbn [fst].
    rewrite Z.land_0_l. change (u32 (Z.lnot 0)) with (2 ^ 32 - 1).
    assert (VK : vval (add_kernel (fun i x => let u := if (i <? length q)%nat then nthZ i q else 0 in
        let v := if (i <? length p)%nat then nthZ i p else 0 in
        u64 (x + Z.lor (Z.land (2 ^ 32 - 1) u) (Z.land 0 v)) - Z.land 0 u) [] 0 (length q) 0) = vval q).
    { rewrite add_kernel_val0 with (B := fun i => nthZ i q).
      + cbn [val_le]. rewrite Z.add_0_l, vval_nth_seq, Z.mod_mod by (auto; pose proof (pow32_pos (length q)); lia).
        apply Z.mod_small. now apply vval_bound.
      + constructor.
      + intros j y. cbv zeta. rewrite nthZ_guard, Z.land_0_l, Z.land_0_l, Z.lor_0_r, Z.sub_0_r.
        rewrite land_ones32 by now apply nthZ_words. unfold u64. now rewrite Z.mod_mod by lia.
      + intros j. pose proof (nthZ_range q j W). lia. }
    cbv zeta in VK. rewrite VK.
    split; [apply add_kernel_words|]. split; [rewrite add_kernel_length; auto|]. auto.
  - (* negative *)
    change (Z.land (2 ^ 32 - 1) 1) with 1.
    destruct (vval_lnot rem Hr) as [VN WN]. rewrite map_length.
    set (nr := map (fun w => Z.lxor w (2 ^ 32 - 1)) rem) in *.
    assert (LN : length nr = length rem) by (unfold nr; apply map_length).
    assert (P1 : 0 < 2 ^ (32 * Z.of_nat (length rem) - 1)) by (apply Z.pow_pos_nonneg; lia).
    assert (VM : vval (vlong_adds (length rem) nr 1 0) = pw (length rem) - vval rem).
    { rewrite vlong_adds_val by (auto; lia). change (32 * Z.of_nat 0) with 0. rewrite Z.pow_0_r, VN.
      rewrite Z.mod_small; lia. }
    set (m := vlong_adds (length rem) nr 1 0) in *.
    assert (Wm : words_ok m) by apply vlong_adds_words.
    assert (Lm : length m = length rem) by apply vlong_adds_length.
    destruct (Hg m Wm ltac:(lia) ltac:(lia)) as (q & Eq & W & L & V & K). rewrite Eq. cbn [fst].
    pose proof (vval_bound q W) as Bq.
    destruct (lor_fold_zero q 0 W ltac:(unfold word_ok; lia)) as [WZ EZ].
    rewrite nz_mask_spec by auto.
    assert (SV : vval rem - pw (length rem) = - vval m) by lia.
    destruct (Z.eqb_spec (fold_left Z.lor q 0) 0) as [Z0|NZ].
    + (* remainder zero *)
      assert (Q0 : vval q = 0) by tauto.
      change (Z.land (2 ^ 32 - 1) 0) with 0. change (u32 (Z.lnot 0)) with (2 ^ 32 - 1).
      assert (VK : vval (add_kernel (fun i x => let u := if (i <? length q)%nat then nthZ i q else 0 in
        let v := if (i <? length p)%nat then nthZ i p else 0 in
        u64 (x + Z.lor (Z.land (2 ^ 32 - 1) u) (Z.land 0 v)) - Z.land 0 u) [] 0 (length q) 0) = 0).
      { rewrite add_kernel_val0 with (B := fun i => nthZ i q).
        * cbn [val_le]. rewrite Z.add_0_l, vval_nth_seq, Z.mod_mod by (auto; pose proof (pow32_pos (length q)); lia).
          rewrite Q0, Z.mod_0_l by (pose proof (pow32_pos (length q)); lia). reflexivity.
        * constructor.
        * intros j y. cbv zeta. rewrite nthZ_guard, Z.land_0_l, Z.land_0_l, Z.lor_0_r, Z.sub_0_r.
          rewrite land_ones32 by now apply nthZ_words. unfold u64. now rewrite Z.mod_mod by lia.
        * intros j. pose proof (nthZ_range q j W). lia. }
      cbv zeta in VK. rewrite VK.
      split; [apply add_kernel_words|]. split; [rewrite add_kernel_length; lia|]. split; [lia|].
      rewrite SV. rewrite Q0 in V. change 0 with (- 0) at 1. apply mod_opp_congr; auto.
    + change (Z.land (2 ^ 32 - 1) (2 ^ 32 - 1)) with (2 ^ 32 - 1).
      change (u32 (Z.lnot (2 ^ 32 - 1))) with 0.
      assert (Q1 : vval q <> 0) by tauto.
      assert (VK : vval (add_kernel (fun i x => let u := if (i <? length q)%nat then nthZ i q else 0 in
        let v := if (i <? length p)%nat then nthZ i p else 0 in
        u64 (x + Z.lor (Z.land 0 u) (Z.land (2 ^ 32 - 1) v)) - Z.land (2 ^ 32 - 1) u) [] 0 (length q) 0) = vval p - vval q).
      { rewrite add_kernel_val0 with (B := fun i => nthZ i p + - nthZ i q).
        * cbn [val_le].
          rewrite vval_map_add, (vval_map_opp (fun i => nthZ i q)), !vval_nth_seq by auto.
          rewrite L, <- Lr, (Z.mod_small (vval p)), (Z.mod_small (vval q)) by (try lia; rewrite <- ?Lr in *; rewrite ?L in *; lia).
          rewrite Z.mod_small by lia. ring.
        * constructor.
        * intros j y. cbv zeta. rewrite !nthZ_guard, Z.land_0_l, Z.lor_0_l.
          rewrite !land_ones32 by now apply nthZ_words. unfold u64.
          rewrite Zminus_mod_idemp_l. f_equal. lia.
        * intros j. pose proof (nthZ_range q j W). pose proof (nthZ_range p j Hb). lia. }
      cbv zeta in VK. rewrite VK.
      split; [apply add_kernel_words|]. split; [rewrite add_kernel_length; lia|]. split; [lia|].
      rewrite SV, mod_sub_l by auto. now apply mod_opp_congr.
Qed.
