(** Proofs about long division, modular multiplication and exponentiation. *)
From Verif Require Import Base Vlong VlongLemmas VlongDivLemmas.
From Coq Require Import Zpow_facts.

Lemma upd_vval i v q : (i < length q)%nat ->
  vval (upd i v q) = vval q + (v - nthZ i q) * 2 ^ (32 * Z.of_nat i).
Proof.
  revert i. induction q as [|h t IH]; intros i Hi; cbn [length] in Hi; [lia|].
  destruct i as [|i]; cbn [upd val_le]; unfold nthZ in *; cbn [nth].
  - change (32 * Z.of_nat 0) with 0. rewrite Z.pow_0_r. ring.
  - rewrite IH by lia. rewrite pow32_succ. ring.
Qed.

Lemma upd_words i v q : words_ok q -> word_ok v -> words_ok (upd i v q).
Proof. intros; now apply upd_Forall. Qed.

Lemma lor_bit_add x r : 0 <= r -> Z.testbit x r = false -> Z.lor x (2 ^ r) = x + 2 ^ r.
Proof.
  intros Hr H. assert (Z.land x (2 ^ r) = 0).
  { apply Z.bits_inj'. intros k Hk. rewrite Z.land_spec, Z.bits_0, Z.pow2_bits_eqb by auto.
    destruct (Z.eqb_spec r k) as [->|]; [now rewrite H|apply andb_false_r]. }
  rewrite Z.add_nocarry_lxor by auto. now rewrite Z.lxor_lor.
Qed.

Lemma land1_mod x : Z.land x 1 = x mod 2.
Proof. change 1 with (Z.ones 1). rewrite Z.land_ones by lia. reflexivity. Qed.

Lemma shift_1bit_val x b : words_ok x ->
  vval (vlong_shift_1bit x b) = (2 * vval x + b mod 2) mod 2 ^ (32 * Z.of_nat (length x))
  /\ words_ok (vlong_shift_1bit x b) /\ length (vlong_shift_1bit x b) = length x.
Proof.
  intros Hx. rewrite <- land1_mod.
  set (X := 2 * vval x + Z.land b 1).
  assert (B1 : 0 <= Z.land b 1 < 2) by (rewrite land1_mod; apply Z.mod_pos_bound; lia).
  assert (X0 : X mod 2 = Z.land b 1).
  { unfold X. rewrite Z.add_comm, (Z.mul_comm 2), Z.mod_add by lia. apply Z.mod_small; lia. }
  assert (X1 : X / 2 = vval x).
  { unfold X. rewrite Z.add_comm, (Z.mul_comm 2), Z.div_add by lia. rewrite Z.div_small; lia. }
  assert (F : forall j, Z.lor (u32 (Z.shiftl (nthZ j x) 1))
                      (if Nat.eqb j 0 then Z.land b 1 else Z.shiftr (nthZ (j - 1) x) 31)
              = (X / 2 ^ (32 * Z.of_nat j)) mod 2 ^ 32).
  { intros j. apply Z.bits_inj'. intros k Hk. rewrite Z.lor_spec.
    assert (XB : forall n, 0 < n -> Z.testbit X n = Z.testbit (vval x) (n - 1)).
    { intros n Hn. rewrite <- X1. rewrite Z.div2_bits by lia || (rewrite <- Z.div2_div, Z.div2_bits by lia).
      f_equal. lia. }
    assert (B1h : forall n, 0 < n -> Z.testbit (Z.land b 1) n = false).
    { intros n Hn. rewrite <- (Z.mod_small (Z.land b 1) (2 ^ 1)) by (simpl; lia).
      apply Z.mod_pow2_bits_high; lia. }
    destruct (Z_lt_ge_dec k 32) as [L|L].
    - rewrite (Z.mod_pow2_bits_low (X / _)) by lia.
      rewrite <- Z.shiftr_div_pow2, Z.shiftr_spec by lia.
      unfold u32. rewrite Z.mod_pow2_bits_low by lia. rewrite Z.shiftl_spec by lia.
      destruct (Z.eq_dec k 0) as [->|K0].
      + rewrite Z.testbit_neg_r by lia. cbn [orb].
        destruct (Nat.eqb_spec j 0) as [->|J0].
        * change (0 + 32 * Z.of_nat 0) with 0. rewrite !Z.bit0_odd.
          rewrite (Z.odd_add_mul_2 (Z.land b 1) (vval x)) || idtac.
          unfold X. now rewrite Z.add_comm, Z.odd_add_mul_2.
        * rewrite XB by lia. rewrite Z.shiftr_spec by lia. rewrite nth_testbit by (auto; lia).
          cbn [andb Z.ltb]. change (0 + 31 <? 32) with true. cbn [andb]. f_equal. lia.
      + rewrite nth_testbit by (auto; lia). rewrite (proj2 (Z.ltb_lt (k - 1) 32)) by lia. cbn [andb].
        rewrite XB by lia.
        assert (R0 : Z.testbit (if Nat.eqb j 0 then Z.land b 1 else Z.shiftr (nthZ (j - 1) x) 31) k = false).
        { destruct (Nat.eqb j 0); [apply B1h; lia|]. rewrite Z.shiftr_spec by lia.
          rewrite nth_testbit by (auto; lia). rewrite (proj2 (Z.ltb_ge (k + 31) 32)) by lia. reflexivity. }
        rewrite R0, orb_false_r. f_equal. lia.
    - rewrite (Z.mod_pow2_bits_high (X / _)) by lia.
      unfold u32. rewrite Z.mod_pow2_bits_high by lia. cbn [orb].
      destruct (Nat.eqb j 0); [apply B1h; lia|]. rewrite Z.shiftr_spec by lia.
      rewrite nth_testbit by (auto; lia). rewrite (proj2 (Z.ltb_ge (k + 31) 32)) by lia. reflexivity. }
  unfold vlong_shift_1bit. rewrite (mod_to_le (length x) X) by exact F.
  split; [apply val_to_le; lia|]. split; [apply to_le_digits; lia|apply to_le_length].
Qed.

Lemma bit_of_words a i : words_ok a ->
  Z.shiftr (nthZ (i / 32) a) (Z.of_nat (i mod 32)) mod 2 = (vval a / 2 ^ Z.of_nat i) mod 2.
Proof.
  intros Ha.
  pose proof (Nat.div_mod i 32 ltac:(lia)) as DM.
  pose proof (Nat.mod_upper_bound i 32 ltac:(lia)) as MB.
  rewrite <- !Z.bit0_mod. rewrite Z.shiftr_spec by lia. rewrite nth_testbit by (auto; lia).
  rewrite (proj2 (Z.ltb_lt (0 + Z.of_nat (i mod 32)) 32)) by lia. cbn [andb].
  rewrite <- Z.shiftr_div_pow2, Z.shiftr_spec by lia.
  f_equal. f_equal. lia.
Qed.

Lemma divv_loop_spec a b i rem quo :
  words_ok a -> words_ok b -> words_ok rem -> 0 < vval b -> (i <= length a * 32)%nat ->
  2 * vval b <= 2 ^ (32 * Z.of_nat (length rem)) ->
  vval rem = (vval a / 2 ^ Z.of_nat i) mod vval b ->
  match quo with None => True | Some q =>
     words_ok q /\ (length a <= length q)%nat /\ vval q = (vval a / 2 ^ Z.of_nat i) / vval b * 2 ^ Z.of_nat i end ->
  let '(r, q') := divv_loop a b i rem quo in
  words_ok r /\ length r = length rem /\ vval r = vval a mod vval b /\
  match quo, q' with
  | None, None => True
  | Some q, Some q2 => words_ok q2 /\ length q2 = length q /\ vval q2 = vval a / vval b
  | _, _ => False
  end.
Proof.
  intros Ha Hb. revert rem quo. induction i as [|i IH]; intros rem quo Hr Hpos Hi H2 Hrem Hquo.
  - cbn [divv_loop]. cbn [Z.of_nat] in *. rewrite Z.pow_0_r, Z.div_1_r in Hrem.
    repeat split; auto. destruct quo as [q|]; auto. rewrite Z.pow_0_r, Z.div_1_r, Z.mul_1_r in Hquo.
    destruct Hquo as (W & L & V). auto.
  - cbn [divv_loop].
    set (bit := Z.shiftr (nthZ (i / 32) a) (Z.of_nat (i mod 32))).
    destruct (shift_1bit_val rem bit Hr) as (V1 & W1 & L1).
    set (rem1 := vlong_shift_1bit rem bit) in *.
    pose proof (cond_sub rem1 b 0 W1 Hb) as C. cbv zeta in C.
    destruct C as (W2 & L2 & E & V2).
    cbv zeta.
    set (cmp := Z.land (Z.lnot (Z.shiftr (vlong_cmpv_shifted rem1 b 0) 1)) 1) in *.
    set (rem2 := vlong_sub_shifted_masked _ _ _ _ _) in *.
    change (2 ^ Z.of_nat 0) with 1 in *. rewrite Z.mul_1_r in *.
    assert (Bit : bit mod 2 = (vval a / 2 ^ Z.of_nat i) mod 2) by (apply bit_of_words; auto).
    set (A := vval a / 2 ^ Z.of_nat i) in *.
    assert (P2 : 0 < 2 ^ Z.of_nat i) by (apply Z.pow_pos_nonneg; lia).
    assert (AH : vval a / 2 ^ Z.of_nat (S i) = A / 2).
    { unfold A. rewrite Nat2Z.inj_succ, Z.pow_succ_r by lia. rewrite Z.mul_comm.
      rewrite Z.div_div by lia. reflexivity. }
    rewrite AH in *.
    assert (A0 : 0 <= A) by (unfold A; apply Z.div_pos; [apply vval_bound; auto|lia]).
    pose proof (Z.div_mod A 2 ltac:(lia)) as DA.
    pose proof (Z.mod_pos_bound A 2 ltac:(lia)) as MA.
    pose proof (Z.div_mod (A / 2) (vval b) ltac:(lia)) as DB.
    pose proof (Z.mod_pos_bound (A / 2) (vval b) Hpos) as MBb.
    assert (V1' : vval rem1 = 2 * ((A / 2) mod vval b) + A mod 2).
    { rewrite V1, Bit, Hrem. apply Z.mod_small. lia. }
    assert (EA : A = vval b * (2 * (A / 2 / vval b) + cmp) + vval rem2).
    { rewrite V2, V1'. lia. }
    assert (R2 : 0 <= vval rem2 < vval b).
    { rewrite V2, E. destruct (Z.leb_spec (vval b) (vval rem1)); lia. }
    assert (Q : A / vval b = 2 * (A / 2 / vval b) + cmp /\ A mod vval b = vval rem2).
    { split; symmetry; [apply Z.div_unique with (r := vval rem2)|apply Z.mod_unique with (q := 2 * (A / 2 / vval b) + cmp)]; auto. }
    destruct Q as [Q1 Q2].
    assert (Di : (i / 32 < length a)%nat) by (apply Nat.div_lt_upper_bound; lia).
    pose proof (Nat.div_mod i 32 ltac:(lia)) as DM.
    pose proof (Nat.mod_upper_bound i 32 ltac:(lia)) as MB.
    set (quo' := match quo with Some q => Some (upd (i / 32) (Z.lor (nthZ (i / 32) q) (u32 (Z.shiftl cmp (Z.of_nat (i mod 32))))) q) | None => None end).
    specialize (IH rem2 quo' W2 Hpos ltac:(lia)).
    assert (LL : length rem2 = length rem) by lia. rewrite LL in IH.
    specialize (IH H2 (eq_sym Q2)).
    assert (HQ : match quo' with Some q => words_ok q /\ (length a <= length q)%nat /\ vval q = A / vval b * 2 ^ Z.of_nat i | None => True end).
    { unfold quo'. destruct quo as [q|]; auto. destruct Hquo as (Wq & Lq & Vq).
      assert (CB : cmp = 0 \/ cmp = 1) by (rewrite E; destruct (_ <=? _); auto).
      assert (SL : u32 (Z.shiftl cmp (Z.of_nat (i mod 32))) = if cmp =? 0 then 0 else 2 ^ Z.of_nat (i mod 32)).
      { destruct CB as [-> | ->]; cbn [Z.eqb].
        - rewrite Z.shiftl_0_l. reflexivity.
        - rewrite Z.shiftl_1_l. unfold u32. apply Z.mod_small. split; [apply Z.pow_nonneg; lia|].
          apply Z.pow_lt_mono_r; lia. }
      rewrite SL.
      assert (TB : Z.testbit (nthZ (i / 32) q) (Z.of_nat (i mod 32)) = false).
      { rewrite nth_testbit by (auto; lia). rewrite (proj2 (Z.ltb_lt (Z.of_nat (i mod 32)) 32)) by lia. cbn [andb].
        replace (32 * Z.of_nat (i / 32) + Z.of_nat (i mod 32)) with (Z.of_nat i) by lia.
        rewrite Vq, Nat2Z.inj_succ. rewrite <- Z.shiftl_mul_pow2 by lia. apply Z.shiftl_spec_low. lia. }
      assert (LO : Z.lor (nthZ (i / 32) q) (if cmp =? 0 then 0 else 2 ^ Z.of_nat (i mod 32))
                  = nthZ (i / 32) q + cmp * 2 ^ Z.of_nat (i mod 32)).
      { destruct CB as [-> | ->]; cbn [Z.eqb].
        - rewrite Z.lor_0_r. lia.
        - rewrite lor_bit_add by (auto; lia). lia. }
      rewrite LO.
      split; [|split].
      - apply upd_words; auto. pose proof (nthZ_range q (i / 32) Wq) as NR.
        assert (LB : 0 <= Z.lor (nthZ (i / 32) q) (if cmp =? 0 then 0 else 2 ^ Z.of_nat (i mod 32)) < 2 ^ 32).
        { assert (PB : 0 <= (if cmp =? 0 then 0 else 2 ^ Z.of_nat (i mod 32)) < 2 ^ 32).
          { destruct (cmp =? 0); [lia|]. split; [apply Z.pow_nonneg; lia|apply Z.pow_lt_mono_r; lia]. }
          destruct (lor_fold_zero [if cmp =? 0 then 0 else 2 ^ Z.of_nat (i mod 32)] (nthZ (i / 32) q)) as [K _].
          - constructor; [exact PB|constructor].
          - exact NR.
          - cbn [fold_left] in K. exact K. }
        rewrite LO in LB. exact LB.
      - rewrite upd_length. lia.
      - rewrite upd_vval by lia. rewrite Vq, Q1, Nat2Z.inj_succ, Z.pow_succ_r by lia.
        replace (2 ^ Z.of_nat i) with (2 ^ Z.of_nat (i mod 32) * 2 ^ (32 * Z.of_nat (i / 32)))
          by (rewrite <- Z.pow_add_r by lia; f_equal; lia).
        ring. }
    specialize (IH HQ).
    destruct (divv_loop a b i rem2 quo') as [r q'].
    destruct IH as (I1 & I2 & I3 & I4). repeat split; auto.
    unfold quo' in I4. destruct quo as [q|], q' as [q2|]; auto.
    destruct I4 as (J1 & J2 & J3). rewrite upd_length in J2. auto.
Qed.

Lemma repeat_words n : words_ok (repeat 0 n).
Proof. induction n; cbn; constructor; auto. unfold word_ok; lia. Qed.

Lemma vlong_divv_spec remc quo a b :
  words_ok a -> words_ok b -> 0 < vval b -> (length b <= remc)%nat ->
  match quo with Some qc => (length a <= qc)%nat | None => True end ->
  2 * vval b <= 2 ^ (32 * Z.of_nat remc) ->
  exists r q', vlong_divv remc quo a b = Some (r, q') /\
    words_ok r /\ length r = remc /\ vval r = vval a mod vval b /\
    match quo, q' with
    | None, None => True
    | Some qc, Some q => words_ok q /\ length q = qc /\ vval q = vval a / vval b
    | _, _ => False
    end.
Proof.
  intros Ha Hb Hpos HL Hq H2. unfold vlong_divv.
  rewrite (proj2 (Nat.ltb_ge _ _) HL).
  replace (match quo with Some q => (q <? length a)%nat | None => false end) with false
    by (destruct quo; auto; symmetry; now apply Nat.ltb_ge).
  assert (A0 : vval a / 2 ^ Z.of_nat (length a * 32) = 0).
  { apply Z.div_small. pose proof (vval_bound a Ha) as B. replace (Z.of_nat (length a * 32)) with (32 * Z.of_nat (length a)) by lia. exact B. }
  pose proof (divv_loop_spec a b (length a * 32) (repeat 0 remc) (option_map (repeat 0) quo)
     Ha Hb (repeat_words _) Hpos (Nat.le_refl _)) as D.
  rewrite repeat_length in D. specialize (D H2).
  rewrite A0, val_le_zeros, Z.mod_0_l in D by lia. specialize (D eq_refl).
  destruct (divv_loop a b (length a * 32) (repeat 0 remc) (option_map (repeat 0) quo)) as [r q'].
  exists r, q'. split; auto.
  destruct quo as [qc|]; cbn [option_map] in D.
  - destruct D as (D1 & D2 & D3 & D4).
    { split; [apply repeat_words|]. rewrite repeat_length. split; auto. now rewrite val_le_zeros, Z.div_0_l by lia. }
    repeat split; auto; destruct q'; tauto || (destruct D4 as (? & L & ?); rewrite repeat_length in L; auto).
  - destruct (D I) as (D1 & D2 & D3 & D4). repeat split; auto.
Qed.

(** multiplication *)
Section Mulv.
  Variables (n : nat) (a b : list Z) (mask M : Z) (f : option modfun).
  Variables (inv post : list Z -> Prop).
  Hypothesis Ha : words_ok a.
  Hypothesis Hb : words_ok b.
  Hypothesis Hmask : mask = 0 \/ mask = 1.
  Hypothesis Hmod : forall v, words_ok v -> length v = n ->
    exists v', run_mod f v = (v', true) /\ words_ok v' /\ length v' = n /\
               vval v' mod M = vval v mod M /\ inv v' /\ post v'.
  Hypothesis Hmuls : forall o bv, words_ok o -> length o = n -> inv o -> word_ok bv ->
    vval (vlong_muls o a bv true) mod M = (vval o + vval a * bv) mod M.
  Hypothesis Hmulx : forall o, words_ok o -> length o = n -> inv o ->
    vval (vlong_mulx n o) mod M = (vval o * 2 ^ 32) mod M.

  Definition beff : list Z := if mask =? 1 then b else match b with [] => [] | _ :: t => 1 :: repeat 0 (length t) end.

  Lemma beff_words : words_ok beff.
  Proof.
    unfold beff. destruct (mask =? 1); auto. destruct b; [constructor|].
    constructor; [unfold word_ok; lia|apply repeat_words].
  Qed.

  Lemma bv_spec i : (i < length b)%nat ->
    Z.lor (Z.land (if Nat.eqb i 0 then 1 else 0) (u32 (Z.lnot (u32 (0 - mask))))) (Z.land (nthZ i b) (u32 (0 - mask)))
    = nthZ i beff.
  Proof.
    intros Hi. unfold beff. destruct Hmask as [-> | ->]; cbn [Z.eqb].
    - change (u32 (0 - 0)) with 0. rewrite Z.land_0_r, Z.lor_0_r. change (u32 (Z.lnot 0)) with (2 ^ 32 - 1).
      destruct b as [|h t]; [cbn in Hi; lia|].
      destruct i as [|i]; [reflexivity|]. cbn [Nat.eqb]. rewrite Z.land_0_l. unfold nthZ. cbn [nth].
      symmetry. apply nth_repeat.
    - change (u32 (0 - 1)) with (2 ^ 32 - 1). change (u32 (Z.lnot (2 ^ 32 - 1))) with 0.
      rewrite Z.land_0_r, Z.lor_0_l, Z.land_comm. apply land_ones32. now apply nthZ_words.
  Qed.

  Lemma mulv_loop_spec i out :
    (i <= length b)%nat -> (0 < i)%nat -> words_ok out -> length out = n -> inv out ->
    vval out mod M = (vval a * (vval beff / 2 ^ (32 * Z.of_nat i)) * 2 ^ 32) mod M ->
    exists r, mulv_loop a b mask f i out = (r, true) /\ words_ok r /\ length r = n /\
              inv r /\ post r /\ vval r mod M = (vval a * vval beff) mod M.
  Proof.
    revert out. induction i as [|i IH]; intros out Hi H0 Wo Lo Io Vo; [lia|].
    cbn [mulv_loop]. cbv zeta. rewrite bv_spec by lia.
    pose proof (nthZ_words beff i beff_words) as Wb.
    destruct (Hmod (vlong_muls out a (nthZ i beff) true)) as (o1 & E1 & W1 & L1 & V1 & I1 & P1).
    { apply vlong_muls_words. } { now rewrite vlong_muls_length. }
    rewrite E1. cbn [negb].
    rewrite Hmuls in V1 by auto.
    assert (S1 : vval o1 mod M = (vval a * (vval beff / 2 ^ (32 * Z.of_nat i))) mod M).
    { rewrite V1, <- Zplus_mod_idemp_l, Vo, Zplus_mod_idemp_l. f_equal.
      rewrite (div_step (vval beff) i), <- nthZ_vval by apply beff_words. ring. }
    destruct (Nat.eqb_spec i 0) as [->|N0].
    - exists o1. repeat split; auto. rewrite S1. change (32 * Z.of_nat 0) with 0. now rewrite Z.pow_0_r, Z.div_1_r.
    - rewrite L1.
      destruct (Hmod (vlong_mulx n o1)) as (o2 & E2 & W2 & L2 & V2 & I2 & P2).
      { now apply vlong_mulx_words. } { apply vlong_mulx_length. }
      rewrite E2. cbn [negb]. apply IH; [lia|lia|assumption|assumption|assumption|].
      rewrite V2, Hmulx by auto. now rewrite <- Zmult_mod_idemp_l, S1, Zmult_mod_idemp_l.
  Qed.

  Lemma mulv_spec : (0 < length b)%nat -> inv (repeat 0 n) ->
    exists r, vlong_mulv_masked n a b mask f = (r, true) /\ words_ok r /\ length r = n /\
              inv r /\ post r /\ vval r mod M = (vval a * (if mask =? 1 then vval b else 1)) mod M.
  Proof.
    intros Hl Hz. unfold vlong_mulv_masked.
    destruct (mulv_loop_spec (length b) (repeat 0 n)) as (r & E & W & L & I & P & V); auto.
    - apply repeat_words.
    - apply repeat_length.
    - rewrite val_le_zeros.
      assert (LB : length beff = length b).
      { unfold beff. destruct (mask =? 1); auto. destruct b; auto. cbn. now rewrite repeat_length. }
      rewrite vval_div_top; [|apply beff_words|lia]. f_equal. ring.
    - exists r. repeat split; auto. rewrite V. f_equal. f_equal.
      unfold beff. destruct (mask =? 1); auto. destruct b; [cbn in Hl; lia|].
      cbn [val_le]. rewrite val_le_zeros. ring.
  Qed.
End Mulv.

(** What a reduction callback must guarantee to be usable with mulv/modexp at
    width n: it always succeeds, keeps the width, preserves the value modulo
    [m] and leaves a value at most [K]. *)
Definition good_modfun (n : nat) (m K : Z) (g : modfun) : Prop :=
  forall v, words_ok v -> length v = n ->
    exists v', g v = (v', true) /\ words_ok v' /\ length v' = n /\
               vval v' mod m = vval v mod m /\ vval v' <= K.

Lemma muls_nowrap n o a bv K :
  words_ok o -> length o = n -> vval o <= K -> words_ok a -> vval a <= K ->
  K * 2 ^ 32 < 2 ^ (32 * Z.of_nat n) -> word_ok bv ->
  vval (vlong_muls o a bv true) = vval o + vval a * bv.
Proof.
  intros Ho Lo Bo Ha Ba HK Hbv. rewrite vlong_muls_val by auto. rewrite Lo.
  rewrite Z.mod_small; [ring|].
  pose proof (vval_bound o Ho). pose proof (vval_bound a Ha). unfold word_ok in Hbv. nia.
Qed.

Lemma mulx_nowrap n o K :
  words_ok o -> vval o <= K -> K * 2 ^ 32 < 2 ^ (32 * Z.of_nat n) ->
  vval (vlong_mulx n o) = vval o * 2 ^ 32.
Proof.
  intros Ho Bo HK. rewrite vlong_mulx_val by auto. apply Z.mod_small.
  pose proof (vval_bound o Ho). nia.
Qed.

Lemma mulv_mod_spec n a b mask m K g :
  words_ok a -> words_ok b -> (0 < length b)%nat -> mask = 0 \/ mask = 1 ->
  good_modfun n m K g -> vval a <= K -> 0 <= K -> K * 2 ^ 32 < 2 ^ (32 * Z.of_nat n) ->
  exists r, vlong_mulv_masked n a b mask (Some g) = (r, true) /\ words_ok r /\ length r = n /\
            vval r <= K /\ vval r mod m = (vval a * (if mask =? 1 then vval b else 1)) mod m.
Proof.
  intros Ha Hb Hl Hm Hg Ba HK0 HK.
  destruct (mulv_spec n a b mask m (Some g) (fun v => vval v <= K) (fun _ => True))
    as (r & E & W & L & I & _ & V); auto.
  - intros v Wv Lv. destruct (Hg v Wv Lv) as (v' & E & W & L & V & B). exists v'. repeat split; auto.
  - intros o bv Wo Lo Io Wb. now rewrite (muls_nowrap n o a bv K).
  - intros o Wo Lo Io. now rewrite (mulx_nowrap n o K).
  - now rewrite val_le_zeros.
  - exists r. repeat split; auto.
Qed.

Lemma mulv_nomod_spec n a b mask :
  words_ok a -> words_ok b -> (0 < length b)%nat -> mask = 0 \/ mask = 1 ->
  exists r, vlong_mulv_masked n a b mask None = (r, true) /\ words_ok r /\ length r = n /\
            vval r = (vval a * (if mask =? 1 then vval b else 1)) mod 2 ^ (32 * Z.of_nat n).
Proof.
  intros Ha Hb Hl Hm.
  destruct (mulv_spec n a b mask (2 ^ (32 * Z.of_nat n)) None (fun v => True) (fun _ => True))
    as (r & E & W & L & _ & _ & V); auto.
  - intros v Wv Lv. exists v. repeat split; auto.
  - intros o bv Wo Lo _ Wb. rewrite vlong_muls_val by auto. rewrite Lo.
    rewrite Z.mod_mod by (pose proof (pow32_pos n); lia). f_equal. ring.
  - intros o Wo Lo _. rewrite vlong_mulx_val by auto. now rewrite Z.mod_mod by (pose proof (pow32_pos n); lia).
  - exists r. repeat split; auto. rewrite <- V. symmetry. apply Z.mod_small. rewrite <- L. now apply vval_bound.
Qed.

Lemma mod_mul_congr M x x' y y' : x mod M = x' mod M -> y mod M = y' mod M -> (x * y) mod M = (x' * y') mod M.
Proof. intros H1 H2. rewrite Z.mul_mod_idemp_l with (n := M) || idtac.
  destruct (Z.eq_dec M 0) as [->|].
  - rewrite !Zmod_0_r in *. congruence.
  - rewrite <- Zmult_mod_idemp_l, <- Zmult_mod_idemp_r, H1, H2, Zmult_mod_idemp_r, Zmult_mod_idemp_l. reflexivity.
Qed.

(** exponentiation *)
Section Modexp.
  Variables (n : nat) (e : list Z) (M base : Z) (f : option modfun).
  Variables (inv : list Z -> Prop).
  Hypothesis He : words_ok e.
  Hypothesis HM : 0 < M.
  Hypothesis Hmulv : forall a b mask, words_ok a -> words_ok b -> length a = n -> length b = n ->
    inv a -> inv b -> mask = 0 \/ mask = 1 ->
    exists r, vlong_mulv_masked n a b mask f = (r, true) /\ words_ok r /\ length r = n /\ inv r /\
              vval r mod M = (vval a * (if mask =? 1 then vval b else 1)) mod M.

  Lemma pow_congr x y k : x mod M = y mod M -> (x ^ k) mod M = (y ^ k) mod M.
  Proof. intros H. rewrite (Zpower_mod x), (Zpower_mod y) by auto. now rewrite H. Qed.

  Lemma modexp_loop_spec k i out tmp1 :
    (0 < k)%nat -> (i + k = length e * 32)%nat ->
    words_ok out -> length out = n -> inv out -> words_ok tmp1 -> length tmp1 = n -> inv tmp1 ->
    (vval out * vval tmp1 ^ (vval e / 2 ^ Z.of_nat i)) mod M = (base ^ vval e) mod M ->
    let r := modexp_loop e f n k i out tmp1 in
    words_ok r /\ length r = n /\ inv r /\ vval r mod M = (base ^ vval e) mod M.
  Proof.
    revert i out tmp1. induction k as [|k IH]; intros i out tmp1 Hk Hik Wo Lo Io Wt Lt It HV; [lia|].
    cbn [modexp_loop]. cbv zeta.
    set (mask := Z.land _ 1).
    assert (Em : mask = (vval e / 2 ^ Z.of_nat i) mod 2) by (unfold mask; rewrite land1_mod; now apply bit_of_words).
    set (E := vval e / 2 ^ Z.of_nat i) in *.
    assert (P2 : 0 < 2 ^ Z.of_nat i) by (apply Z.pow_pos_nonneg; lia).
    assert (E0 : 0 <= E) by (unfold E; apply Z.div_pos; [apply vval_bound; auto|lia]).
    pose proof (Z.div_mod E 2 ltac:(lia)) as DE. pose proof (Z.mod_pos_bound E 2 ltac:(lia)) as ME.
    assert (Hm : mask = 0 \/ mask = 1) by lia.
    destruct (Hmulv out tmp1 mask Wo Wt Lo Lt Io It Hm) as (r & Er & Wr & Lr & Ir & Vr).
    rewrite Er. cbn [fst].
    assert (Step : (vval r * (vval tmp1 * vval tmp1) ^ (E / 2)) mod M = (base ^ vval e) mod M).
    { rewrite <- HV. rewrite (mod_mul_congr M _ _ _ ((vval tmp1 * vval tmp1) ^ (E / 2)) Vr eq_refl).
      f_equal. rewrite DE at 2. rewrite <- Em.
      rewrite Z.pow_add_r, Z.pow_mul_r, Z.pow_2_r by (try lia; apply Z.div_pos; lia).
      destruct Hm as [-> | ->]; cbn [Z.eqb Pos.eqb]; rewrite ?Z.pow_0_r, ?Z.pow_1_r; generalize ((vval tmp1 * vval tmp1) ^ (E / 2)); intros; ring. }
    destruct k as [|k].
    - repeat split; auto. rewrite <- Step.
      assert (EZ : E / 2 = 0).
      { unfold E. rewrite Z.div_div by lia. apply Z.div_small.
        pose proof (vval_bound e He). split; [lia|].
        rewrite Z.mul_comm, <- Z.pow_succ_r by lia.
        replace (Z.succ (Z.of_nat i)) with (32 * Z.of_nat (length e)) by lia. lia. }
      rewrite EZ, Z.pow_0_r, Z.mul_1_r. reflexivity.
    - destruct (Hmulv tmp1 tmp1 1 Wt Wt Lt Lt It It) as (t & Et & Wt' & Lt' & It' & Vt); [auto|].
      rewrite Et. cbn [fst]. cbn [Z.eqb Pos.eqb] in Vt.
      apply IH; [lia|lia|assumption..|].
      rewrite Nat2Z.inj_succ, Z.pow_succ_r by lia. rewrite (Z.mul_comm 2), <- Z.div_div by lia.
      fold E. rewrite <- Step. apply mod_mul_congr; auto. now apply pow_congr.
  Qed.
End Modexp.

Lemma one_list n : (0 < n)%nat -> vval (map (fun i => if Nat.eqb i 0 then 1 else 0) (seq 0 n)) = 1.
Proof. intros H. rewrite vval_single. rewrite (proj2 (Nat.ltb_lt _ _)) by auto. reflexivity. Qed.

Lemma modexpv_mod_spec n base e m K g :
  words_ok base -> words_ok e -> (0 < length e)%nat -> (0 < n)%nat -> 0 < m ->
  good_modfun n m K g -> vval base <= K -> 1 <= K -> K * 2 ^ 32 < 2 ^ (32 * Z.of_nat n) ->
  exists r, vlong_modexpv n n n base e (Some g) = Some r /\ words_ok r /\ length r = n /\
            vval r <= K /\ vval r mod m = (vval base ^ vval e) mod m.
Proof.
  intros Hb He Hl Hn Hm Hg Bb HK1 HK. unfold vlong_modexpv. rewrite Nat.eqb_refl. cbn [negb orb].
  eexists. split; [reflexivity|].
  assert (Bv : vval (vlong_cpy n base) = vval base).
  { rewrite vlong_cpy_val by auto. apply Z.mod_small. pose proof (vval_bound base Hb). lia. }
  fold (vlong_cpy n base).
  apply (modexp_loop_spec n e m (vval base) (Some g) (fun v => vval v <= K)); auto; try lia.
  - intros a b mask Wa Wb La Lb Ia Ib Hmask.
    destruct (mulv_mod_spec n a b mask m K g) as (r & E & W & L & B & V); auto; try lia.
    exists r. repeat split; auto.
  - apply map_words. intros j. destruct (Nat.eqb j 0); unfold word_ok; lia.
  - now rewrite map_length, seq_length.
  - rewrite one_list; lia.
  - now apply vlong_cpy_words.
  - apply vlong_cpy_length.
  - rewrite one_list, Bv by lia. cbn [Z.of_nat]. rewrite Z.pow_0_r, Z.div_1_r. now rewrite Z.mul_1_l.
Qed.

Lemma modexpv_nomod_spec n base e :
  words_ok base -> words_ok e -> (0 < length e)%nat -> (0 < n)%nat ->
  exists r, vlong_modexpv n n n base e None = Some r /\ words_ok r /\ length r = n /\
            vval r = (vval base ^ vval e) mod 2 ^ (32 * Z.of_nat n).
Proof.
  intros Hb He Hl Hn. unfold vlong_modexpv. rewrite Nat.eqb_refl. cbn [negb orb].
  eexists. split; [reflexivity|].
  fold (vlong_cpy n base). pose proof (pow32_pos n) as PN.
  assert (G : let r := modexp_loop e None n (length e * 32) 0
     (map (fun i => if Nat.eqb i 0 then 1 else 0) (seq 0 n)) (vlong_cpy n base) in
     words_ok r /\ length r = n /\ True /\ vval r mod 2 ^ (32 * Z.of_nat n) = (vval base ^ vval e) mod 2 ^ (32 * Z.of_nat n)).
  { apply (modexp_loop_spec n e (2 ^ (32 * Z.of_nat n)) (vval base) None (fun v => True)); auto; try lia.
    - intros a b mask Wa Wb La Lb Ia Ib Hmask.
      destruct (mulv_nomod_spec n a b mask) as (r & E & W & L & V); auto; try lia.
      exists r. repeat split; auto. rewrite V. apply Z.mod_mod. lia.
    - apply map_words. intros j. destruct (Nat.eqb j 0); unfold word_ok; lia.
    - now rewrite map_length, seq_length.
    - now apply vlong_cpy_words.
    - apply vlong_cpy_length.
    - rewrite one_list, vlong_cpy_val by auto. cbn [Z.of_nat]. rewrite Z.pow_0_r, Z.div_1_r.
      rewrite Z.mul_1_l. apply pow_congr; [lia|]. apply Z.mod_mod. lia. }
  cbv zeta in G. destruct G as (W & L & _ & V). repeat split; auto.
  rewrite <- V. symmetry. apply Z.mod_small.
  pose proof (vval_bound _ W) as B. rewrite L in B. exact B.
Qed.

(** The library's own generic reduction is a good callback. *)
Lemma remv_good n m : words_ok m -> 0 < vval m -> (length m <= n)%nat ->
  good_modfun n (vval m) (vval m - 1) (fun v => vlong_remv_inplace v m).
Proof.
  intros Hm Hp HL v Wv Lv.
  destruct (vlong_remv_inplace_spec v m Wv Hm) as (E & W & L & V); auto; [lia|].
  destruct (vlong_remv_inplace v m) as [v' ok]. cbn [fst snd] in *. subst ok.
  exists v'. repeat split; auto; try lia.
  - rewrite V. apply Z.mod_mod; lia.
Qed.

Lemma good_weaken n m K K' g : good_modfun n m K g -> K <= K' -> good_modfun n m K' g.
Proof. intros H HK v Wv Lv. destruct (H v Wv Lv) as (v' & ? & ? & ? & ? & ?). exists v'. repeat split; auto; lia. Qed.

Lemma remv_null_iff rem b : snd (vlong_remv_inplace rem b) = false <-> (length rem < length b)%nat.
Proof.
  unfold vlong_remv_inplace. destruct (Nat.ltb_spec (length rem) (length b)); cbn [snd]; split; intros; auto; try lia; congruence.
Qed.

Lemma divv_null_iff remc quo a b : vlong_divv remc quo a b = None <->
  (remc < length b)%nat \/ (exists qc, quo = Some qc /\ (qc < length a)%nat).
Proof.
  unfold vlong_divv. destruct quo as [q|].
  - destruct (Nat.ltb_spec q (length a)).
    + split; auto. intros _. right. exists q; auto.
    + destruct (Nat.ltb_spec remc (length b)).
      * split; auto.
      * split; [discriminate|]. intros [?|(qc & E & ?)]; [lia|]. injection E; lia.
  - destruct (Nat.ltb_spec remc (length b)).
    + split; auto.
    + split; [discriminate|]. intros [?|(qc & E & ?)]; [lia|discriminate].
Qed.

Lemma divv_refuted : exists (a b : list Z) (remc qc : nat) (r q : list Z),
  words_ok a /\ words_ok b /\ 0 < vval b /\ (length b <= remc)%nat /\ (length a <= qc)%nat /\
  vlong_divv remc (Some qc) a b = Some (r, Some q) /\ vval a <> vval q * vval b + vval r.
Proof.
  exists [0; 2 ^ 32 - 2], [2 ^ 32 - 1], 1%nat, 2%nat.
  eexists; eexists.
  split; [repeat constructor; unfold word_ok; lia|].
  split; [repeat constructor; unfold word_ok; lia|].
  split; [cbn; lia|]. split; [cbn; lia|]. split; [cbn; lia|].
  split; [vm_compute; reflexivity|]. vm_compute. discriminate.
Qed.

Lemma imuls_refuted : exists (out a : list Z) (b : Z),
  words_ok a /\ words_ok out /\ 0 <= b < 2 ^ 32 /\
  vval (vlong_imuls out a b false) <> (vval a * b) mod 2 ^ (32 * Z.of_nat (length out)).
Proof.
  exists [0; 0; 0], [2 ^ 32 - 1; 0; 0], (2 ^ 32 - 1).
  split; [repeat constructor; unfold word_ok; lia|].
  split; [repeat constructor; unfold word_ok; lia|].
  split; [lia|]. vm_compute. discriminate.
Qed.

Lemma imod_residue rem b :
  words_ok rem -> words_ok b -> rem <> [] -> (length b <= length rem)%nat -> 0 < vval b ->
  let top := 2 ^ (32 * Z.of_nat (length rem)) in
  let signed := if vval rem <? top / 2 then vval rem else vval rem - top in
  words_ok (vlong_imod_inplace rem b) /\
  length (vlong_imod_inplace rem b) = length rem /\
  vval (vlong_imod_inplace rem b) = signed mod vval b.
Proof.
  intros Hr Hb Hne HL Hp top signed.
  destruct (vlong_imod_inplace_spec rem b Hr Hb Hne HL Hp) as (W & L & V).
  repeat split; auto. rewrite V. f_equal. unfold sval, signed, top.
  assert (length rem <> 0)%nat by (destruct rem; [congruence|cbn; lia]).
  replace (2 ^ (32 * Z.of_nat (length rem))) with (2 ^ (32 * Z.of_nat (length rem) - 1) * 2) at 2
    by (rewrite Z.mul_comm, <- Z.pow_succ_r by lia; f_equal; lia).
  now rewrite Z.div_mul by lia.
Qed.

Lemma mulv_masked_mod n a b m mask :
  words_ok a -> words_ok b -> words_ok m -> (0 < length b)%nat -> (length m <= n)%nat ->
  0 < vval m -> vval a < vval m -> mask = 0 \/ mask = 1 ->
  vval m * 2 ^ 32 <= 2 ^ (32 * Z.of_nat n) ->
  exists r, vlong_mulv_masked n a b mask (Some (fun v => vlong_remv_inplace v m)) = (r, true) /\
    words_ok r /\ length r = n /\ vval r = (vval a * vval b ^ mask) mod vval m.
Proof.
  intros Ha Hb Hm Hl HL Hp Hlt Hmask HK.
  destruct (mulv_mod_spec n a b mask (vval m) (vval m - 1) (fun v => vlong_remv_inplace v m))
    as (r & E & W & L & B & V); auto; try lia.
  { now apply remv_good. }
  exists r. repeat split; auto.
  rewrite Z.mod_small in V by (pose proof (vval_bound r W); lia).
  rewrite V. f_equal. f_equal. destruct Hmask as [-> | ->]; cbn [Z.eqb Pos.eqb]; [now rewrite Z.pow_0_r|now rewrite Z.pow_1_r].
Qed.

Lemma modexpv_mod n base e m :
  words_ok base -> words_ok e -> words_ok m -> (0 < length e)%nat -> (length m <= n)%nat ->
  1 < vval m -> vval base < vval m -> vval m * 2 ^ 32 <= 2 ^ (32 * Z.of_nat n) ->
  exists r, vlong_modexpv n n n base e (Some (fun v => vlong_remv_inplace v m)) = Some r /\
    words_ok r /\ length r = n /\ vval r = (vval base ^ vval e) mod vval m.
Proof.
  intros Hb He Hm Hl HL Hp Hlt HK.
  assert (Hn : (0 < n)%nat).
  { destruct n; [|lia]. change (2 ^ (32 * Z.of_nat 0)) with 1 in HK. lia. }
  destruct (modexpv_mod_spec n base e (vval m) (vval m - 1) (fun v => vlong_remv_inplace v m))
    as (r & E & W & L & B & V); auto; try lia.
  { apply remv_good; auto; lia. }
  exists r. repeat split; auto.
  rewrite Z.mod_small in V by (pose proof (vval_bound r W); lia). exact V.
Qed.
