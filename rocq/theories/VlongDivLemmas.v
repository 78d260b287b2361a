(** Proofs about comparison, shifting, division and remainder. *)
From Verif Require Import Base Vlong VlongLemmas.

Definition cmpcode (x y : Z) : Z := if x =? y then 0 else if y <? x then 1 else 2.

Lemma nz_mask_spec x : word_ok x -> nz_mask x = if x =? 0 then 0 else 2 ^ 32 - 1.
Proof.
  intros Hx. unfold word_ok in Hx. unfold nz_mask.
  set (x1 := Z.lor x (Z.shiftr x 16)).
  replace (2 ^ 16 - 1) with (Z.ones 16) by reflexivity. rewrite Z.land_ones by lia.
  assert (B : 0 <= x1 mod 2 ^ 16 < 2 ^ 16) by (apply Z.mod_pos_bound; lia).
  destruct (Z.eqb_spec x 0) as [->|N]; [reflexivity|].
  assert (NZ : x1 mod 2 ^ 16 <> 0).
  { intros E. apply N. apply Z.bits_inj'. intros n Hn. rewrite Z.bits_0.
    assert (Low : forall k, 0 <= k < 16 -> Z.testbit x k = false /\ Z.testbit x (k + 16) = false).
    { intros k Hk. assert (F : Z.testbit (x1 mod 2 ^ 16) k = false) by (rewrite E; apply Z.bits_0).
      rewrite Z.mod_pow2_bits_low in F by lia. unfold x1 in F.
      rewrite Z.lor_spec, Z.shiftr_spec in F by lia. now apply orb_false_iff in F. }
    destruct (Z_lt_ge_dec n 16); [now apply Low; lia|].
    destruct (Z_lt_ge_dec n 32).
    - replace n with ((n - 16) + 16) by lia. apply Low; lia.
    - rewrite <- (Z.mod_small x (2 ^ 32)) by lia. now rewrite Z.mod_pow2_bits_high by lia. }
  set (y := x1 mod 2 ^ 16) in *.
  unfold u32 at 2. rewrite (Z.mod_small (y - 1)) by lia.
  assert (L : 0 <= Z.lxor y (y - 1) < 2 ^ 16) by (apply lxor_bound; lia).
  rewrite Z.shiftr_div_pow2 by lia. rewrite Z.div_small by lia. reflexivity.
Qed.

Lemma vlong_cmps_spec a b : word_ok a -> word_ok b -> vlong_cmps a b = cmpcode a b.
Proof.
  intros Ha Hb. unfold vlong_cmps, cmpcode.
  rewrite nz_mask_spec by apply u32_word. rewrite u32_u64.
  unfold word_ok in *. rewrite Z.shiftr_div_pow2 by lia.
  destruct (Z.eqb_spec a b) as [->|N].
  { rewrite Z.sub_diag. reflexivity. }
  destruct (Z.ltb_spec b a).
  - unfold u64. rewrite (Z.mod_small (a - b) (2 ^ 64)) by lia. rewrite (Z.div_small (a - b)) by lia.
    rewrite (Z.mod_small (a - b) (2 ^ 32)) by lia.
    destruct (Z.eqb_spec (a - b) 0); [lia|]. reflexivity.
  - unfold u64.
    replace ((a - b) mod 2 ^ 64) with (a - b + 2 ^ 64) by (apply Z.mod_unique_pos with (q := -1); lia).
    replace (a - b + 2 ^ 64) with ((a - b + 2 ^ 32) + (2 ^ 32 - 1) * 2 ^ 32) by lia.
    rewrite Z.div_add by lia. rewrite Z.div_small by lia.
    replace ((a - b) mod 2 ^ 32) with (a - b + 2 ^ 32) by (apply Z.mod_unique_pos with (q := -1); lia).
    destruct (Z.eqb_spec (a - b + 2 ^ 32) 0); [lia|]. reflexivity.
Qed.

Lemma nth_testbit b k j : words_ok b -> 0 <= j ->
  Z.testbit (nthZ k b) j = (j <? 32) && Z.testbit (vval b) (32 * Z.of_nat k + j).
Proof.
  intros Hb Hj. rewrite (nthZ_vval b k Hb).
  destruct (Z.ltb_spec j 32); cbn [andb].
  - rewrite Z.mod_pow2_bits_low by lia. rewrite <- Z.shiftr_div_pow2 by lia.
    rewrite Z.shiftr_spec by lia. f_equal. lia.
  - now rewrite Z.mod_pow2_bits_high by lia.
Qed.

Lemma word_shifted_spec b i s : words_ok b ->
  vlong_word_shifted b i s = (vval b * 2 ^ Z.of_nat s / 2 ^ (32 * Z.of_nat i)) mod 2 ^ 32.
Proof.
  intros Hb. unfold vlong_word_shifted.
  pose proof (Nat.div_mod s 32 ltac:(lia)) as DM.
  pose proof (Nat.mod_upper_bound s 32 ltac:(lia)) as MB.
  set (w := (s / 32)%nat) in *. set (r := (s mod 32)%nat) in *.
  assert (V : forall k, (if (w + k <=? i)%nat && (i - w - k <? length b)%nat then nthZ (i - w - k) b else 0)
              = if (w + k <=? i)%nat then nthZ (i - w - k) b else 0).
  { intros k. destruct (Nat.leb_spec (w + k) i); cbn [andb]; auto. apply nthZ_guard. }
  assert (V0 := V 0%nat). rewrite Nat.add_0_r, Nat.sub_0_r in V0. rewrite V0. clear V0.
  assert (V1 : (if (w + 1 <=? i)%nat && (i - w - 1 <? length b)%nat
              then Z.shiftr (nthZ (i - w - 1) b) (32 - Z.of_nat r) else 0) =
               Z.shiftr (if (w + 1 <=? i)%nat then nthZ (i - w - 1) b else 0) (32 - Z.of_nat r)).
  { rewrite <- (V 1%nat). destruct (_ && _); auto. now rewrite Z.shiftr_0_l. }
  rewrite V1. clear V V1.
  assert (T : forall k j, 0 <= j < 32 ->
     Z.testbit (if (w + k <=? i)%nat then nthZ (i - w - k) b else 0) j
     = (w + k <=? i)%nat && Z.testbit (vval b) (32 * (Z.of_nat i - Z.of_nat w - Z.of_nat k) + j)).
  { intros k j Hj. destruct (Nat.leb_spec (w + k) i); cbn [andb]; [|apply Z.bits_0].
    rewrite nth_testbit by (auto; lia). rewrite (proj2 (Z.ltb_lt j 32)) by lia. cbn [andb].
    f_equal. lia. }
  assert (T0 : forall j, 0 <= j < 32 -> Z.testbit (if (w <=? i)%nat then nthZ (i - w) b else 0) j
     = (w <=? i)%nat && Z.testbit (vval b) (32 * (Z.of_nat i - Z.of_nat w) + j)).
  { intros j Hj. specialize (T 0%nat j Hj). rewrite Nat.add_0_r, Nat.sub_0_r in T. rewrite T.
    f_equal. f_equal. lia. }
  assert (VW : 0 <= (if (w <=? i)%nat then nthZ (i - w) b else 0) < 2 ^ 32).
  { destruct (w <=? i)%nat; [|lia]. apply nthZ_range, Hb. }
  set (v := if (w <=? i)%nat then nthZ (i - w) b else 0) in *.
  assert (VW1 : 0 <= (if (w + 1 <=? i)%nat then nthZ (i - w - 1) b else 0) < 2 ^ 32).
  { destruct (w + 1 <=? i)%nat; [|lia]. apply nthZ_range, Hb. }
  specialize (T 1%nat).
  set (p := if (w + 1 <=? i)%nat then nthZ (i - w - 1) b else 0) in *.
  apply Z.bits_inj'. intros j Hj.
  destruct (Z_lt_ge_dec j 32) as [L|L].
  2:{ rewrite Z.mod_pow2_bits_high by lia.
      assert (H0 : forall x, 0 <= x < 2 ^ 32 -> Z.testbit x j = false).
      { intros x Hx. rewrite <- (Z.mod_small x (2 ^ 32)) by lia. apply Z.mod_pow2_bits_high; lia. }
      destruct (Nat.eqb_spec r 0); [now apply H0|].
      rewrite Z.lor_spec, H0 by apply u32_word.
      rewrite H0; auto. rewrite Z.shiftr_div_pow2 by lia.
      split; [apply Z.div_pos; lia|].
      apply Z.le_lt_trans with p; [|lia]. apply Z.div_le_upper_bound; nia. }
  rewrite Z.mod_pow2_bits_low by lia.
  rewrite <- Z.shiftr_div_pow2, <- Z.shiftl_mul_pow2 by lia.
  rewrite Z.shiftr_spec by lia.
  rewrite Z.shiftl_spec by lia.
  assert (NEG : forall k, k < 0 -> Z.testbit (vval b) k = false) by (intros; now apply Z.testbit_neg_r).
  destruct (Nat.eqb_spec r 0) as [R0|R0].
  - rewrite T0 by lia. destruct (Nat.leb_spec w i); cbn [andb].
    + f_equal. lia.
    + symmetry. apply NEG. lia.
  - rewrite Z.lor_spec. unfold u32. rewrite Z.mod_pow2_bits_low by lia.
    rewrite Z.shiftl_spec by lia. rewrite Z.shiftr_spec by lia.
    destruct (Z_lt_ge_dec j (Z.of_nat r)) as [J|J].
    + rewrite (Z.testbit_neg_r v) by lia. cbn [orb].
      rewrite T by lia. destruct (Nat.leb_spec (w + 1) i); cbn [andb].
      * f_equal. lia.
      * symmetry. apply NEG. lia.
    + rewrite T0 by lia.
      assert (P0 : Z.testbit p (j + (32 - Z.of_nat r)) = false).
      { rewrite <- (Z.mod_small p (2 ^ 32)) by lia. apply Z.mod_pow2_bits_high; lia. }
      rewrite P0, orb_false_r.
      destruct (Nat.leb_spec w i); cbn [andb].
      * f_equal. lia.
      * symmetry. apply NEG. lia.
Qed.

Lemma word_shifted_word b i s : words_ok b -> word_ok (vlong_word_shifted b i s).
Proof. intros Hb. rewrite word_shifted_spec by auto. apply Z.mod_pos_bound; lia. Qed.

Lemma cmpcode_step h1 h2 u v : 0 <= u < 2 ^ 32 -> 0 <= v < 2 ^ 32 ->
  cmpcode (2 ^ 32 * h1 + u) (2 ^ 32 * h2 + v) =
  if cmpcode h1 h2 =? 0 then cmpcode u v else cmpcode h1 h2.
Proof.
  intros Hu Hv. unfold cmpcode.
  destruct (Z.eqb_spec h1 h2) as [->|N].
  - cbn [Z.eqb]. destruct (Z.eqb_spec u v) as [->|]; [now rewrite Z.eqb_refl|].
    destruct (Z.eqb_spec (2 ^ 32 * h2 + u) (2 ^ 32 * h2 + v)); [lia|].
    destruct (Z.ltb_spec v u), (Z.ltb_spec (2 ^ 32 * h2 + v) (2 ^ 32 * h2 + u)); lia.
  - destruct (Z.eqb_spec (2 ^ 32 * h1 + u) (2 ^ 32 * h2 + v)); [lia|].
    destruct (Z.ltb_spec h2 h1), (Z.ltb_spec (2 ^ 32 * h2 + v) (2 ^ 32 * h1 + u)); cbn [Z.eqb]; lia.
Qed.

Lemma cmpcode_cases x y : cmpcode x y = 0 \/ cmpcode x y = 1 \/ cmpcode x y = 2.
Proof. unfold cmpcode. destruct (x =? y); auto. destruct (y <? x); auto. Qed.

Lemma div_step X t : 
  X / 2 ^ (32 * Z.of_nat t) = 2 ^ 32 * (X / 2 ^ (32 * Z.of_nat (S t))) + (X / 2 ^ (32 * Z.of_nat t)) mod 2 ^ 32.
Proof.
  rewrite (Z.div_mod (X / 2 ^ (32 * Z.of_nat t)) (2 ^ 32)) at 1 by lia.
  rewrite Z.div_div by (try lia; apply pow32_pos || (pose proof (pow32_pos t); lia)).
  now rewrite pow32_succ, (Z.mul_comm (2 ^ 32) (2 ^ (32 * _))).
Qed.

Lemma cmpv_loop_spec a b s t res : words_ok a -> words_ok b ->
  res = cmpcode (vval a / 2 ^ (32 * Z.of_nat t)) (vval b * 2 ^ Z.of_nat s / 2 ^ (32 * Z.of_nat t)) ->
  cmpv_loop a b s t res = cmpcode (vval a) (vval b * 2 ^ Z.of_nat s).
Proof.
  intros Ha Hb. revert res. induction t as [|t IH]; intros res Hres.
  - cbn [cmpv_loop]. rewrite Hres. cbn [Z.of_nat]. now rewrite Z.mul_0_r, Z.pow_0_r, !Z.div_1_r.
  - cbn [cmpv_loop]. apply IH.
    rewrite nthZ_guard.
    rewrite vlong_cmps_spec by (auto using nthZ_words, word_shifted_word).
    rewrite (div_step (vval a) t), (div_step (vval b * _) t).
    rewrite <- nthZ_vval, <- word_shifted_spec by auto.
    rewrite cmpcode_step by (apply nthZ_words || apply word_shifted_word; auto).
    rewrite <- Hres.
    destruct (cmpcode_cases (vval a / 2 ^ (32 * Z.of_nat (S t))) (vval b * 2 ^ Z.of_nat s / 2 ^ (32 * Z.of_nat (S t)))) as [E|[E|E]];
      rewrite E in Hres; subst res; cbn [Z.eqb];
      destruct (cmpcode_cases (nthZ t a) (vlong_word_shifted b t s)) as [E'|[E'|E']]; rewrite E'; reflexivity.
Qed.

Lemma vval_div_top a t : words_ok a -> (length a <= t)%nat -> vval a / 2 ^ (32 * Z.of_nat t) = 0.
Proof.
  intros Ha Ht. apply Z.div_small. pose proof (vval_bound a Ha).
  split; [lia|]. apply Z.lt_le_trans with (1 := proj2 H). apply Z.pow_le_mono_r; lia.
Qed.

Lemma vlong_cmpv_shifted_spec a b s : words_ok a -> words_ok b ->
  vlong_cmpv_shifted a b s = cmpcode (vval a) (vval b * 2 ^ Z.of_nat s).
Proof.
  intros Ha Hb. unfold vlong_cmpv_shifted. apply cmpv_loop_spec; auto.
  pose proof (Nat.div_mod (s + 31) 32 ltac:(lia)) as DM.
  pose proof (Nat.mod_upper_bound (s + 31) 32 ltac:(lia)) as MB.
  set (w := ((s + 31) / 32)%nat) in *.
  set (t := if (length b + w <? length a)%nat then length a else (length b + w)%nat).
  assert (T : (length a <= t /\ length b + w <= t)%nat).
  { unfold t. destruct (Nat.ltb_spec (length b + w) (length a)); lia. }
  rewrite vval_div_top by (auto; lia).
  rewrite Z.div_small; [reflexivity|].
  pose proof (vval_bound b Hb) as B.
  assert (0 < 2 ^ Z.of_nat s) by (apply Z.pow_pos_nonneg; lia).
  split; [nia|].
  apply Z.lt_le_trans with (2 ^ (32 * Z.of_nat (length b)) * 2 ^ Z.of_nat s).
  { apply Z.mul_lt_mono_pos_r; lia. }
  rewrite <- Z.pow_add_r by lia. apply Z.pow_le_mono_r; lia.
Qed.

(** "~(cmp >> 1) & 1" is 1 exactly when the comparison is not "less". *)
Lemma cmp_ge_bit x y : Z.land (Z.lnot (Z.shiftr (cmpcode x y) 1)) 1 = if y <=? x then 1 else 0.
Proof.
  unfold cmpcode. destruct (Z.eqb_spec x y) as [->|].
  - rewrite Z.leb_refl. reflexivity.
  - destruct (Z.ltb_spec y x), (Z.leb_spec y x); try lia; reflexivity.
Qed.

Lemma sub_shifted_val n a b s m : words_ok a -> words_ok b -> m = 0 \/ m = 1 ->
  vval (vlong_sub_shifted_masked n a b s m) = (vval a - m * (vval b * 2 ^ Z.of_nat s)) mod 2 ^ (32 * Z.of_nat n).
Proof.
  intros Ha Hb Hm. unfold vlong_sub_shifted_masked.
  assert (ML : forall j, Z.land (vlong_word_shifted b j s) (u32 (0 - m)) = m * vlong_word_shifted b j s).
  { intros j. pose proof (word_shifted_word b j s Hb) as W. unfold word_ok in W. destruct Hm as [->| ->].
    - change (u32 (0 - 0)) with 0. rewrite Z.land_0_r. lia.
    - change (u32 (0 - 1)) with (Z.ones 32). rewrite Z.land_ones by lia. rewrite Z.mod_small; lia. }
  rewrite add_kernel_val0 with (B := fun i => - (m * vlong_word_shifted b i s)); auto.
  - rewrite (vval_map_opp (fun i => m * vlong_word_shifted b i s)).
    assert (E : forall l, vval (map (fun i => m * vlong_word_shifted b i s) l) = m * vval (map (fun i => vlong_word_shifted b i s) l)).
    { induction l; cbn [map val_le]; [lia|]. rewrite IHl. ring. }
    rewrite E. rewrite (vval_map_seq n (vval b * 2 ^ Z.of_nat s)) by (intros; now apply word_shifted_spec).
    rewrite Z.add_opp_r. rewrite <- Zminus_mod_idemp_r, Zmult_mod_idemp_r, Zminus_mod_idemp_r. reflexivity.
  - intros j y. rewrite ML. now rewrite Z.add_opp_r.
  - intros j. pose proof (word_shifted_word b j s Hb) as W. unfold word_ok in W. destruct Hm as [->| ->]; lia.
Qed.
Lemma sub_shifted_length n a b s m : length (vlong_sub_shifted_masked n a b s m) = n.
Proof. apply add_kernel_length. Qed.
Lemma sub_shifted_words n a b s m : words_ok (vlong_sub_shifted_masked n a b s m).
Proof. apply add_kernel_words. Qed.

(** conditional subtraction step *)
Lemma cond_sub rem b s :
  words_ok rem -> words_ok b ->
  let cmp := Z.land (Z.lnot (Z.shiftr (vlong_cmpv_shifted rem b s) 1)) 1 in
  let rem' := vlong_sub_shifted_masked (length rem) rem b s cmp in
  words_ok rem' /\ length rem' = length rem /\
  cmp = (if vval b * 2 ^ Z.of_nat s <=? vval rem then 1 else 0) /\
  vval rem' = vval rem - cmp * (vval b * 2 ^ Z.of_nat s).
Proof.
  intros Hr Hb cmp rem'.
  assert (E : cmp = if vval b * 2 ^ Z.of_nat s <=? vval rem then 1 else 0).
  { unfold cmp. rewrite vlong_cmpv_shifted_spec, cmp_ge_bit; auto. }
  split; [apply sub_shifted_words|]. split; [apply sub_shifted_length|]. split; auto.
  unfold rem'. rewrite sub_shifted_val; auto.
  2:{ rewrite E. destruct (_ <=? _); auto. }
  apply Z.mod_small. pose proof (vval_bound rem Hr). pose proof (vval_bound b Hb).
  assert (0 < 2 ^ Z.of_nat s) by (apply Z.pow_pos_nonneg; lia).
  rewrite E. destruct (Z.leb_spec (vval b * 2 ^ Z.of_nat s) (vval rem)); nia.
Qed.

(** remainder *)
Lemma remv_loop_spec b i rem : words_ok b -> words_ok rem -> 0 < vval b ->
  vval rem < vval b * 2 ^ Z.of_nat i ->
  words_ok (remv_loop b i rem) /\ length (remv_loop b i rem) = length rem /\
  vval (remv_loop b i rem) = vval rem mod vval b.
Proof.
  intros Hb. revert rem. induction i as [|i IH]; intros rem Hr Hpos Hlt.
  - cbn [remv_loop]. cbn [Z.of_nat] in Hlt. rewrite Z.pow_0_r in Hlt. repeat split; auto.
    rewrite Z.mod_small; auto. pose proof (vval_bound rem Hr). lia.
  - cbn [remv_loop].
    pose proof (cond_sub rem b i Hr Hb) as C. cbv zeta in C.
    destruct C as (W & L & E & V).
    set (rem' := vlong_sub_shifted_masked _ _ _ _ _) in *.
    rewrite E in V.
    destruct (IH rem' W Hpos) as (W2 & L2 & V2).
    { rewrite V. rewrite Nat2Z.inj_succ, Z.pow_succ_r in Hlt by lia.
      destruct (Z.leb_spec (vval b * 2 ^ Z.of_nat i) (vval rem)); nia. }
    repeat split; auto; [lia|]. rewrite V2, V.
    destruct (Z.leb_spec (vval b * 2 ^ Z.of_nat i) (vval rem)).
    + replace (vval rem - 1 * (vval b * 2 ^ Z.of_nat i)) with (vval rem + (- 2 ^ Z.of_nat i) * vval b) by ring.
      now rewrite Z.mod_add by lia.
    + f_equal. lia.
Qed.

Lemma top_index_le b i : (top_index b i <= i)%nat.
Proof. induction i; cbn; [lia|]. destruct (nthZ i b =? 0); lia. Qed.

Lemma nth_le_vval b i : words_ok b -> nthZ i b * 2 ^ (32 * Z.of_nat i) <= vval b.
Proof.
  intros Hb. revert i. induction Hb as [|d t Hd Ht IH]; intros i.
  - unfold nthZ. rewrite nth_overflow by (cbn; lia). cbn. lia.
  - pose proof (vval_bound t Ht). unfold word_ok in Hd. destruct i as [|i]; unfold nthZ in *; cbn [nth val_le].
    + change (32 * Z.of_nat 0) with 0. rewrite Z.pow_0_r. lia.
    + rewrite pow32_succ. specialize (IH i). nia.
Qed.

Lemma top_index_val b i : words_ok b -> 
  (forall k, (i <= k)%nat -> nthZ k b = 0) -> 0 < vval b -> 2 ^ (32 * Z.of_nat (top_index b i)) <= vval b.
Proof.
  intros Hb. induction i as [|i IH]; intros Hz Hpos; cbn [top_index].
  - change (32 * Z.of_nat 0) with 0. rewrite Z.pow_0_r. lia.
  - destruct (Z.eqb_spec (nthZ i b) 0) as [E|E].
    + apply IH; auto. intros k Hk. destruct (Nat.eq_dec k i) as [->|]; auto. apply Hz; lia.
    + pose proof (nthZ_range b i Hb). pose proof (nth_le_vval b i Hb). pose proof (pow32_pos i). nia.
Qed.

Lemma vlong_remv_inplace_spec rem b : words_ok rem -> words_ok b -> (length b <= length rem)%nat -> 0 < vval b ->
  let r := vlong_remv_inplace rem b in
  snd r = true /\ words_ok (fst r) /\ length (fst r) = length rem /\ vval (fst r) = vval rem mod vval b.
Proof.
  intros Hr Hb HL Hpos. unfold vlong_remv_inplace.
  rewrite (proj2 (Nat.ltb_ge _ _) HL). cbv zeta. cbn [fst snd].
  split; auto. apply remv_loop_spec; auto.
  pose proof (vval_bound rem Hr) as B.
  assert (T : 2 ^ (32 * Z.of_nat (top_index b (length b))) <= vval b).
  { apply top_index_val; auto. intros k Hk. unfold nthZ. now apply nth_overflow. }
  pose proof (top_index_le b (length b)).
  set (t := top_index b (length b)) in *.
  apply Z.lt_le_trans with (1 := proj2 B).
  apply Z.le_trans with (2 ^ (32 * Z.of_nat t) * 2 ^ Z.of_nat ((1 + length rem - t) * 32)).
  - rewrite <- Z.pow_add_r by lia. apply Z.pow_le_mono_r; lia.
  - apply Z.mul_le_mono_nonneg_r; auto. apply Z.pow_nonneg; lia.
Qed.

Lemma remv_loop_zero b i rem : words_ok b -> words_ok rem -> vval b = 0 -> remv_loop b i rem = rem.
Proof.
  intros Hb. revert rem. induction i as [|i IH]; intros rem Hr H0; cbn [remv_loop]; auto.
  pose proof (cond_sub rem b i Hr Hb) as C. cbv zeta in C. destruct C as (W & L & E & V).
  set (rem' := vlong_sub_shifted_masked _ _ _ _ _) in *.
  rewrite IH by auto. apply (val_le_inj 32); auto; try lia.
Qed.

(** signed reduction *)
Definition sval (l : list Z) : Z :=
  if vval l <? 2 ^ (32 * Z.of_nat (length l) - 1) then vval l else vval l - 2 ^ (32 * Z.of_nat (length l)).

Lemma lor_fold_zero l z : words_ok l -> word_ok z ->
  word_ok (fold_left Z.lor l z) /\ (fold_left Z.lor l z = 0 <-> z = 0 /\ vval l = 0).
Proof.
  intros Hl. revert z. induction Hl as [|d t Hd Ht IH]; intros z Hz; cbn [fold_left val_le].
  - split; auto. tauto.
  - unfold word_ok in *.
    assert (W : 0 <= Z.lor z d < 2 ^ 32).
    { assert (0 <= Z.lor z d) by (apply Z.lor_nonneg; lia). split; auto.
      destruct (Z.eq_dec (Z.lor z d) 0) as [->|]; [lia|].
      apply Z.log2_lt_pow2; [lia|]. rewrite Z.log2_lor by lia. apply Z.max_lub_lt.
      - destruct (Z.eq_dec z 0) as [->|]; [cbn; lia|]. apply Z.log2_lt_pow2; lia.
      - destruct (Z.eq_dec d 0) as [->|]; [cbn; lia|]. apply Z.log2_lt_pow2; lia. }
    destruct (IH (Z.lor z d) W) as [W' E]. split; auto. rewrite E. rewrite Z.lor_eq_0_iff.
    pose proof (vval_bound t Ht). lia.
Qed.

Lemma vval_lnot l : words_ok l ->
  vval (map (fun w => Z.lxor w (2 ^ 32 - 1)) l) = 2 ^ (32 * Z.of_nat (length l)) - 1 - vval l
  /\ words_ok (map (fun w => Z.lxor w (2 ^ 32 - 1)) l).
Proof.
  intros Hl. induction Hl as [|d t Hd Ht [IH1 IH2]]; cbn [map val_le length].
  - split; [reflexivity|constructor].
  - assert (E : Z.lxor d (2 ^ 32 - 1) = 2 ^ 32 - 1 - d).
    { unfold word_ok in Hd. change (2 ^ 32 - 1) with (Z.ones 32).
      assert (X : Z.lxor d (Z.ones 32) = Z.land (Z.lnot d) (Z.ones 32)).
      { apply Z.bits_inj'. intros n Hn. rewrite Z.lxor_spec, Z.land_spec, Z.lnot_spec by lia.
        rewrite Z.testbit_ones_nonneg by lia.
        destruct (Z.ltb_spec n 32); [now rewrite xorb_true_r, andb_true_r|].
        rewrite xorb_false_r, andb_false_r.
        rewrite <- (Z.mod_small d (2 ^ 32)) by lia. apply Z.mod_pow2_bits_high; lia. }
      rewrite X, Z.land_ones by lia.
      replace (Z.lnot d) with (- d - 1) by (unfold Z.lnot; lia).
      change (Z.ones 32) with (2 ^ 32 - 1).
      symmetry. apply Z.mod_unique_pos with (q := -1); lia. }
    rewrite E, IH1, pow32_succ. split; [ring|].
    constructor; auto. unfold word_ok in *. lia.
Qed.

Lemma lxor_0_map l : map (fun w => Z.lxor w 0) l = l.
Proof. induction l; cbn [map]; auto. now rewrite Z.lxor_0_r, IHl. Qed.

Lemma top_bit_spec l : words_ok l -> l <> [] ->
  u32 (- Z.land (Z.shiftr (nthZ (length l - 1) l) 31) 1) =
  if vval l <? 2 ^ (32 * Z.of_nat (length l) - 1) then 0 else 2 ^ 32 - 1.
Proof.
  intros Hl Hne.
  assert (L : (0 < length l)%nat) by (destruct l; [congruence|cbn; lia]).
  set (k := (length l - 1)%nat).
  assert (Top : nthZ k l = vval l / 2 ^ (32 * Z.of_nat k)).
  { rewrite (nthZ_vval l k Hl). apply Z.mod_small. pose proof (vval_bound l Hl) as B.
    split; [apply Z.div_pos; [lia|apply pow32_pos]|].
    apply Z.div_lt_upper_bound; [apply pow32_pos|].
    replace (length l) with (S k) in B by lia. rewrite pow32_succ in B. lia. }
  pose proof (nthZ_range l k Hl) as W.
  rewrite Z.shiftr_div_pow2 by lia.
  replace (32 * Z.of_nat (length l) - 1) with (31 + 32 * Z.of_nat k) by lia.
  rewrite Z.pow_add_r by lia.
  assert (D : nthZ k l / 2 ^ 31 = if vval l <? 2 ^ 31 * 2 ^ (32 * Z.of_nat k) then 0 else 1).
  { destruct (Z.ltb_spec (vval l) (2 ^ 31 * 2 ^ (32 * Z.of_nat k))) as [H|H].
    - apply Z.div_small. split; [lia|]. rewrite Top.
      apply Z.div_lt_upper_bound; [apply pow32_pos|lia].
    - symmetry. apply Z.div_unique with (r := nthZ k l - 2 ^ 31); [|lia]. left.
      assert (2 ^ 31 <= nthZ k l); [|lia]. rewrite Top.
      apply Z.div_le_lower_bound; [apply pow32_pos|lia]. }
  rewrite D. destruct (_ <? _); reflexivity.
Qed.

Lemma land_ones32 x : word_ok x -> Z.land (2 ^ 32 - 1) x = x.
Proof.
  intros H. unfold word_ok in H. rewrite Z.land_comm. change (2 ^ 32 - 1) with (Z.ones 32).
  rewrite Z.land_ones by lia. apply Z.mod_small; lia.
Qed.

Lemma sval_bound l : words_ok l -> l <> [] ->
  - 2 ^ (32 * Z.of_nat (length l) - 1) <= sval l < 2 ^ (32 * Z.of_nat (length l) - 1).
Proof.
  intros Hl Hne. unfold sval. pose proof (vval_bound l Hl) as B.
  assert (L : (0 < length l)%nat) by (destruct l; [congruence|cbn; lia]).
  replace (2 ^ (32 * Z.of_nat (length l))) with (2 * 2 ^ (32 * Z.of_nat (length l) - 1)) in *
    by (rewrite <- Z.pow_succ_r by lia; f_equal; lia).
  destruct (Z.ltb_spec (vval l) (2 ^ (32 * Z.of_nat (length l) - 1))); lia.
Qed.

Lemma vlong_imod_inplace_spec rem b :
  words_ok rem -> words_ok b -> rem <> [] -> (length b <= length rem)%nat -> 0 < vval b ->
  let r := vlong_imod_inplace rem b in
  words_ok r /\ length r = length rem /\ vval r = sval rem mod vval b.
Proof.
  intros Hr Hb Hne HL Hpos. unfold vlong_imod_inplace.
  rewrite top_bit_spec by auto.
  pose proof (vval_bound rem Hr) as B. pose proof (vval_bound b Hb) as Bb.
  assert (Bn : vval b < 2 ^ (32 * Z.of_nat (length rem))).
  { apply Z.lt_le_trans with (1 := proj2 Bb). apply Z.pow_le_mono_r; lia. }
  cbv zeta.
  destruct (Z.ltb_spec (vval rem) (2 ^ (32 * Z.of_nat (length rem) - 1))) as [NN|NN].
  - (* non-negative *)
    rewrite lxor_0_map. change (Z.land 0 1) with 0.
    assert (A : vlong_adds (length rem) rem 0 0 = rem).
    { apply (val_le_inj 32); try lia; auto. apply vlong_adds_words. apply vlong_adds_length.
      rewrite vlong_adds_val by (auto; lia). rewrite Z.mul_0_l, Z.add_0_r. apply Z.mod_small; lia. }
    rewrite A. destruct (vlong_remv_inplace_spec rem b Hr Hb HL Hpos) as (_ & W & L & V).
    set (q := fst (vlong_remv_inplace rem b)) in *.
    rewrite Z.land_0_l. change (u32 (Z.lnot 0)) with (2 ^ 32 - 1).
    split; [apply add_kernel_words|]. split; [rewrite add_kernel_length; auto|].
    rewrite add_kernel_val0 with (B := fun i => nthZ i q).
    + cbn [val_le]. rewrite Z.add_0_l, vval_nth_seq, Z.mod_mod by (auto; pose proof (pow32_pos (length q)); lia).
      rewrite Z.mod_small; [rewrite V|].
      * unfold sval. now rewrite (proj2 (Z.ltb_lt _ _) NN).
      * rewrite L, V. pose proof (Z.mod_pos_bound (vval rem) (vval b) Hpos). lia.
    + constructor.
    + intros j y. rewrite nthZ_guard, Z.land_0_l, Z.land_0_l, Z.lor_0_r, Z.sub_0_r.
      rewrite land_ones32 by now apply nthZ_words. unfold u64. now rewrite Z.mod_mod by lia.
    + intros j. pose proof (nthZ_range q j W). lia.
  - (* negative *)
    change (Z.land (2 ^ 32 - 1) 1) with 1.
    destruct (vval_lnot rem Hr) as [VN WN]. rewrite map_length.
    set (nr := map (fun w => Z.lxor w (2 ^ 32 - 1)) rem) in *.
    assert (LN : length nr = length rem) by (unfold nr; apply map_length).
    assert (P1 : 0 < 2 ^ (32 * Z.of_nat (length rem) - 1)).
    { apply Z.pow_pos_nonneg; [lia|]. destruct rem; [congruence|]. cbn [length]. lia. }
    assert (VM : vval (vlong_adds (length rem) nr 1 0) = 2 ^ (32 * Z.of_nat (length rem)) - vval rem).
    { rewrite vlong_adds_val by (auto; lia). change (32 * Z.of_nat 0) with 0. rewrite Z.pow_0_r, VN.
      rewrite Z.mod_small; lia. }
    set (m := vlong_adds (length rem) nr 1 0) in *.
    assert (Wm : words_ok m) by apply vlong_adds_words.
    assert (Lm : length m = length rem) by apply vlong_adds_length.
    destruct (vlong_remv_inplace_spec m b Wm Hb ltac:(lia) Hpos) as (_ & W & L & V).
    set (q := fst (vlong_remv_inplace m b)) in *.
    destruct (lor_fold_zero q 0 W ltac:(unfold word_ok; lia)) as [WZ EZ].
    rewrite nz_mask_spec by auto.
    assert (SV : sval rem = - vval m).
    { unfold sval. destruct (Z.ltb_spec (vval rem) (2 ^ (32 * Z.of_nat (length rem) - 1))); lia. }
    pose proof (Z.mod_pos_bound (vval m) (vval b) Hpos) as MB.
    destruct (Z.eqb_spec (fold_left Z.lor q 0) 0) as [Z0|NZ].
    + (* remainder zero *)
      assert (Q0 : vval q = 0) by tauto.
      change (Z.land (2 ^ 32 - 1) 0) with 0. change (u32 (Z.lnot 0)) with (2 ^ 32 - 1).
      split; [apply add_kernel_words|]. split; [rewrite add_kernel_length; lia|].
      rewrite add_kernel_val0 with (B := fun i => nthZ i q).
      * cbn [val_le]. rewrite Z.add_0_l, vval_nth_seq, Z.mod_mod by (auto; pose proof (pow32_pos (length q)); lia).
        rewrite Q0, Z.mod_0_l by (pose proof (pow32_pos (length q)); lia).
        rewrite SV. symmetry. apply Z.mod_opp_l_z; lia.
      * constructor.
      * intros j y. rewrite nthZ_guard, Z.land_0_l, Z.land_0_l, Z.lor_0_r, Z.sub_0_r.
        rewrite land_ones32 by now apply nthZ_words. unfold u64. now rewrite Z.mod_mod by lia.
      * intros j. pose proof (nthZ_range q j W). lia.
    + change (Z.land (2 ^ 32 - 1) (2 ^ 32 - 1)) with (2 ^ 32 - 1).
      change (u32 (Z.lnot (2 ^ 32 - 1))) with 0.
      assert (Q1 : vval q <> 0) by tauto.
      split; [apply add_kernel_words|]. split; [rewrite add_kernel_length; lia|].
      rewrite add_kernel_val0 with (B := fun i => nthZ i b + - nthZ i q).
      * cbn [val_le].
        rewrite vval_map_add, (vval_map_opp (fun i => nthZ i q)), !vval_nth_seq by auto.
        rewrite L, Lm, (Z.mod_small (vval b)), (Z.mod_small (vval q)) by lia.
        rewrite Z.mod_small by lia. rewrite SV, V.
        rewrite Z.mod_opp_l_nz by lia. lia.
      * constructor.
      * intros j y. rewrite !nthZ_guard, Z.land_0_l, Z.lor_0_l.
        rewrite !land_ones32 by now apply nthZ_words.
        unfold u64. rewrite Zminus_mod_idemp_l. f_equal. lia.
      * intros j. pose proof (nthZ_range q j W). pose proof (nthZ_range b j Hb). lia.
Qed.
