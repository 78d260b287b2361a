(** The code of MillerRabin.c decides the strong probable-prime test. *)
From Coq Require Import Znumtheory.
From Verif Require Import Base Vlong VlongLemmas VlongDivLemmas VlongMulLemmas DerLemmas NumTheory NumLemmas Rsa RsaSpec Fermat RsaGenLemmas
  MillerRabin MillerRabinSpec.

Lemma ge_loop_spec a b s t : words_ok a -> words_ok b ->
  vval a / 2 ^ (32 * Z.of_nat t) = vval b * 2 ^ Z.of_nat s / 2 ^ (32 * Z.of_nat t) ->
  ge_loop a b s t = (vval b * 2 ^ Z.of_nat s <=? vval a).
Proof.
  intros Ha Hb. induction t as [|t IH]; intros E.
  - cbn [Z.of_nat] in E. rewrite Z.mul_0_r, Z.pow_0_r, !Z.div_1_r in E. cbn. rewrite E. symmetry. apply Z.leb_refl.
  - cbn [ge_loop]. rewrite nthZ_guard. cbv zeta.
    pose proof (div_step (vval a) t) as D1. pose proof (div_step (vval b * 2 ^ Z.of_nat s) t) as D2.
    rewrite <- nthZ_vval in D1 by auto. rewrite <- word_shifted_spec in D2 by auto. rewrite E in D1.
    pose proof (pow32_pos t) as P.
    destruct (Z.ltb_spec (vlong_word_shifted b t s) (nthZ t a)) as [H1|H1].
    + symmetry. apply Z.leb_le. apply Z.lt_le_incl. destruct (Z.lt_ge_cases (vval b * 2 ^ Z.of_nat s) (vval a)) as [|H2]; auto.
      apply (Z.div_le_mono _ _ (2 ^ (32 * Z.of_nat t)) P) in H2. lia.
    + destruct (Z.ltb_spec (nthZ t a) (vlong_word_shifted b t s)) as [H2|H2].
      * symmetry. apply Z.leb_gt. destruct (Z.lt_ge_cases (vval a) (vval b * 2 ^ Z.of_nat s)) as [|H3]; auto.
        apply (Z.div_le_mono _ _ (2 ^ (32 * Z.of_nat t)) P) in H3. lia.
      * apply IH. lia.
Qed.

Lemma ge_shifted_spec a b s : words_ok a -> words_ok b ->
  vlong_ge_shifted a b s = (vval b * 2 ^ Z.of_nat s <=? vval a).
Proof.
  intros Ha Hb. unfold vlong_ge_shifted. apply ge_loop_spec; auto.
  pose proof (Nat.div_mod (s + 31) 32 ltac:(lia)) as DM.
  pose proof (Nat.mod_upper_bound (s + 31) 32 ltac:(lia)) as MB.
  set (w := ((s + 31) / 32)%nat) in *.
  set (t := if (length b + w <? length a)%nat then length a else (length b + w)%nat).
  assert (T : (length a <= t /\ length b + w <= t)%nat).
  { unfold t. destruct (Nat.ltb_spec (length b + w) (length a)); lia. }
  rewrite vval_div_top by (auto; lia).
  rewrite Z.div_small; [reflexivity|].
  pose proof (vval_bound b Hb) as B.
  assert (0 < 2 ^ Z.of_nat s) by (apply Z.pow_pos_nonneg; lia).
  split; [nia|].
  apply Z.lt_le_trans with (2 ^ (32 * Z.of_nat (length b)) * 2 ^ Z.of_nat s).
  { apply Z.mul_lt_mono_pos_r; lia. }
  rewrite <- Z.pow_add_r by lia. apply Z.pow_le_mono_r; lia.
Qed.

Lemma add_kernel_ext f g a n : (forall i y, f i y = g i y) -> forall i x, add_kernel f a i n x = add_kernel g a i n x.
Proof. intros H. induction n as [|n IH]; intros i x; [reflexivity|]. cbn [add_kernel]. cbv zeta. rewrite H, IH. reflexivity. Qed.

Lemma sub_shifted_eq n a b s : words_ok b -> vlong_sub_shifted n a b s = vlong_sub_shifted_masked n a b s 1.
Proof.
  intros Hb. apply add_kernel_ext. intros i y.
  change (u32 (0 - 1)) with (Z.ones 32). rewrite Z.land_ones, Z.mod_small; [reflexivity|apply (word_shifted_word b i s Hb)|lia].
Qed.

Lemma remv_fast_loop_spec b i rem : words_ok b -> words_ok rem -> 0 < vval b ->
  vval rem < vval b * 2 ^ Z.of_nat i ->
  words_ok (remv_fast_loop b i rem) /\ length (remv_fast_loop b i rem) = length rem /\
  vval (remv_fast_loop b i rem) = vval rem mod vval b.
Proof.
  intros Hb. revert rem. induction i as [|i IH]; intros rem Hr Hpos Hlt.
  - cbn [remv_fast_loop]. cbn [Z.of_nat] in Hlt. rewrite Z.pow_0_r in Hlt. split; [auto|]. split; [auto|].
    rewrite Z.mod_small; auto. pose proof (vval_bound rem Hr). lia.
  - cbn [remv_fast_loop]. rewrite ge_shifted_spec by auto.
    rewrite Nat2Z.inj_succ, Z.pow_succ_r in Hlt by lia.
    assert (0 < 2 ^ Z.of_nat i) by (apply Z.pow_pos_nonneg; lia).
    pose proof (vval_bound rem Hr).
    destruct (Z.leb_spec (vval b * 2 ^ Z.of_nat i) (vval rem)) as [H1|H1].
    + rewrite sub_shifted_eq by auto. set (rem' := vlong_sub_shifted_masked _ _ _ _ _).
      assert (W : words_ok rem') by apply sub_shifted_words. assert (L : length rem' = length rem) by apply sub_shifted_length.
      assert (V : vval rem' = vval rem - vval b * 2 ^ Z.of_nat i).
      { unfold rem'. rewrite sub_shifted_val by auto. rewrite Z.mul_1_l. apply Z.mod_small. nia. }
      destruct (IH rem' W Hpos) as (W2 & L2 & V2); [lia|].
      split; [auto|]. split; [lia|]. rewrite V2, V.
      replace (vval rem - vval b * 2 ^ Z.of_nat i) with (vval rem + (- 2 ^ Z.of_nat i) * vval b) by ring.
      apply Z.mod_add. lia.
    + apply IH; auto.
Qed.

Lemma lead_zeros_le b t : (lead_zeros b t <= t)%nat.
Proof. induction t; cbn; [lia|]. destruct (nthZ t b =? 0); lia. Qed.

Lemma lead_zeros_val b t : words_ok b -> (forall k, (t <= k)%nat -> nthZ k b = 0) ->
  vval b < 2 ^ (32 * Z.of_nat (t - lead_zeros b t)) /\
  (0 < vval b -> (lead_zeros b t < t)%nat /\ 2 ^ (32 * Z.of_nat (t - lead_zeros b t - 1)) <= vval b).
Proof.
  intros Hb. induction t as [|t IH]; intros Hz.
  - assert (V : vval b = 0).
    { clear -Hb Hz. assert (G : forall l, words_ok l -> (forall k, nthZ k l = 0) -> vval l = 0).
      { induction 1 as [|x l _ _ IH]; intros Hk; [reflexivity|]. cbn [val_le]. pose proof (Hk 0%nat) as H0. unfold nthZ in H0. cbn in H0.
        rewrite H0, IH; [lia|]. intros k. apply (Hk (S k)). }
      apply G; auto. intros; apply Hz; lia. }
    cbn. rewrite V. split; [lia|]. lia.
  - cbn [lead_zeros]. destruct (Z.eqb_spec (nthZ t b) 0) as [E|E].
    + destruct IH as (A & B). { intros k Hk. destruct (Nat.eq_dec k t) as [->|]; auto. apply Hz; lia. }
      pose proof (lead_zeros_le b t). replace (S t - S (lead_zeros b t))%nat with (t - lead_zeros b t)%nat by lia.
      split; [auto|]. intros P. destruct (B P). split; [lia|auto].
    + replace (S t - 0)%nat with (S t) by lia. replace (S t - 1)%nat with t by lia. split.
      * assert (T : vval b / 2 ^ (32 * Z.of_nat (S t)) = 0).
        { apply Z.bits_inj'. intros i Hi. rewrite Z.bits_0, <- Z.shiftr_div_pow2, Z.shiftr_spec by lia.
          pose proof (Z.div_mod (i + 32 * Z.of_nat (S t)) 32 ltac:(lia)) as DM.
          pose proof (Z.mod_pos_bound (i + 32 * Z.of_nat (S t)) 32 ltac:(lia)) as MB.
          set (q := (i + 32 * Z.of_nat (S t)) / 32) in *. set (r := (i + 32 * Z.of_nat (S t)) mod 32) in *.
          assert (Q : Z.of_nat (S t) <= q) by lia.
          pose proof (nth_testbit b (Z.to_nat q) r Hb ltac:(lia)) as N. rewrite (Hz (Z.to_nat q)) in N by lia.
          rewrite Z.bits_0, (proj2 (Z.ltb_lt r 32)) in N by lia. cbn [andb] in N. rewrite N. f_equal. lia. }
        pose proof (pow32_pos (S t)). pose proof (vval_bound b Hb).
        apply Z.div_small_iff in T; [|lia]. lia.
      * intros _. split; [lia|]. pose proof (nthZ_range b t Hb). pose proof (nth_le_vval b t Hb). pose proof (pow32_pos t). nia.
Qed.

Lemma remv_fast_spec w v : words_ok w -> words_ok v -> length v = length w -> 0 < vval w ->
  exists v', vlong_remv_inplace_fast w v = (v', true) /\ words_ok v' /\ length v' = length v /\
             vval v' = vval v mod vval w.
Proof.
  intros Ww Wv L P. unfold vlong_remv_inplace_fast. rewrite L, Nat.ltb_irrefl. cbv zeta.
  destruct (lead_zeros_val w (length w) Ww) as (_ & A). { intros k Hk. unfold nthZ. apply nth_overflow; auto. }
  destruct (A P) as (Lz & Aw). clear A.
  destruct (lead_zeros_val v (length v) Wv) as (Bv & _). { intros k Hk. unfold nthZ. apply nth_overflow; auto. }
  rewrite L in Bv. pose proof (lead_zeros_le v (length w)) as Lv.
  set (zb := lead_zeros w (length w)) in *. set (zr := lead_zeros v (length w)) in *. clearbody zb zr.
  pose proof (vval_bound v Wv) as Pv.
  rewrite (proj2 (Nat.ltb_ge (length w) (zb - zr))) by lia. rewrite Bool.orb_false_r.
  destruct (Nat.ltb_spec zb zr) as [H|H].
  - exists v. split; [reflexivity|]. split; [auto|]. split; [auto|]. symmetry. apply Z.mod_small. split; [lia|].
    apply Z.lt_le_trans with (1 := Bv). apply Z.le_trans with (2 := Aw). apply Z.pow_le_mono_r; lia.
  - destruct (remv_fast_loop_spec w ((zb - zr + 1) * 32) v Ww Wv P) as (W' & L' & V').
    + apply Z.lt_le_trans with (1 := Bv).
      apply Z.le_trans with (2 ^ (32 * Z.of_nat (length w - zb - 1)) * 2 ^ Z.of_nat ((zb - zr + 1) * 32)).
      * rewrite <- Z.pow_add_r by lia. apply Z.pow_le_mono_r; lia.
      * apply Z.mul_le_mono_nonneg_r; [apply Z.pow_nonneg; lia|auto].
    + eexists. split; [reflexivity|]. split; [exact W'|]. split; [congruence|exact V'].
Qed.

Lemma pow_step M x e e' k t t' : 0 < M -> t' mod M = (t * x ^ k) mod M -> e = 2 * e' + k -> 0 <= e' -> 0 <= k ->
  (t' * ((x * x) mod M) ^ e') mod M = (t * x ^ e) mod M.
Proof.
  intros HM Ht He He' Hk. rewrite Z.mul_mod, pow_mod by lia. rewrite Ht, <- Z.mul_mod by lia. f_equal.
  rewrite He, Z.pow_add_r, Z.pow_mul_r, Z.pow_2_r by lia. ring.
Qed.

Lemma pow_one_up M b m j i : 1 < M -> 0 <= m -> 0 <= j <= i -> b ^ (m * 2 ^ j) mod M = 1 -> b ^ (m * 2 ^ i) mod M = 1.
Proof.
  intros HM Hm Hj E. replace i with (j + (i - j)) by lia.
  assert (P1 : 0 <= 2 ^ j) by (apply Z.pow_nonneg; lia). assert (P2 : 0 <= 2 ^ (i - j)) by (apply Z.pow_nonneg; lia).
  assert (P3 : 0 <= m * 2 ^ j) by (apply Z.mul_nonneg_nonneg; auto).
  rewrite Z.pow_add_r, Z.mul_assoc, Z.pow_mul_r by lia. rewrite <- pow_mod, E, Z.pow_1_l by lia. apply Z.mod_small. lia.
Qed.

  Lemma sq_pow b m j : 0 <= m -> 0 <= j -> b ^ (m * 2 ^ (j + 1)) = b ^ (m * 2 ^ j) * b ^ (m * 2 ^ j).
  Proof.
    intros Hm Hj. assert (0 <= 2 ^ j) by (apply Z.pow_nonneg; lia).
    rewrite <- Z.pow_add_r by nia. f_equal. rewrite Z.pow_add_r by lia. change (2 ^ 1) with 2. ring.
  Qed.

(** one odd modulus w > 2 with a spare word *)
Section MR.
  Variable w : list Z.
  Hypothesis Ww : words_ok w.
  Hypothesis Hw : 2 < vval w.
  Hypothesis Hspare : vval w * 2 ^ 32 <= 2 ^ (32 * Z.of_nat (length w)).
  Let n := length w.
  Let W := vval w.

  Lemma n_ge2 : (2 <= n)%nat.
  Proof.
    assert (G : ~ (n <= 1)%nat); [|lia]. intros H. assert (2 ^ (32 * Z.of_nat n) <= 2 ^ 32) by (apply Z.pow_le_mono_r; lia).
    fold n in Hspare. lia.
  Qed.

  (** numbers the test multiplies: n words, below 2^(32(n-1)) *)
  Definition small (x : list Z) : Prop := words_ok x /\ length x = n /\ vval x < 2 ^ (32 * (Z.of_nat n - 1)).

  Lemma spare' : W <= 2 ^ (32 * (Z.of_nat n - 1)).
  Proof.
    pose proof n_ge2. unfold W. replace (32 * Z.of_nat (length w)) with (32 * (Z.of_nat n - 1) + 32) in Hspare by (unfold n; lia).
    rewrite Z.pow_add_r in Hspare by lia. lia.
  Qed.

  Lemma mr_mul_spec x y : small x -> words_ok y -> length y = n ->
    words_ok (mr_mul w x y) /\ length (mr_mul w x y) = n /\ vval (mr_mul w x y) = (vval x * vval y) mod W.
  Proof.
    intros (Wx & Lx & Bx) Wy Ly. pose proof n_ge2. pose proof spare'. unfold mr_mul.
    set (K := 2 ^ (32 * (Z.of_nat n - 1)) - 1).
    assert (HK : K * 2 ^ 32 < 2 ^ (32 * Z.of_nat n)).
    { replace (32 * Z.of_nat n) with (32 * (Z.of_nat n - 1) + 32) by lia. rewrite Z.pow_add_r by lia. unfold K. lia. }
    destruct (mulv_spec n x y 1 W (Some (vlong_remv_inplace_fast w)) (fun v => vval v <= K) (fun v => 0 <= vval v < W))
      as (r & E & Wr & Lr & _ & Pr & Vr); auto.
    - intros v Wv Lv. destruct (remv_fast_spec w v Ww Wv Lv ltac:(lia)) as (v' & E & W' & L' & V').
      exists v'. split; [exact E|]. split; [auto|]. split; [congruence|]. rewrite V'. unfold W.
      pose proof (Z.mod_pos_bound (vval v) (vval w) ltac:(lia)). split; [apply Z.mod_mod; lia|].
      split; [unfold K, W in *; lia|lia].
    - intros o bv Wo Lo Io Wb. rewrite (muls_nowrap n o x bv K); auto. unfold K. lia.
    - intros o Wo Lo Io. rewrite (mulx_nowrap n o K); auto.
    - lia.
    - rewrite val_le_zeros. unfold K. assert (0 < 2 ^ (32 * (Z.of_nat n - 1))) by (apply Z.pow_pos_nonneg; lia). lia.
    - fold n. rewrite E. cbn [fst]. split; [auto|]. split; [auto|]. change (1 =? 1) with true in Vr. cbv iota in Vr.
      rewrite <- Vr. symmetry. apply Z.mod_small. auto.
  Qed.

  Lemma mod_small_n x : words_ok x -> length x = n -> 0 <= vval x < W -> small x.
  Proof. intros A B C. split; [auto|]. split; [auto|]. pose proof spare'. lia. Qed.

  Lemma bitw i : Z.land (Z.shiftr (nthZ (i / 32) w) (Z.of_nat (i mod 32))) 1 = (W / 2 ^ Z.of_nat i) mod 2.
  Proof. rewrite land1_mod. apply bit_of_words. auto. Qed.

  (** the power loop *)
  Lemma mr_pow_spec k : forall i tmp tmp1, (0 < k)%nat -> small tmp1 -> small tmp ->
    (k + i = n * 32)%nat -> 0 <= vval tmp < W ->
    let z := mr_pow w k i tmp tmp1 in
    words_ok z /\ length z = n /\ 0 <= vval z < W /\
    vval z mod W = (vval tmp * vval tmp1 ^ (W / 2 ^ Z.of_nat i)) mod W.
  Proof.
    induction k as [|k IH]; intros i tmp tmp1 Hk S1 S0 Hi B; [lia|]. cbv zeta. cbn [mr_pow]. rewrite bitw.
    assert (PI : 0 < 2 ^ Z.of_nat i) by (apply Z.pow_pos_nonneg; lia).
    assert (Hdiv : W / 2 ^ Z.of_nat i = 2 * (W / 2 ^ Z.of_nat (S i)) + (W / 2 ^ Z.of_nat i) mod 2).
    { rewrite Nat2Z.inj_succ, Z.pow_succ_r by lia. rewrite (Z.mul_comm 2 (2 ^ _)), <- Z.div_div by lia. apply Z.div_mod. lia. }
    pose proof (Z.mod_pos_bound (W / 2 ^ Z.of_nat i) 2 ltac:(lia)) as MB.
    assert (NN : 0 <= W / 2 ^ Z.of_nat (S i)) by (apply Z.div_pos; [lia|apply Z.pow_pos_nonneg; lia]).
    set (e := W / 2 ^ Z.of_nat i) in *. set (e' := W / 2 ^ Z.of_nat (S i)) in *.
    set (mask := e mod 2) in *.
    set (tmp' := if mask =? 1 then mr_mul w tmp tmp1 else tmp).
    assert (T : words_ok tmp' /\ length tmp' = n /\ 0 <= vval tmp' < W /\ vval tmp' mod W = (vval tmp * vval tmp1 ^ mask) mod W).
    { unfold tmp'. destruct (Z.eqb_spec mask 1) as [E|E].
      - destruct (mr_mul_spec tmp tmp1 S0) as (A1 & A2 & A3); try apply S1.
        rewrite A3, E, Z.pow_1_r. split; [auto|]. split; [auto|]. split; [apply Z.mod_pos_bound; lia|]. apply Z.mod_mod. lia.
      - assert (mask = 0) as -> by lia. rewrite Z.pow_0_r, Z.mul_1_r. destruct S0 as (? & ? & _). auto. }
    destruct T as (T1 & T2 & T3 & T4). clearbody tmp'.
    destruct k as [|k].
    - assert (E0 : e' = 0).
      { unfold e'. apply Z.div_small. split; [lia|]. replace (S i) with (n * 32)%nat by lia.
        pose proof (vval_bound w Ww). unfold W, n. replace (Z.of_nat (length w * 32)) with (32 * Z.of_nat (length w)) by lia. lia. }
      split; [auto|]. split; [auto|]. split; [auto|]. rewrite T4. rewrite Hdiv, E0, Z.mul_0_r, Z.add_0_l. reflexivity.
    - destruct (mr_mul_spec tmp1 tmp1 S1) as (A1 & A2 & A3); try apply S1.
      destruct (IH (S i) tmp' (mr_mul w tmp1 tmp1)) as (R1 & R2 & R3 & R4); [clear; lia| | |clear -Hi; lia|exact T3|].
      { apply mod_small_n; [exact A1|exact A2|]. rewrite A3. apply Z.mod_pos_bound. clear -Hw; lia. }
      { apply mod_small_n; [exact T1|exact T2|exact T3]. }
      split; [auto|]. split; [auto|]. split; [auto|]. rewrite R4, A3. fold e'.
      apply pow_step with mask; [clear -Hw; lia|exact T4|exact Hdiv|exact NN|apply MB].
  Qed.

  Lemma small_one : small (upd 0 1 (repeat 0 n)) /\ vval (upd 0 1 (repeat 0 n)) = 1.
  Proof.
    pose proof n_ge2 as N2. pose proof spare'. assert (V : vval (upd 0 1 (repeat 0 n)) = 1).
    { destruct n; [lia|]. cbn [repeat upd val_le]. rewrite val_le_zeros. lia. }
    split; [|auto]. split; [apply upd_words; [apply repeat_words|unfold word_ok; lia]|].
    split; [rewrite upd_length, repeat_length; auto|]. rewrite V. lia.
  Qed.

  Lemma is_minus1_spec z : words_ok z -> length z = n -> 0 <= vval z < W -> is_minus1 w z = (vval z =? W - 1).
  Proof.
    intros Wz Lz B. unfold is_minus1. fold n.
    assert (V : vval (vlong_adds n z 1 0) = vval z + 1).
    { rewrite vlong_adds_val by (auto; lia). change (32 * Z.of_nat 0) with 0. rewrite Z.mul_1_r. apply Z.mod_small.
      pose proof (vval_bound w Ww). fold n in H. fold W in H. lia. }
    destruct (Z.eqb_spec (vval z) (W - 1)) as [E|E].
    - assert (vlong_adds n z 1 0 = w) as ->.
      { apply (val_le_inj 32); [lia|apply vlong_adds_words|exact Ww|apply vlong_adds_length|]. rewrite V. fold W. clear -E; lia. }
      apply forallb_forall. intros i _. apply Z.eqb_refl.
    - destruct (forallb _ _) eqn:F; [|reflexivity]. exfalso. apply E. rewrite forallb_forall in F.
      assert (vlong_adds n z 1 0 = w).
      { apply nth_ext with 0 0; [apply vlong_adds_length|]. intros i Hi. rewrite vlong_adds_length in Hi.
        specialize (F i). rewrite in_seq in F. apply Z.eqb_eq. apply F. lia. }
      rewrite H in V. fold W in V. lia.
  Qed.


  Lemma mr_square_spec b m : 0 < m -> forall k j z, 0 <= j -> words_ok z -> length z = n -> 0 <= vval z < W ->
    vval z = b ^ (m * 2 ^ j) mod W -> vval z <> 1 ->
    (mr_square w k z = true <-> exists i, j + 1 <= i <= j + Z.of_nat k /\ b ^ (m * 2 ^ i) mod W = W - 1).
  Proof.
    intros Hm. induction k as [|k IH]; intros j z Hj Wz Lz Bz Vz N1.
    - cbn [mr_square]. split; [discriminate|]. intros (i & Hi & _). lia.
    - cbn [mr_square]. cbv zeta.
      destruct (mr_mul_spec z z (mod_small_n z Wz Lz Bz) Wz Lz) as (W2 & L2 & V2).
      set (z2 := mr_mul w z z) in *. clearbody z2.
      assert (V2' : vval z2 = b ^ (m * 2 ^ (j + 1)) mod W).
      { rewrite V2, sq_pow, Vz by lia. rewrite <- Z.mul_mod by lia. reflexivity. }
      assert (B2 : 0 <= vval z2 < W) by (rewrite V2; apply Z.mod_pos_bound; lia).
      destruct (is_one z2) eqn:O.
      + apply is_one_iff in O; auto. split; [discriminate|]. intros (i & Hi & Ei). exfalso.
        assert (E1 : b ^ (m * 2 ^ i) mod W = 1).
        { apply pow_one_up with (j + 1); [clear -Hw; lia|clear -Hm; lia|clear -Hj Hi; lia|]. rewrite <- V2'. exact O. }
        rewrite E1 in Ei. clear -Ei Hw. unfold W in Ei. lia.
      + rewrite is_minus1_spec by auto. destruct (Z.eqb_spec (vval z2) (W - 1)) as [E|E].
        * split; [|reflexivity]. intros _. exists (j + 1). split; [lia|]. rewrite <- V2'. auto.
        * rewrite (IH (j + 1) z2); auto; try lia.
          2:{ intros X. apply is_one_iff in X; auto. congruence. }
          split; intros (i & Hi & Ei).
          -- exists i. split; [lia|auto].
          -- exists i. split; [|auto]. assert (i <> j + 1) by (intros ->; congruence). lia.
  Qed.

  Lemma low_bit_spec : Z.odd W = true -> forall k a, (a + k = n * 32)%nat -> (1 <= a)%nat ->
    (2 ^ Z.of_nat a | W - 1) ->
    let r := low_bit w a k in
    (a <= r < n * 32)%nat /\ (2 ^ Z.of_nat r | W - 1) /\ (W / 2 ^ Z.of_nat r) mod 2 = 1.
  Proof.
    intros Odd. induction k as [|k IH]; intros a Ha H1 D; cbv zeta.
    - exfalso. apply Z.divide_pos_le in D; [|lia]. pose proof (vval_bound w Ww) as B. fold n W in B.
      replace (Z.of_nat a) with (32 * Z.of_nat n) in D by lia. lia.
    - cbn [low_bit]. rewrite bitw. destruct (Z.eqb_spec ((W / 2 ^ Z.of_nat a) mod 2) 1) as [E|E].
      + split; [lia|]. auto.
      + destruct (IH (S a)) as (A & B & C); try lia.
        * assert (P : 0 < 2 ^ Z.of_nat a) by (apply Z.pow_pos_nonneg; lia).
          destruct D as [q Hq]. assert (Eq : W / 2 ^ Z.of_nat a = q).
          { assert (2 ^ 1 <= 2 ^ Z.of_nat a) by (apply Z.pow_le_mono_r; lia).
            symmetry. apply Z.div_unique with 1; lia. }
          rewrite Eq in E. pose proof (Z.mod_pos_bound q 2 ltac:(lia)). pose proof (Z.div_mod q 2 ltac:(lia)).
          exists (q / 2). rewrite Nat2Z.inj_succ, Z.pow_succ_r by lia. rewrite Hq. nia.
        * split; [lia|]. auto.
  Qed.

  Lemma mr_test_spec base : Z.odd W = true -> small base ->
    (mr_test w base = true <-> strong_probable_prime W (vval base)).
  Proof.
    intros Odd Sb. pose proof n_ge2 as N2. unfold mr_test. fold n. cbv zeta.
    destruct (low_bit_spec Odd (n * 32 - 1) 1) as (A1 & A2 & A3); try lia.
    { change (2 ^ Z.of_nat 1) with 2. exists (W / 2). pose proof (Z.div_mod W 2 ltac:(lia)) as DM.
      rewrite Zmod_odd, Odd in DM. lia. }
    set (a := low_bit w 1 (n * 32 - 1)) in *. clearbody a.
    destruct small_one as (S1 & V1). pose proof S1 as (Wo & Lo & _).
    destruct (mr_pow_spec (n * 32 - a) a (upd 0 1 (repeat 0 n)) base) as (Z1 & Z2 & Z3 & Z4);
      [clear -A1; lia|exact Sb|exact S1|clear -A1; lia|rewrite V1; lia|].
    set (z := mr_pow w _ _ _ _) in *. clearbody z.
    rewrite V1, Z.mul_1_l, Z.mod_small in Z4 by auto.
    assert (PA : 0 < 2 ^ Z.of_nat a) by (apply Z.pow_pos_nonneg; lia).
    assert (PA1 : 2 ^ 1 <= 2 ^ Z.of_nat a) by (apply Z.pow_le_mono_r; lia).
    destruct A2 as [m Hm]. assert (Em : W / 2 ^ Z.of_nat a = m) by (symmetry; apply Z.div_unique with 1; lia).
    rewrite Em in *. assert (Om : Z.odd m = true). { rewrite Zmod_odd in A3. destruct (Z.odd m); [auto|discriminate]. }
    assert (Pm : 0 < m) by nia.
    (* the decomposition of W - 1 is unique *)
    assert (U : forall s m', 0 < s -> 0 < m' -> W - 1 = 2 ^ s * m' -> Z.odd m' = true -> s = Z.of_nat a /\ m' = m).
    { intros s m' Hs Hm' E O'. rewrite E in Hm.
      assert (G : forall u v x y, 0 <= u < v -> Z.odd x = true -> 2 ^ u * x = y * 2 ^ v -> False).
      { intros u v x y Huv Hx Exy. replace v with (u + (1 + (v - u - 1))) in Exy by lia.
        rewrite Z.pow_add_r, (Z.pow_add_r 2 1) in Exy by lia. change (2 ^ 1) with 2 in Exy.
        assert (0 < 2 ^ u) by (apply Z.pow_pos_nonneg; lia).
        assert (X : x = 2 * (y * 2 ^ (v - u - 1))) by nia. rewrite X, Z.odd_mul in Hx. discriminate. }
      destruct (Z.lt_trichotomy s (Z.of_nat a)) as [L|[L|L]].
      - exfalso. apply (G s (Z.of_nat a) m' m); auto; lia.
      - split; [auto|]. subst s. clear -Hm PA. apply (Z.mul_reg_l _ _ (2 ^ Z.of_nat a)); lia.
      - exfalso. apply (G (Z.of_nat a) s m m'); auto; lia. }
    assert (Spec : strong_probable_prime W (vval base) <->
      (vval base ^ m mod W = 1 \/ exists j, 0 <= j < Z.of_nat a /\ vval base ^ (m * 2 ^ j) mod W = W - 1)).
    { split.
      - intros (s & m' & Hs & Hm' & E & O' & H). destruct (U s m' Hs Hm' E O') as (-> & ->). exact H.
      - intros H. exists (Z.of_nat a), m. split; [lia|]. split; [auto|]. split; [lia|]. auto. }
    rewrite Spec. clear Spec U.
    destruct (is_one z) eqn:O.
    - apply is_one_iff in O; auto. split; [|reflexivity]. intros _. left. congruence.
    - assert (N1 : vval z <> 1). { intros X. apply is_one_iff in X; auto. congruence. }
      rewrite is_minus1_spec by auto. destruct (Z.eqb_spec (vval z) (W - 1)) as [E|E].
      + split; [|reflexivity]. intros _. right. exists 0. split; [lia|]. rewrite Z.pow_0_r, Z.mul_1_r, <- Z4. auto.
      + rewrite (mr_square_spec (vval base) m Pm (a - 1) 0 z); auto; try lia.
        2:{ rewrite Z.pow_0_r, Z.mul_1_r. auto. }
        split.
        * intros (i & Hi & Ei). right. exists i. split; [lia|auto].
        * intros [H|(i & Hi & Ei)]; [exfalso; congruence|]. exists i. split; [|auto].
          assert (i <> 0). { intros ->. rewrite Z.pow_0_r, Z.mul_1_r in Ei. congruence. } clear -Hi H A1; lia.
  Qed.
End MR.

(** the drawn base stays below 2^(32(n-1)) *)
Lemma top_word_spec l t : (top_word l t <= t)%nat /\ (forall k, (top_word l t < k <= t)%nat -> nthZ k l = 0).
Proof.
  induction t as [|t (IH1 & IH2)]; cbn [top_word]; [split; [lia|intros; lia]|].
  destruct (Z.eqb_spec (nthZ (S t) l) 0) as [E|E].
  - split; [lia|]. intros k Hk. destruct (Nat.eq_dec k (S t)) as [->|]; auto. apply IH2. lia.
  - split; [lia|]. intros k Hk. lia.
Qed.

Lemma shrink_spec y k : forall x, 0 <= x < 2 ^ Z.of_nat k -> 0 <= shrink x y k <= x /\ (y <= 0 -> shrink x y k = 0).
Proof.
  induction k as [|k IH]; intros x Hx.
  - cbn [shrink]. change (2 ^ Z.of_nat 0) with 1 in Hx. lia.
  - cbn [shrink]. destruct (Z.eqb_spec x 0) as [->|E]; cbn [negb andb]; [lia|].
    destruct (Z.leb_spec y x).
    + rewrite Z.shiftr_div_pow2 by lia. change (2 ^ 1) with 2. rewrite Nat2Z.inj_succ, Z.pow_succ_r in Hx by lia.
      assert (H2 : 0 <= x / 2 < 2 ^ Z.of_nat k) by (split; [apply Z.div_pos; lia|apply Z.div_lt_upper_bound; lia]).
      destruct (IH (x / 2) H2) as (A & B). assert (x / 2 <= x) by (apply Z.div_le_upper_bound; lia). split; [lia|auto].
    + lia.
Qed.

Lemma mr_base_small w d b : words_ok w -> 2 < vval w -> Z.odd (vval w) = true -> vval w * 2 ^ 32 <= 2 ^ (32 * Z.of_nat (length w)) ->
  words_ok d -> length d = length w -> mr_base w d = Some b -> small w b.
Proof.
  intros Ww H2 Odd Sp Wd Ld E. pose proof (n_ge2 w H2 Sp) as N2. set (n := length w) in *.
  assert (Top : nthZ (n - 1) w = 0).
  { rewrite nthZ_vval by auto. pose proof (spare' w H2 Sp) as S'. fold n in S'.
    replace (32 * Z.of_nat (n - 1)) with (32 * (Z.of_nat n - 1)) by lia.
    destruct (Z.eq_dec (vval w) (2 ^ (32 * (Z.of_nat n - 1)))) as [X|X].
    - exfalso. rewrite X, Z.odd_pow in Odd by lia. discriminate.
    - rewrite Z.div_small by lia. reflexivity. }
  unfold mr_base in E. fold n in E. cbv zeta in E.
  destruct (top_word_spec d (n - 1)) as (T1 & T2). set (i := top_word d (n - 1)) in *. clearbody i.
  destruct (Nat.eqb i 0 && (nthZ 0 d <=? 1)); [discriminate|].
  set (d1 := if (0 <? i)%nat then upd i (shrink (nthZ i d) (nthZ i w) 32) d else d) in *.
  assert (R : forall k, 0 <= nthZ k d < 2 ^ Z.of_nat 32) by (intros; apply nthZ_range; auto).
  assert (D1 : words_ok d1 /\ length d1 = n /\ nthZ (n - 1) d1 = 0).
  { unfold d1. destruct (Nat.ltb_spec 0 i).
    - destruct (shrink_spec (nthZ i w) 32 (nthZ i d) (R i)) as (A & B).
      split; [apply upd_words; auto; unfold word_ok; specialize (R i); change (2 ^ Z.of_nat 32) with (2 ^ 32) in R; lia|].
      split; [rewrite upd_length; auto|]. destruct (Nat.eq_dec i (n - 1)) as [->|Ne].
      + rewrite nthZ_upd_eq by lia. apply B. lia.
      + rewrite nthZ_upd_neq by auto. apply T2. lia.
    - split; [auto|]. split; [auto|]. apply T2. lia. }
  clearbody d1. destruct D1 as (D1 & D2 & D3).
  assert (Eb : b = upd 0 (Z.lor (nthZ 0 d1) 0xAA55) d1) by congruence. clear E.
  assert (Wb : words_ok b).
  { rewrite Eb. apply upd_words; auto. apply lor_lt; [lia|apply nthZ_range; auto|lia]. }
  assert (Lb : length b = n) by (rewrite Eb, upd_length; auto).
  assert (Nb : nthZ (n - 1) b = 0) by (rewrite Eb, nthZ_upd_neq by lia; auto).
  split; [auto|]. split; [exact Lb|]. fold n.
  rewrite nthZ_vval in Nb by auto. pose proof (vval_bound b Wb) as B. rewrite Lb in B.
  replace (32 * Z.of_nat (n - 1)) with (32 * (Z.of_nat n - 1)) in Nb by lia.
  replace (32 * Z.of_nat n) with (32 * (Z.of_nat n - 1) + 32) in B by lia. rewrite Z.pow_add_r in B by lia.
  assert (P : 0 < 2 ^ (32 * (Z.of_nat n - 1))) by (apply Z.pow_pos_nonneg; lia).
  assert (Q : vval b / 2 ^ (32 * (Z.of_nat n - 1)) < 2 ^ 32) by (apply Z.div_lt_upper_bound; lia).
  assert (Q0 : 0 <= vval b / 2 ^ (32 * (Z.of_nat n - 1))) by (apply Z.div_pos; lia).
  rewrite Z.mod_small in Nb by lia. apply Z.div_small_iff in Nb; lia.
Qed.

(** a prime passes for every base it does not divide *)
Lemma odd_part x : 0 < x -> exists s m, 0 <= s /\ 0 < m /\ x = 2 ^ s * m /\ Z.odd m = true.
Proof.
  intros Hx. pose proof (Z.lt_wf 0) as WF. induction (WF x) as [x _ IH].
  destruct (Z.odd x) eqn:O.
  - exists 0, x. rewrite Z.pow_0_r. auto with zarith.
  - pose proof (Z.div_mod x 2 ltac:(lia)) as DM. rewrite Zmod_odd, O in DM.
    destruct (IH (x / 2)) as (s & m & A & B & C & D); [lia|lia|].
    exists (s + 1), m. split; [lia|]. split; [auto|]. split; [|auto]. rewrite Z.pow_add_r by lia. change (2 ^ 1) with 2. lia.
Qed.

Lemma prime_strong p b : prime p -> 2 < p -> ~ (p | b) -> strong_probable_prime p b.
Proof.
  intros Hp H2 Hb. destruct (odd_part (p - 1) ltac:(lia)) as (s & m & Hs & Hm & E & Om).
  assert (Hs1 : 0 < s).
  { destruct (Z.eq_dec s 0) as [->|]; [|lia]. exfalso. rewrite Z.pow_0_r, Z.mul_1_l in E.
    assert (Op : Z.odd p = false). { replace p with (m + 1) by lia. rewrite Z.add_1_r, Z.odd_succ, <- Z.negb_odd, Om. reflexivity. }
    assert (D : (2 | p)). { exists (p / 2). pose proof (Z.div_mod p 2 ltac:(lia)) as DM. rewrite Zmod_odd, Op in DM. lia. }
    apply prime_div_prime in D; auto; [lia|apply prime_2]. }
  exists s, m. split; [auto|]. split; [auto|]. split; [auto|]. split; [auto|].
  assert (F : b ^ (m * 2 ^ s) mod p = 1) by (rewrite Z.mul_comm, <- E; apply fermat; auto).
  assert (G : forall k : nat, Z.of_nat k <= s -> b ^ (m * 2 ^ (s - Z.of_nat k)) mod p = 1 \/
     exists j, 0 <= j < s /\ b ^ (m * 2 ^ j) mod p = p - 1).
  { induction k as [|k IH]; intros Hk.
    - left. rewrite Z.sub_0_r. auto.
    - destruct IH as [IH|IH]; [lia| |right; auto].
      set (j := s - Z.of_nat (S k)). replace (s - Z.of_nat k) with (j + 1) in IH by lia.
      assert (Hj : 0 <= j) by lia. rewrite (sq_pow b m j) in IH by lia.
      apply sqrt_one in IH; auto. destruct IH as [IH|IH]; [left; auto|right]. exists j. split; [lia|auto]. }
  destruct (G (Z.to_nat s)) as [H|H]; [lia| |auto].
  left. rewrite Z2Nat.id, Z.sub_diag, Z.pow_0_r, Z.mul_1_r in H by lia. auto.
Qed.

(** the bases actually used, in order *)
Fixpoint mr_bases (w : list Z) (draws : list (list Z)) : list (list Z) :=
  match draws with
  | [] => []
  | d :: draws' => match mr_base w d with None => mr_bases w draws' | Some b => b :: mr_bases w draws' end
  end.

Lemma MillerRabin_eq w draws it : MillerRabin w draws it =
  match it with
  | O => Some true
  | S it' => match draws with
             | [] => None
             | d :: draws' => match mr_base w d with
                              | None => MillerRabin w draws' it
                              | Some b => if mr_test w b then MillerRabin w draws' it' else Some false
                              end
             end
  end.
Proof. destruct draws, it; reflexivity. Qed.

Lemma MillerRabin_bases w draws : forall it, 
  (MillerRabin w draws it = Some true <-> (it <= length (mr_bases w draws))%nat /\ Forall (fun b => mr_test w b = true) (firstn it (mr_bases w draws))) /\
  (MillerRabin w draws it = Some false <-> Exists (fun b => mr_test w b = false) (firstn it (mr_bases w draws))).
Proof.
  induction draws as [|d draws IH]; intros it; rewrite MillerRabin_eq; destruct it as [|it].
  - cbn. split; split; auto; try discriminate; try (intros X; inversion X; fail). 
  - cbn. split; split; try discriminate; try (intros (X & _); lia). intros X; inversion X.
  - cbn [firstn]. split; split; auto; try discriminate; intros X; [split; [lia|constructor]|inversion X].
  - cbn [mr_bases]. destruct (mr_base w d) as [b|]; [|apply IH].
    cbn [firstn length]. destruct (mr_test w b) eqn:T.
    + destruct (IH it) as (A & B). split.
      * rewrite A. split; intros (X & Y); (split; [lia|]); [constructor; auto|inversion Y; auto].
      * rewrite B. split; intros X; [constructor 2; auto|inversion X; subst; [congruence|auto]].
    + split; split; auto; try discriminate.
      intros (_ & Y). inversion Y; congruence.
Qed.
