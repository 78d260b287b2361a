(** vlong_modexpv_shiftadded, and the representation of field elements. *)
From Coq Require Import Znumtheory.
From Verif Require Import Base Vlong VlongLemmas VlongDivLemmas VlongMulLemmas EcMod EcModLemmas EcFieldLemmas Fermat.

(** A reduction callback g for the modulus p at width n. *)
Record field_ok (n : nat) (p : list Z) (g : modfun) : Prop := {
  fo_words : words_ok p; fo_len : (length p <= n)%nat; fo_pos : 1 < vval p;
  fo_room : 2 * (vval p * 2 ^ 32) < pw n;
  fo_good : good_on n (vval p) (vval p) (vval p * 2 ^ 32) g }.

(** The words v hold a (possibly unreduced) representative of x modulo p. *)
Definition rep (n : nat) (p v : list Z) (x : Z) : Prop :=
  words_ok v /\ length v = n /\ vval v <= vval p /\ vval v mod vval p = x mod vval p.
Definition repb (n : nat) (p : list Z) (k : Z) (v : list Z) (x : Z) : Prop :=
  words_ok v /\ length v = n /\ vval v <= k * vval p /\ vval v mod vval p = x mod vval p.

Section Field.
  Variables (n : nat) (p : list Z) (g : modfun).
  Hypothesis F : field_ok n p g.
  Notation P := (vval p).

  Lemma fo_n : (0 < n)%nat.
  Proof.
    pose proof (fo_room _ _ _ F) as R. pose proof (fo_pos _ _ _ F) as Q.
    destruct (Nat.eq_dec n 0) as [N|N]; [|lia]. rewrite N in R. change (pw 0) with 1 in R. lia.
  Qed.

  Lemma rep_repb v x : rep n p v x -> repb n p 1 v x.
  Proof. intros (A & B & C & D). split; [|split; [|split]]; auto. lia. Qed.

  Lemma repb_weaken k k' v x : k <= k' -> repb n p k v x -> repb n p k' v x.
  Proof. intros H (A & B & C & D). split; [|split; [|split]]; auto. pose proof (fo_pos _ _ _ F). nia. Qed.

  Lemma rep_ext v x y : x mod P = y mod P -> rep n p v x -> rep n p v y.
  Proof. intros E (A & B & C & D). split; [|split; [|split]]; auto. congruence. Qed.

  Lemma rep_eq v x y : x = y -> rep n p v x -> rep n p v y.
  Proof. now intros ->. Qed.

  Lemma rep_words v x : rep n p v x -> words_ok v.
  Proof. now intros (A & _). Qed.

  Lemma mul_rep a b mask x y kb : mask = 0 \/ mask = 1 -> rep n p a x -> repb n p kb b y ->
    rep n p (fst (vlong_mulv_masked n a b mask (Some g))) (x * if mask =? 1 then y else 1).
  Proof.
    intros Hm (A1 & A2 & A3 & A4) (B1 & B2 & B3 & B4). pose proof fo_n.
    destruct (mulv_on n a b mask P P g) as (r & E & W & L & K & V); auto.
    - lia.
    - apply (fo_good _ _ _ F).
    - pose proof (fo_pos _ _ _ F). lia.
    - pose proof (fo_room _ _ _ F). pose proof (fo_pos _ _ _ F). lia.
    - rewrite E. cbn [fst]. split; [|split; [|split]]; auto. rewrite V.
      apply mod_mul_congr; auto. destruct (mask =? 1); auto.
  Qed.

  Lemma addv_repb a b x y ka kb : repb n p ka a x -> repb n p kb b y -> ka + kb <= 2 ^ 32 ->
    repb n p (ka + kb) (vlong_addv n a b) (x + y).
  Proof.
    intros (A1 & A2 & A3 & A4) (B1 & B2 & B3 & B4) Hk.
    pose proof (fo_room _ _ _ F) as R. pose proof (fo_pos _ _ _ F) as PP.
    pose proof (vval_bound a A1). pose proof (vval_bound b B1).
    assert (U : (ka + kb) * P <= 2 ^ 32 * P) by (apply Z.mul_le_mono_nonneg_r; lia).
    assert (V : vval (vlong_addv n a b) = vval a + vval b).
    { rewrite vlong_addv_val by auto. apply Z.mod_small. lia. }
    split; [apply vlong_addv_words|]. split; [apply vlong_addv_length|]. rewrite V. split; [lia|].
    rewrite Zplus_mod, A4, B4, <- Zplus_mod. reflexivity.
  Qed.

  Lemma mod_rep a x k : repb n p k a x -> k <= 2 ^ 32 -> rep n p (fst (g a)) x.
  Proof.
    intros (A1 & A2 & A3 & A4) Hk. pose proof (fo_pos _ _ _ F) as PP.
    assert (U : k * P <= 2 ^ 32 * P) by (apply Z.mul_le_mono_nonneg_r; lia).
    destruct (fo_good _ _ _ F a A1 A2 ltac:(lia)) as (v' & E & W & L & V & K). rewrite E. cbn [fst].
    split; [|split; [|split]]; auto. congruence.
  Qed.

  Lemma cpy_rep a x : rep n p a x -> rep n p (vlong_cpy n a) x.
  Proof.
    intros (A1 & A2 & A3 & A4).
    assert (V : vval (vlong_cpy n a) = vval a).
    { rewrite vlong_cpy_val by auto. apply Z.mod_small. rewrite <- A2. now apply vval_bound. }
    split; [now apply vlong_cpy_words|]. split; [apply vlong_cpy_length|]. rewrite V. auto.
  Qed.

  Lemma imod_rep v s x : words_ok v -> length v = n -> vval v = s mod pw n ->
    - (P * 2 ^ 32) <= s <= P * 2 ^ 32 -> s mod P = x mod P -> rep n p (ecp_imod_inplace g p v) x.
  Proof.
    intros W L E B C. pose proof (fo_room _ _ _ F). pose proof (fo_pos _ _ _ F).
    pose proof (sval_of v s n W L fo_n E ltac:(lia)) as SV.
    destruct (ecp_imod_spec n g p (P * 2 ^ 32) v) as (A1 & A2 & A3 & A4); auto.
    - apply (fo_words _ _ _ F).
    - apply (fo_len _ _ _ F).
    - lia.
    - apply (fo_good _ _ _ F).
    - apply fo_n.
    - rewrite SV. exact B.
    - split; [|split; [|split]]; auto. rewrite A4, SV. exact C.
  Qed.

  Lemma imod_rep0 v k x : repb n p k v x -> k <= 2 ^ 32 -> rep n p (ecp_imod_inplace g p v) x.
  Proof.
    intros (A1 & A2 & A3 & A4) Hk. pose proof (vval_bound v A1) as B. pose proof (fo_pos _ _ _ F).
    assert (U : k * P <= 2 ^ 32 * P) by (apply Z.mul_le_mono_nonneg_r; lia).
    apply imod_rep with (s := vval v); auto; [|lia]. symmetry. apply Z.mod_small. rewrite <- A2. exact B.
  Qed.

  Lemma sub_rep a b x y ka kb : repb n p ka a x -> repb n p kb b y -> ka <= 2 ^ 32 -> kb <= 2 ^ 32 ->
    rep n p (ecp_imod_inplace g p (vlong_subv n a b)) (x - y).
  Proof.
    intros (A1 & A2 & A3 & A4) (B1 & B2 & B3 & B4) Hk Hk'.
    pose proof (fo_pos _ _ _ F) as PP. pose proof (vval_bound a A1). pose proof (vval_bound b B1).
    assert (U : ka * P <= 2 ^ 32 * P) by (apply Z.mul_le_mono_nonneg_r; lia).
    assert (U' : kb * P <= 2 ^ 32 * P) by (apply Z.mul_le_mono_nonneg_r; lia).
    apply imod_rep with (s := vval a - vval b).
    - apply vlong_subv_words.
    - apply vlong_subv_length.
    - now apply vlong_subv_val.
    - lia.
    - rewrite Zminus_mod, A4, B4, <- Zminus_mod. reflexivity.
  Qed.

  Lemma imuls_rep o a x c k : words_ok o -> length o = n -> repb n p k a x -> 0 <= k <= 2 ^ 20 -> - 2 ^ 12 <= c <= 2 ^ 12 ->
    rep n p (ecp_imod_inplace g p (vlong_imuls o a c false)) (x * c).
  Proof.
    intros Wo Lo (A1 & A2 & A3 & A4) Hk Hc. pose proof (fo_pos _ _ _ F) as PP. pose proof (vval_bound a A1) as B.
    assert (U : k * P <= 2 ^ 20 * P) by (apply Z.mul_le_mono_nonneg_r; lia).
    apply imod_rep with (s := vval a * c).
    - apply imuls_loop_words.
    - unfold vlong_imuls. now rewrite imuls_loop_length.
    - rewrite vlong_imuls_val by (auto; lia). rewrite Z.add_0_r, Lo. reflexivity.
    - clear -B U A3 Hc PP. nia.
    - rewrite Zmult_mod, A4, <- Zmult_mod. reflexivity.
  Qed.

  Lemma imuls_repb o a x c k : words_ok o -> length o = n -> repb n p k a x -> 0 <= k <= 2 ^ 20 -> 0 <= c <= 2 ^ 12 ->
    repb n p (k * c) (vlong_imuls o a c false) (x * c).
  Proof.
    intros Wo Lo (A1 & A2 & A3 & A4) Hk Hc. pose proof (fo_pos _ _ _ F) as PP. pose proof (vval_bound a A1) as B.
    pose proof (fo_room _ _ _ F) as R.
    assert (U : vval a * c <= k * P * c) by (apply Z.mul_le_mono_nonneg_r; lia).
    assert (U0 : k * c <= 2 ^ 32) by nia.
    assert (U1 : k * c * P <= 2 ^ 32 * P) by (apply Z.mul_le_mono_nonneg_r; lia).
    assert (U2 : 0 <= vval a * c) by nia.
    assert (V : vval (vlong_imuls o a c false) = vval a * c).
    { rewrite vlong_imuls_val by (auto; lia). rewrite Z.add_0_r, Lo. apply Z.mod_small. lia. }
    split; [apply imuls_loop_words|]. split; [unfold vlong_imuls; now rewrite imuls_loop_length|].
    rewrite V. split; [lia|]. rewrite Zmult_mod, A4, <- Zmult_mod. reflexivity.
  Qed.

  Lemma muls_repb o a x c k : words_ok o -> length o = n -> repb n p k a x -> 0 <= k <= 2 ^ 20 -> 0 <= c <= 2 ^ 12 ->
    repb n p (k * c) (vlong_muls o a c false) (x * c).
  Proof.
    intros Wo Lo (A1 & A2 & A3 & A4) Hk Hc. pose proof (fo_pos _ _ _ F) as PP. pose proof (vval_bound a A1) as B.
    pose proof (fo_room _ _ _ F) as R.
    assert (U : vval a * c <= k * P * c) by (apply Z.mul_le_mono_nonneg_r; lia).
    assert (U0 : k * c <= 2 ^ 32) by nia.
    assert (U1 : k * c * P <= 2 ^ 32 * P) by (apply Z.mul_le_mono_nonneg_r; lia).
    assert (U2 : 0 <= vval a * c) by nia.
    assert (V : vval (vlong_muls o a c false) = vval a * c).
    { rewrite vlong_muls_val by (auto; unfold word_ok; lia). rewrite Z.add_0_r, Lo. apply Z.mod_small. lia. }
    split; [apply vlong_muls_words|]. split; [now rewrite vlong_muls_length|].
    rewrite V. split; [lia|]. rewrite Zmult_mod, A4, <- Zmult_mod. reflexivity.
  Qed.

  (** exponentiation by (e + addend) >> shift *)
  Lemma rep_one : rep n p (map (fun i => if Nat.eqb i 0 then 1 else 0) (seq 0 n)) 1.
  Proof.
    split; [apply map_words; intros j; destruct (Nat.eqb j 0); unfold word_ok; lia|].
    split; [now rewrite map_length, seq_length|]. rewrite one_list by apply fo_n.
    split; [|reflexivity]. pose proof (fo_pos _ _ _ F). lia.
  Qed.

  Variables (e : list Z) (E : Z).
  Hypothesis We : words_ok e.
  Hypothesis HE0 : vval e / 2 ^ 32 * 2 ^ 32 <= E.
  Hypothesis HE1 : E < pw (length e).
  Hypothesis HE2 : E < vval e + 2 ^ 33.

  Definition wval (j : nat) : Z := E / pw j - vval e / pw (S j) * 2 ^ 32.

  Lemma E_nonneg : 0 <= E.
  Proof.
    pose proof (vval_bound e We) as B. assert (0 <= vval e / 2 ^ 32) by (apply Z.div_pos; lia). nia.
  Qed.

  Lemma wval_step j : nthZ (S j) e + wval j / 2 ^ 32 = wval (S j).
  Proof.
    unfold wval. rewrite (nthZ_vval e (S j) We).
    pose proof (div_step (vval e) (S j)) as D.
    replace (E / pw j - vval e / pw (S j) * 2 ^ 32) with (E / pw j + (- (vval e / pw (S j))) * 2 ^ 32) by ring.
    rewrite Z.div_add by lia. rewrite Z.div_div by (pose proof (pow32_pos j); lia).
    replace (pw j * 2 ^ 32) with (pw (S j)) by (rewrite pow32_succ; ring). lia.
  Qed.

  Lemma wval_nonneg j : 0 <= wval j.
  Proof.
    unfold wval. pose proof (pow32_pos j). pose proof (pow32_pos (S j)). pose proof (vval_bound e We) as B.
    assert (X : vval e / pw (S j) * 2 ^ 32 * pw j <= E).
    { transitivity (vval e / 2 ^ 32 * 2 ^ 32); [|exact HE0].
      rewrite pow32_succ. rewrite <- Z.div_div by lia.
      replace (vval e / 2 ^ 32 / pw j * 2 ^ 32 * pw j) with (pw j * (vval e / 2 ^ 32 / pw j) * 2 ^ 32) by ring.
      apply Z.mul_le_mono_nonneg_r; [lia|]. apply Z.mul_div_le. lia. }
    assert (vval e / pw (S j) * 2 ^ 32 <= E / pw j); [|lia]. apply Z.div_le_lower_bound; lia.
  Qed.

  Lemma wval_lt j : wval j < 2 ^ 34.
  Proof.
    unfold wval. pose proof (pow32_pos j) as P0. pose proof (vval_bound e We) as B.
    assert (X : E / pw j <= vval e / pw j + 2 ^ 33).
    { assert (E / pw j < vval e / pw j + 2 ^ 33 + 1); [|lia].
      apply Z.div_lt_upper_bound; [lia|].
      pose proof (Z.div_mod (vval e) (pw j) ltac:(lia)). pose proof (Z.mod_pos_bound (vval e) (pw j) P0). nia. }
    pose proof (div_step (vval e) j) as D. pose proof (Z.mod_pos_bound (vval e / pw j) (2 ^ 32) ltac:(lia)). lia.
  Qed.

  Lemma wval_bit i : Z.land (Z.shiftr (wval (i / 32)) (Z.of_nat (i mod 32))) 1 = (E / 2 ^ Z.of_nat i) mod 2.
  Proof.
    rewrite land1_mod, Z.shiftr_div_pow2 by lia. unfold wval.
    set (r := (i mod 32)%nat). set (j := (i / 32)%nat).
    assert (Hi : i = (32 * j + r)%nat) by (unfold r, j; apply Nat.div_mod; lia).
    assert (Hr : (r < 32)%nat) by (unfold r; apply Nat.mod_upper_bound; lia).
    replace (2 ^ Z.of_nat i) with (pw j * 2 ^ Z.of_nat r) by (rewrite <- Z.pow_add_r by lia; f_equal; lia).
    rewrite <- Z.div_div by (try lia; pose proof (pow32_pos j); try lia; apply Z.pow_pos_nonneg; lia).
    replace (2 ^ 32) with (2 ^ (31 - Z.of_nat r) * 2 * 2 ^ Z.of_nat r)
      by (rewrite <- Z.mul_assoc, <- (Z.pow_succ_r 2 (Z.of_nat r)), <- Z.pow_add_r by lia; f_equal; lia).
    replace (E / pw j - vval e / pw (S j) * (2 ^ (31 - Z.of_nat r) * 2 * 2 ^ Z.of_nat r))
      with (E / pw j + (- (vval e / pw (S j)) * 2 ^ (31 - Z.of_nat r) * 2) * 2 ^ Z.of_nat r) by ring.
    rewrite Z.div_add by (apply Z.pow_nonzero; lia). apply Z_mod_plus_full.
  Qed.

  Lemma shiftadded_loop_spec k : forall i out tmp x y,
    (0 < k)%nat -> (i + k = length e * 32)%nat -> rep n p out x -> rep n p tmp y ->
    rep n p (shiftadded_loop e g n k i (wval (i / 32)) out tmp) (x * y ^ (E / 2 ^ Z.of_nat i)).
  Proof.
    pose proof E_nonneg as EN. pose proof (fo_pos _ _ _ F) as PP.
    induction k as [|k IH]; intros i out tmp x y Hk Hik Ro Rt; [lia|].
    cbn [shiftadded_loop]. cbv zeta. rewrite wval_bit.
    set (X := E / 2 ^ Z.of_nat i).
    assert (P2 : 0 < 2 ^ Z.of_nat i) by (apply Z.pow_pos_nonneg; lia).
    assert (X0 : 0 <= X) by (unfold X; apply Z.div_pos; lia).
    pose proof (Z.div_mod X 2 ltac:(lia)) as DE. pose proof (Z.mod_pos_bound X 2 ltac:(lia)) as ME.
    assert (Hm : X mod 2 = 0 \/ X mod 2 = 1) by (clear -ME; lia).
    pose proof (mul_rep out tmp (X mod 2) x y 1 Hm Ro (rep_repb _ _ Rt)) as R1.
    set (mask := X mod 2) in *.
    assert (HX : x * y ^ X = (x * if mask =? 1 then y else 1) * (y * y) ^ (X / 2)).
    { assert (X2 : 0 <= X / 2) by (apply Z.div_pos; [exact X0|reflexivity]).
      rewrite DE at 1. clearbody mask X. rewrite Z.pow_add_r, Z.pow_mul_r, Z.pow_2_r; [|clear; lia|exact X2|clear -X2; lia|apply ME].
      destruct Hm as [-> | ->]; cbn [Z.eqb Pos.eqb]; rewrite ?Z.pow_0_r, ?Z.pow_1_r; generalize ((y * y) ^ (X / 2)); intros; ring. }
    rewrite HX.
    assert (HS : E / 2 ^ Z.of_nat (S i) = X / 2).
    { unfold X. rewrite Z.div_div by lia. f_equal. rewrite Nat2Z.inj_succ, Z.pow_succ_r by lia. ring. }
    destruct k as [|k].
    - assert (EZ : X / 2 = 0).
      { rewrite <- HS. apply Z.div_small. replace (Z.of_nat (S i)) with (32 * Z.of_nat (length e)) by lia. lia. }
      rewrite EZ, Z.pow_0_r, Z.mul_1_r. exact R1.
    - pose proof (mul_rep tmp tmp 1 y y 1 (or_intror eq_refl) Rt (rep_repb _ _ Rt)) as R2.
      cbn [Z.eqb Pos.eqb] in R2. rewrite <- HS.
      assert (HW : (if Nat.eqb (S i mod 32) 0 then u64 (Z.shiftr (wval (i / 32)) 32 + nthZ (S i / 32) e) else wval (i / 32))
                   = wval (S i / 32)).
      { pose proof (Nat.div_mod i 32 ltac:(lia)) as D. pose proof (Nat.mod_upper_bound i 32 ltac:(lia)) as DB.
        destruct (Nat.eqb_spec (S i mod 32) 0) as [M|M].
        - pose proof (Nat.div_mod (S i) 32 ltac:(lia)) as D'.
          assert (Q : (S i / 32 = S (i / 32))%nat) by lia. rewrite Q.
          rewrite Z.shiftr_div_pow2 by lia. rewrite Z.add_comm, wval_step.
          unfold u64. apply Z.mod_small. pose proof (wval_nonneg (S (i / 32))). pose proof (wval_lt (S (i / 32))). lia.
        - f_equal. pose proof (Nat.div_mod (S i) 32 ltac:(lia)) as D'. pose proof (Nat.mod_upper_bound (S i) 32 ltac:(lia)). lia. }
      rewrite HW. apply IH; [lia|lia|exact R1|exact R2].
  Qed.
End Field.

Lemma shiftadded_spec n p g e x0 x a s : field_ok n p g -> words_ok e -> rep n p x0 x ->
  0 <= nthZ 0 e + a -> - 2 ^ 31 <= a < 2 ^ 31 -> vval e + a < pw (length e) -> (s < 32)%nat -> (0 < length e)%nat ->
  rep n p (vlong_modexpv_shiftadded n x0 g e a s) (x ^ ((vval e + a) / 2 ^ Z.of_nat s)).
Proof.
  intros F We Rx H0 Ha HE Hs Hl.
  assert (N0 : nthZ 0 e = vval e mod 2 ^ 32).
  { rewrite (nthZ_vval e 0 We). change (32 * Z.of_nat 0) with 0. now rewrite Z.pow_0_r, Z.div_1_r. }
  pose proof (Z.div_mod (vval e) (2 ^ 32) ltac:(lia)) as DM. pose proof (Z.mod_pos_bound (vval e) (2 ^ 32) ltac:(lia)) as MB.
  unfold vlong_modexpv_shiftadded.
  pose proof (shiftadded_loop_spec n p g F e (vval e + a) We ltac:(lia) HE ltac:(lia) (length e * 32 - s) s
    (map (fun i => if Nat.eqb i 0 then 1 else 0) (seq 0 n)) (vlong_cpy n x0) 1 x ltac:(lia) ltac:(lia) (rep_one n p g F)
    (cpy_rep n p x0 x Rx)) as R.
  rewrite (Nat.div_small s 32) in R by lia. rewrite Z.mul_1_l in R.
  assert (W : wval e (vval e + a) 0 = u64 (nthZ 0 e + a)).
  { unfold wval, u64. change (32 * Z.of_nat 0) with 0. change (32 * Z.of_nat 1) with 32. rewrite Z.pow_0_r, Z.div_1_r.
    rewrite Z.mod_small; lia. }
  rewrite <- W. exact R.
Qed.
