(** Lemmas about EcMod.v: the fast reductions and ecp_imod_inplace. *)
From Coq Require Import Znumtheory.
From Verif Require Import Base Vlong VlongLemmas VlongDivLemmas VlongMulLemmas EcMod.

Notation pw t := (2 ^ (32 * Z.of_nat t)).

Fixpoint psum (n : nat) (terms : list (Z * nat)) : Z :=
  match terms with [] => 0 | (c, o) :: r => c * pw (n - o)%nat + psum n r end.

Fixpoint partial_ok (n : nat) (acc : Z) (terms : list (Z * nat)) : Prop :=
  match terms with
  | [] => True
  | (c, o) :: r => (o <= n)%nat /\ - 2 ^ 29 <= c <= 2 ^ 29 /\
                   0 <= acc + c * pw (n - o)%nat < pw n /\ partial_ok n (acc + c * pw (n - o)%nat) r
  end.

Lemma range_arith L b A P Q : 0 <= L < P -> 0 <= b < 2 ^ 32 -> 0 <= A < Q ->
  0 < P -> forall R, Q * R = P -> 0 < R -> 0 <= L + b * A * R < 2 ^ 32 * P.
Proof.
  intros HL Hb HA HP R E HR.
  assert (0 <= A * R < P) by nia. assert (b * (A * R) <= b * (P - 1)) by nia.
  assert (0 <= b * (A * R)) by nia. replace (b * A * R) with (b * (A * R)) by ring. nia.
Qed.

Lemma pw_split a b : (a <= b)%nat -> pw b = pw a * pw (b - a)%nat.
Proof. intros H. rewrite <- Z.pow_add_r by lia. f_equal. lia. Qed.

Lemma pw_le a b : (a <= b)%nat -> pw a <= pw b.
Proof. intros. apply Z.pow_le_mono_r; lia. Qed.

Lemma fold_terms n t c b L terms : (n <= t < c)%nat -> 0 <= b < 2 ^ 32 -> 0 <= L < pw t ->
  forall acc r, words_ok r -> length r = c -> 0 <= acc < pw n -> partial_ok n acc terms ->
  vval r = L + b * acc * pw (t - n)%nat ->
  let r' := fold_left (fun r '(c, o) => vlong_adds (length r) r (c * b) (t - o)) terms r in
  words_ok r' /\ length r' = c /\ vval r' = L + b * (acc + psum n terms) * pw (t - n)%nat.
Proof.
  intros Ht Hb HL. induction terms as [|[k o] terms IH]; intros acc r Wr Lr Ha Hp HV; cbn [fold_left psum].
  - rewrite Z.add_0_r. auto.
  - cbn [partial_ok] in Hp. destruct Hp as (Ho & Hk & HA & Hp).
    replace (acc + (k * pw (n - o) + psum n terms)) with (acc + k * pw (n - o) + psum n terms) by ring.
    apply IH; auto.
    + apply vlong_adds_words.
    + now rewrite vlong_adds_length.
    + rewrite vlong_adds_val; auto.
      2:{ clear -Hk Hb. nia. }
      rewrite HV, Lr.
      rewrite (pw_split (n - o) (t - o)) by lia.
      replace (t - o - (n - o))%nat with (t - n)%nat by lia.
      replace (L + b * acc * pw (t - n) + k * b * (pw (n - o) * pw (t - n)))
        with (L + b * (acc + k * pw (n - o)) * pw (t - n)) by ring.
      apply Z.mod_small.
      pose proof (range_arith L b (acc + k * pw (n - o)) (pw t) (pw n) HL Hb HA (pow32_pos t) (pw (t - n))
        (eq_sym (pw_split n t ltac:(lia))) (pow32_pos _)) as R.
      split; [apply R|]. eapply Z.lt_le_trans; [apply R|]. rewrite <- pow32_succ. apply pw_le. lia.
Qed.

Lemma fold_word_spec terms n t rem : words_ok rem -> (n <= t < length rem)%nat ->
  vval rem < pw (S t) -> partial_ok n 0 terms ->
  words_ok (fold_word terms t rem) /\ length (fold_word terms t rem) = length rem /\
  vval (fold_word terms t rem) = vval rem mod pw t + vval rem / pw t * psum n terms * pw (t - n)%nat.
Proof.
  intros W Ht HV Hp. pose proof (vval_bound rem W) as B. pose proof (pow32_pos t) as P.
  assert (N : nthZ t rem = vval rem / pw t).
  { rewrite (nthZ_vval rem t W). apply Z.mod_small. split; [apply Z.div_pos; lia|].
    apply Z.div_lt_upper_bound; [lia|]. rewrite pow32_succ in HV. lia. }
  pose proof (nthZ_range rem t W) as R.
  unfold fold_word. rewrite N in *.
  destruct (fold_terms n t (length rem) (vval rem / pw t) (vval rem mod pw t) terms Ht R (Z.mod_pos_bound _ _ P) 0 (upd t 0 rem))
    as (A1 & A2 & A3); auto.
  - apply upd_words; auto. unfold word_ok. lia.
  - apply upd_length.
  - pose proof (pow32_pos n). lia.
  - pose proof (upd_vval t 0 rem ltac:(lia)) as U. rewrite N in U.
    rewrite (Z.div_mod (vval rem) (pw t)) in U at 1 by lia. lia.
Qed.

(** two applications at position t *)
Lemma fold2_arith V P D R Q b1 V1 V2 :
  0 <= V < 2 ^ 32 * P -> 0 < P -> Q * R = P -> 0 < R -> 0 <= D < Q -> (2 ^ 32 - 1) * D <= Q ->
  V1 = V mod P + V / P * D * R -> b1 = V1 / P -> V2 = V1 mod P + b1 * D * R ->
  0 <= V2 < Z.max P (2 ^ 32 * D * R) /\ 0 <= V1 < 2 ^ 32 * P /\ (V < P -> V2 = V).
Proof.
  intros HV HP E HR HD HQ E1 Eb E2.
  pose proof (Z.mod_pos_bound V P HP) as M. pose proof (Z.div_mod V P ltac:(lia)) as DM.
  assert (B : 0 <= V / P < 2 ^ 32). { split; [apply Z.div_pos; lia|]. apply Z.div_lt_upper_bound; lia. }
  assert (DR : 0 <= D * R) by nia.
  assert (U : V / P * D * R <= (2 ^ 32 - 1) * (D * R)) by (clear -B DR; nia).
  assert (U0 : 0 <= V / P * D * R) by (clear -B DR; nia).
  assert (DQ : (2 ^ 32 - 1) * (D * R) <= P) by (clear -HQ E HR; nia).
  assert (V1b : 0 <= V1 < 2 * P) by lia.
  assert (C : b1 = 0 \/ b1 = 1).
  { subst b1. assert (0 <= V1 / P < 2); [|lia]. split; [apply Z.div_pos; lia|]. apply Z.div_lt_upper_bound; lia. }
  pose proof (Z.div_mod V1 P ltac:(lia)) as DM1. pose proof (Z.mod_pos_bound V1 P HP) as M1.
  rewrite <- Eb in DM1.
  split; [|split; [lia|]].
  - destruct C as [C|C]; rewrite C in *; nia.
  - intros HVP. rewrite (Z.div_small V P), (Z.mod_small V P) in E1 by lia.
    assert (X : V1 = V) by lia. rewrite X, (Z.div_small V P) in Eb by lia.
    rewrite X, Eb, (Z.mod_small V P) in E2 by lia. lia.
Qed.

Lemma congr_step m n t V D : (n <= t)%nat -> (m | pw n - D) ->
  (m | V - (V mod pw t + V / pw t * D * pw (t - n)%nat)).
Proof.
  intros Ht [k Hk]. exists (V / pw t * k * pw (t - n)).
  pose proof (Z.div_mod V (pw t) ltac:(pose proof (pow32_pos t); lia)) as DM.
  rewrite (pw_split n t) in DM at 1 by lia.
  replace (V / pw t * k * pw (t - n) * m) with (V / pw t * (k * m) * pw (t - n)) by ring. rewrite <- Hk.
  replace (V - (V mod pw t + V / pw t * D * pw (t - n))) with ((V - V mod pw t) - V / pw t * D * pw (t - n)) by ring.
  rewrite DM at 1. ring_simplify. lia.
Qed.

Lemma fold_loop_spec terms n m : let D := psum n terms in
  partial_ok n 0 terms -> 0 <= D < pw n -> (2 ^ 32 - 1) * D <= pw n -> (m | pw n - D) ->
  forall t rem, words_ok rem -> (t <= length rem)%nat -> (n <= t)%nat -> vval rem < pw t ->
  2 ^ 32 * D <= pw n \/ vval rem < pw (S n) ->
  let r := fold_loop terms n t rem in
  words_ok r /\ length r = length rem /\ vval r < Z.max (pw n) (2 ^ 32 * D) /\ (m | vval rem - vval r).
Proof.
  intros D Hp HD HQ Hm. induction t as [|t IH]; intros rem W Ht Hn HV Hc; cbn [fold_loop].
  - assert (n = 0)%nat by lia. subst n. repeat split; auto; [lia|]. rewrite Z.sub_diag. apply Z.divide_0_r.
  - destruct (Nat.leb_spec n t) as [H|H].
    2:{ assert (n = S t) by lia. subst n. repeat split; auto; [lia|]. rewrite Z.sub_diag. apply Z.divide_0_r. }
    destruct (fold_word_spec terms n t rem W ltac:(lia) HV Hp) as (W1 & L1 & V1).
    fold D in V1.
    pose proof (vval_bound rem W) as B0. pose proof (pow32_pos t) as P.
    destruct (fold2_arith (vval rem) (pw t) D (pw (t - n)) (pw n) _ _ _ ltac:(rewrite <- pow32_succ; lia) P
      (eq_sym (pw_split n t H)) (pow32_pos _) HD HQ V1 eq_refl eq_refl) as (A1 & A2 & A3).
    rewrite <- pow32_succ in A2.
    destruct (fold_word_spec terms n t (fold_word terms t rem) W1 ltac:(lia) (proj2 A2) Hp) as (W2 & L2 & V2).
    fold D in V2. rewrite <- V2 in A1, A3.
    set (r1 := fold_word terms t rem) in *. set (r2 := fold_word terms t r1) in *.
    assert (C1 : (m | vval rem - vval r1)) by (rewrite V1; apply congr_step; auto).
    assert (C2 : (m | vval r1 - vval r2)) by (rewrite V2; apply congr_step; auto).
    assert (C : (m | vval rem - vval r2)).
    { replace (vval rem - vval r2) with ((vval rem - vval r1) + (vval r1 - vval r2)) by ring. now apply Z.divide_add_r. }
    destruct (Nat.eq_dec t n) as [->|NE].
    + (* last iteration *)
      assert (F : fold_loop terms n n r2 = r2).
      { destruct n; cbn [fold_loop]; auto. destruct (Nat.leb_spec (S n) n); [lia|reflexivity]. }
      rewrite F. rewrite Nat.sub_diag in A1. change (pw 0) with 1 in A1. rewrite Z.mul_1_r in A1.
      repeat split; auto; [congruence|lia].
    + assert (B2 : vval r2 < pw t /\ (2 ^ 32 * D <= pw n \/ vval r2 < pw (S n))).
      { destruct Hc as [Hc|Hc].
        - split; [|left; exact Hc].
          assert (2 ^ 32 * D * pw (t - n) <= pw t) by (rewrite (pw_split n t H); pose proof (pow32_pos (t - n)); nia). lia.
        - assert (vval rem < pw t). { eapply Z.lt_le_trans; [exact Hc|]. apply pw_le. lia. }
          rewrite (A3 H0). auto. }
      destruct (IH r2 W2 ltac:(lia) ltac:(lia) (proj1 B2) (proj2 B2)) as (I1 & I2 & I3 & I4).
      repeat split; auto; [congruence|].
      replace (vval rem - vval (fold_loop terms n t r2)) with ((vval rem - vval r2) + (vval r2 - vval (fold_loop terms n t r2))) by ring.
      now apply Z.divide_add_r.
Qed.

Lemma cmp_loop_spec a b t res : words_ok a -> words_ok b ->
  res = cmpcode (vval a / pw t) (vval b / pw t) ->
  cmp_loop a b t res = cmpcode (vval a) (vval b).
Proof.
  intros Ha Hb. revert res. induction t as [|t IH]; intros res Hres.
  - cbn [cmp_loop]. rewrite Hres. cbn [Z.of_nat]. now rewrite Z.mul_0_r, Z.pow_0_r, !Z.div_1_r.
  - cbn [cmp_loop]. apply IH. rewrite nthZ_guard.
    rewrite vlong_cmps_spec by (auto using nthZ_words).
    rewrite (div_step (vval a) t), (div_step (vval b) t).
    rewrite <- !nthZ_vval by auto.
    rewrite cmpcode_step by (apply nthZ_words; auto).
    rewrite <- Hres.
    destruct (cmpcode_cases (vval a / pw (S t)) (vval b / pw (S t))) as [E|[E|E]];
      rewrite E in Hres; subst res; cbn [Z.eqb];
      destruct (cmpcode_cases (nthZ t a) (nthZ t b)) as [E'|[E'|E']]; rewrite E'; reflexivity.
Qed.

Lemma vval_map_mask p u : words_ok p -> u = 0 \/ u = 2 ^ 32 - 1 ->
  words_ok (map (fun w => Z.land w u) p) /\ vval (map (fun w => Z.land w u) p) = if u =? 0 then 0 else vval p.
Proof.
  intros Hp [-> | ->].
  - split; [apply Forall_map, Forall_forall; intros; rewrite Z.land_0_r; unfold word_ok; lia|].
    cbn [Z.eqb]. induction Hp; cbn [map val_le]; [reflexivity|]. rewrite IHHp, Z.land_0_r. lia.
  - assert (E : map (fun w => Z.land w (2 ^ 32 - 1)) p = p).
    { induction Hp; cbn [map]; [reflexivity|]. rewrite IHHp. f_equal. rewrite Z.land_comm. now apply land_ones32. }
    rewrite E. cbn [Z.eqb]. auto.
Qed.

Lemma final_sub_spec p rem : words_ok p -> words_ok rem -> (length p <= length rem)%nat ->
  words_ok (final_sub p rem) /\ length (final_sub p rem) = length rem /\
  vval (final_sub p rem) = if vval p <? vval rem then vval rem - vval p else vval rem.
Proof.
  intros Wp Wr HL. unfold final_sub.
  split; [apply vlong_subv_words|]. split; [apply vlong_subv_length|].
  assert (E : cmp_loop rem p (length rem) 0 = cmpcode (vval rem) (vval p)).
  { apply cmp_loop_spec; auto. now rewrite !vval_div_top by (auto; lia). }
  rewrite E. pose proof (vval_bound rem Wr) as B. pose proof (vval_bound p Wp) as Bp.
  unfold cmpcode. destruct (Z.eqb_spec (vval rem) (vval p)) as [E1|E1].
  - change (u32 (- Z.land (u32 (Z.shiftr (Z.lxor 0 1 - 1) 8)) 1)) with 0.
    destruct (vval_map_mask p 0 Wp ltac:(auto)) as (A & C).
    rewrite vlong_subv_val, C by auto. cbn [Z.eqb].
    destruct (Z.ltb_spec (vval p) (vval rem)); [lia|]. rewrite Z.sub_0_r. apply Z.mod_small; lia.
  - destruct (Z.ltb_spec (vval p) (vval rem)) as [H|H].
    + change (u32 (- Z.land (u32 (Z.shiftr (Z.lxor 1 1 - 1) 8)) 1)) with (2 ^ 32 - 1).
      destruct (vval_map_mask p (2 ^ 32 - 1) Wp ltac:(auto)) as (A & C).
      rewrite vlong_subv_val, C by auto. change (2 ^ 32 - 1 =? 0) with false. cbv iota. apply Z.mod_small; lia.
    + change (u32 (- Z.land (u32 (Z.shiftr (Z.lxor 2 1 - 1) 8)) 1)) with 0.
      destruct (vval_map_mask p 0 Wp ltac:(auto)) as (A & C).
      rewrite vlong_subv_val, C by auto. cbn [Z.eqb]. rewrite Z.sub_0_r. apply Z.mod_small; lia.
Qed.

(** What the reductions deliver: the residue, or p itself for a multiple of p. *)
Definition reduces (p : list Z) (v v' : list Z) : Prop :=
  words_ok v' /\ length v' = length v /\
  (vval v' = vval v mod vval p \/ vval v' = vval p /\ vval v mod vval p = 0).

Lemma reduces_intro p v r v' : 0 < vval p -> words_ok v' -> length v' = length v -> 0 <= r < 2 * vval p ->
  (vval p | vval v - r) -> vval v' = (if vval p <? r then r - vval p else r) -> reduces p v v'.
Proof.
  intros Hp W L Hr [k Hk] E. split; [exact W|]. split; [exact L|]. rewrite E.
  replace (vval v) with (r + k * vval p) by lia. rewrite Z_mod_plus_full.
  destruct (Z.ltb_spec (vval p) r) as [H|H].
  - left. apply Z.mod_unique_pos with (q := 1); lia.
  - destruct (Z.eq_dec r (vval p)) as [->|NE]; [right; rewrite Z_mod_same_full; auto|].
    left. symmetry. apply Z.mod_small. lia.
Qed.

Lemma remv_generic_spec terms p rem : let n := length p in let D := psum n terms in
  words_ok p -> words_ok rem -> (n <= length rem)%nat -> 0 < vval p ->
  partial_ok n 0 terms -> 0 <= D < pw n -> (2 ^ 32 - 1) * D <= pw n -> vval p = pw n - D ->
  Z.max (pw n) (2 ^ 32 * D) <= 2 * vval p ->
  2 ^ 32 * D <= pw n \/ vval rem < pw (S n) ->
  exists v', remv_generic terms p rem = (v', true) /\ reduces p rem v'.
Proof.
  intros n D Wp Wr HL Pp Hp HD HQ Ep HM Hc. unfold remv_generic. fold n.
  destruct (Nat.ltb_spec (length rem) n); [lia|].
  destruct (fold_loop_spec terms n (vval p) Hp HD HQ ltac:(rewrite Ep; apply Z.divide_refl) (length rem) rem Wr ltac:(lia) HL
    (proj2 (vval_bound rem Wr)) Hc) as (W1 & L1 & B1 & C1).
  set (r := fold_loop terms n (length rem) rem) in *.
  destruct (final_sub_spec p r Wp W1 ltac:(fold n; lia)) as (W2 & L2 & V2).
  eexists. split; [reflexivity|].
  apply reduces_intro with (r := vval r); auto; [congruence|].
  pose proof (vval_bound r W1). fold D in B1. lia.
Qed.

Ltac const_words := repeat constructor; unfold word_ok; lia.

Lemma Fp_secp256r1_val : vval Fp_secp256r1 = 2 ^ 256 - 2 ^ 224 + 2 ^ 192 + 2 ^ 96 - 1.
Proof. vm_compute. reflexivity. Qed.
Lemma Fp_secp384r1_val : vval Fp_secp384r1 = 2 ^ 384 - 2 ^ 128 - 2 ^ 96 + 2 ^ 32 - 1.
Proof. vm_compute. reflexivity. Qed.
Lemma Fp_SM2_val : vval Fp_SM2 = 2 ^ 256 - 2 ^ 224 - 2 ^ 96 + 2 ^ 64 - 1.
Proof. vm_compute. reflexivity. Qed.
Lemma Fp_448_val : vval Fp_448 = 2 ^ 448 - 2 ^ 224 - 1.
Proof. vm_compute. reflexivity. Qed.
Lemma Fp_25519_val : vval Fp_25519 = 2 ^ 255 - 19.
Proof. vm_compute. reflexivity. Qed.

Ltac ge := let H := fresh in intro H; vm_compute in H; discriminate H.
Ltac concrete :=
  match goal with
  | |- _ /\ _ => split; concrete
  | |- True => exact I
  | |- partial_ok _ _ _ => cbn [partial_ok]; concrete
  | |- @eq Z _ _ => vm_compute; reflexivity
  | |- (_ <= _)%nat => cbn; lia
  | |- _ <= _ => vm_compute; congruence
  | |- _ < _ => vm_compute; reflexivity
  end.

Lemma remv_secp256r1_spec rem : words_ok rem -> (8 <= length rem)%nat ->
  exists v', remv_secp256r1 rem = (v', true) /\ reduces Fp_secp256r1 rem v'.
Proof.
  intros W L. apply remv_generic_spec; auto; try concrete.
  - const_words.
  - left. concrete.
Qed.

Lemma remv_secp384r1_spec rem : words_ok rem -> (12 <= length rem)%nat ->
  exists v', remv_secp384r1 rem = (v', true) /\ reduces Fp_secp384r1 rem v'.
Proof.
  intros W L. apply remv_generic_spec; auto; try concrete.
  - const_words.
  - left. concrete.
Qed.

Lemma remv_448_spec rem : words_ok rem -> (14 <= length rem)%nat ->
  exists v', remv_448 rem = (v', true) /\ reduces Fp_448 rem v'.
Proof.
  intros W L. apply remv_generic_spec; auto; try concrete.
  - const_words.
  - left. concrete.
Qed.

Lemma remv_SM2_spec rem : words_ok rem -> (8 <= length rem)%nat -> vval rem < 2 ^ 288 ->
  exists v', remv_SM2 rem = (v', true) /\ reduces Fp_SM2 rem v'.
Proof.
  intros W L H. apply remv_generic_spec; auto; try concrete. const_words.
Qed.

(** p25519 *)
Lemma fold_bit255_spec rem : words_ok rem -> (8 <= length rem)%nat -> vval rem < 2 ^ 256 ->
  words_ok (fold_bit255 rem) /\ length (fold_bit255 rem) = length rem /\
  vval (fold_bit255 rem) = vval rem mod 2 ^ 255 + 19 * (vval rem / 2 ^ 255).
Proof.
  intros W L H. unfold fold_bit255. pose proof (vval_bound rem W) as B.
  assert (N : nthZ 7 rem = vval rem / 2 ^ 224).
  { rewrite (nthZ_vval rem 7 W). change (32 * Z.of_nat 7) with 224. apply Z.mod_small.
    split; [apply Z.div_pos; lia|]. apply Z.div_lt_upper_bound; lia. }
  pose proof (nthZ_range rem 7 W) as R.
  assert (E1 : Z.shiftr (nthZ 7 rem) 31 = vval rem / 2 ^ 255).
  { rewrite Z.shiftr_div_pow2, N, Z.div_div by lia. reflexivity. }
  assert (E2 : Z.land (nthZ 7 rem) (2 ^ 31 - 1) = nthZ 7 rem - 2 ^ 31 * (vval rem / 2 ^ 255)).
  { change (2 ^ 31 - 1) with (Z.ones 31). rewrite Z.land_ones by lia. rewrite <- E1, Z.shiftr_div_pow2 by lia.
    pose proof (Z.div_mod (nthZ 7 rem) (2 ^ 31) ltac:(lia)). lia. }
  assert (Bb : 0 <= vval rem / 2 ^ 255 <= 1).
  { split; [apply Z.div_pos; lia|]. assert (vval rem / 2 ^ 255 < 2); [|lia]. apply Z.div_lt_upper_bound; lia. }
  pose proof (Z.div_mod (vval rem) (2 ^ 255) ltac:(lia)) as DM.
  pose proof (Z.mod_pos_bound (vval rem) (2 ^ 255) ltac:(lia)) as MB.
  assert (Wu : words_ok (upd 7 (Z.land (nthZ 7 rem) (2 ^ 31 - 1)) rem)).
  { apply upd_words; auto. unfold word_ok. change (2 ^ 31 - 1) with (Z.ones 31). rewrite Z.land_ones by lia.
    pose proof (Z.mod_pos_bound (nthZ 7 rem) (2 ^ 31) ltac:(lia)). lia. }
  assert (Vu : vval (upd 7 (Z.land (nthZ 7 rem) (2 ^ 31 - 1)) rem) = vval rem mod 2 ^ 255).
  { rewrite E2 in *. pose proof (upd_vval 7 (nthZ 7 rem - 2 ^ 31 * (vval rem / 2 ^ 255)) rem ltac:(lia)) as U.
    change (32 * Z.of_nat 7) with 224 in U. lia. }
  split; [apply vlong_adds_words|]. split; [now rewrite vlong_adds_length|].
  rewrite vlong_adds_val; auto; [|rewrite E1; lia].
  rewrite Vu, E1. change (32 * Z.of_nat 0) with 0. rewrite Z.pow_0_r.
  assert (2 ^ 256 <= pw (length rem)). { change 256 with (32 * Z.of_nat 8). apply pw_le. lia. }
  rewrite Z.mod_small by lia. ring.
Qed.

Lemma fold255_arith V : 0 <= V < 2 ^ 256 ->
  let V1 := V mod 2 ^ 255 + 19 * (V / 2 ^ 255) in
  let V2 := V1 mod 2 ^ 255 + 19 * (V1 / 2 ^ 255) in
  0 <= V1 < 2 ^ 256 /\ 0 <= V2 < 2 * (2 ^ 255 - 19) /\ (2 ^ 255 - 19 | V - V2).
Proof.
  intros H V1 V2.
  assert (Bb : 0 <= V / 2 ^ 255 <= 1).
  { split; [apply Z.div_pos; lia|]. assert (V / 2 ^ 255 < 2); [|lia]. apply Z.div_lt_upper_bound; lia. }
  pose proof (Z.div_mod V (2 ^ 255) ltac:(lia)) as DM.
  pose proof (Z.mod_pos_bound V (2 ^ 255) ltac:(lia)) as MB.
  assert (B1 : 0 <= V1 < 2 ^ 255 + 19) by (unfold V1; lia).
  pose proof (Z.div_mod V1 (2 ^ 255) ltac:(lia)) as DM1.
  pose proof (Z.mod_pos_bound V1 (2 ^ 255) ltac:(lia)) as MB1.
  assert (Bb1 : 0 <= V1 / 2 ^ 255 <= 1).
  { split; [apply Z.div_pos; lia|]. assert (V1 / 2 ^ 255 < 2); [|lia]. apply Z.div_lt_upper_bound; lia. }
  split; [lia|]. split; [unfold V2; lia|].
  exists (V / 2 ^ 255 + V1 / 2 ^ 255). unfold V2, V1 in *. lia.
Qed.

Lemma remv_25519_spec rem : words_ok rem -> (8 <= length rem)%nat ->
  exists v', remv_25519 rem = (v', true) /\ reduces Fp_25519 rem v'.
Proof.
  intros W L. unfold remv_25519. destruct (Nat.ltb_spec (length rem) 8); [lia|].
  destruct (fold_loop_spec [(38, 8%nat)] 8 (2 ^ 255 - 19)) with (t := length rem) (rem := rem) as (W1 & L1 & B1 & C1); auto;
    try concrete.
  - exists 2. reflexivity.
  - apply vval_bound; auto.
  - left. concrete.
  - set (r := fold_loop _ _ _ _) in *.
    change (Z.max (pw 8) (2 ^ 32 * psum 8 [(38, 8%nat)])) with (2 ^ 256) in B1.
    pose proof (vval_bound r W1) as B0.
    destruct (fold255_arith (vval r) (conj (proj1 B0) B1)) as (A1 & A2 & A3).
    destruct (fold_bit255_spec r W1 ltac:(lia) B1) as (W2 & L2 & V2). rewrite <- V2 in A1, A2, A3.
    destruct (fold_bit255_spec (fold_bit255 r) W2 ltac:(lia) (proj2 A1)) as (W3 & L3 & V3).
    rewrite <- V3 in A2, A3.
    set (r3 := fold_bit255 (fold_bit255 r)) in *.
    destruct (final_sub_spec Fp_25519 r3) as (W4 & L4 & V4); auto.
    + const_words.
    + cbn [length Fp_25519]. lia.
    + eexists. split; [reflexivity|]. apply reduces_intro with (r := vval r3); auto.
      * concrete.
      * congruence.
      * rewrite Fp_25519_val. replace (vval rem - vval r3) with ((vval rem - vval r) + (vval r - vval r3)) by ring.
        now apply Z.divide_add_r.
Qed.
