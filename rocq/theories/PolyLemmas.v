(** Poly1305: values of the five-word numbers of poly1305.c. *)
From Verif Require Import Base HashSpec Blocks HashLemmas MdLemmas CmacLemmas DerLemmas GcmSpec GaloisLemmas GcmLemmas ChaChaSpec Hash ChaCha.

Definition V5 (l : list Z) : Z := val_le 32 l.
(** digits of a partially reduced number: 4 full words and a small top word *)
Definition nf (t : Z) (l : list Z) : Prop :=
  exists a0 a1 a2 a3 a4, l = [a0; a1; a2; a3; a4] /\
    (0 <= a0 < 2 ^ 32) /\ (0 <= a1 < 2 ^ 32) /\ (0 <= a2 < 2 ^ 32) /\ (0 <= a3 < 2 ^ 32) /\ (0 <= a4 <= t).
Lemma V5_cons a0 a1 a2 a3 a4 : V5 [a0; a1; a2; a3; a4] = a0 + 2 ^ 32 * a1 + 2 ^ 64 * a2 + 2 ^ 96 * a3 + 2 ^ 128 * a4.
Proof. unfold V5. cbn [val_le]. change (2 ^ 64) with (2 ^ 32 * 2 ^ 32). change (2 ^ 96) with (2 ^ 32 * 2 ^ 32 * 2 ^ 32). change (2 ^ 128) with (2 ^ 32 * 2 ^ 32 * 2 ^ 32 * 2 ^ 32). ring. Qed.

Lemma carry_bit x u : 0 <= x < 2 ^ 32 -> 0 <= u < 2 ^ 32 -> Z.shiftr (u64 (u32 (x + u) - u)) 63 = (x + u) / 2 ^ 32.
Proof.
  intros Hx Hu. unfold u64, u32. rewrite Z.shiftr_div_pow2 by lia. destruct (Z.lt_ge_cases (x + u) (2 ^ 32)).
  - rewrite (Z.mod_small (x + u)), (Z.div_small (x + u)) by lia. rewrite Z.mod_small by lia. apply Z.div_small. lia.
  - assert (E : (x + u) mod 2 ^ 32 = x + u - 2 ^ 32). { rewrite <- (Z.mod_add (x + u) (-1)) by lia. apply Z.mod_small. lia. }
    rewrite E. replace (x + u - 2 ^ 32 - u) with (x - 2 ^ 32) by lia.
    assert (E2 : (x - 2 ^ 32) mod 2 ^ 64 = x - 2 ^ 32 + 2 ^ 64). { rewrite <- (Z.mod_add (x - 2 ^ 32) 1) by lia. apply Z.mod_small. lia. }
    rewrite E2. assert (1 = (x + u) / 2 ^ 32) by (apply (Z.div_unique_pos _ _ _ (x + u - 2 ^ 32)); lia).
    assert (1 = (x - 2 ^ 32 + 2 ^ 64) / 2 ^ 63) by (apply (Z.div_unique_pos _ _ _ (x - 2 ^ 32 + 2 ^ 64 - 2 ^ 63)); lia). lia.
Qed.
Lemma add_val : forall a b u, length a = length b -> words_ok a -> words_ok b -> 0 <= u <= 1 ->
  V5 (p1305bn_add u a b) = (V5 a + V5 b + u) mod 2 ^ (32 * Z.of_nat (length a)) /\ words_ok (p1305bn_add u a b) /\ length (p1305bn_add u a b) = length a.
Proof.
  induction a as [|x a IH]; intros [|v b] u L A B Hu; try discriminate.
  - cbn [length p1305bn_add]. split; [rewrite Z.mul_0_r, Z.pow_0_r, Z.mod_1_r; reflexivity|auto].
  - inversion A as [|? ? X A']; subst. inversion B as [|? ? Vv B']; subst. unfold word_ok in X, Vv. cbn [length] in L.
    cbn [p1305bn_add]. cbv zeta. rewrite (carry_bit x u) by lia. set (x1 := u32 (x + u)).
    assert (X1 : 0 <= x1 < 2 ^ 32) by (apply Z.mod_pos_bound; lia). rewrite (carry_bit x1 v) by lia.
    assert (D1 : x + u = 2 ^ 32 * ((x + u) / 2 ^ 32) + x1) by (apply Z.div_mod; lia).
    assert (D2 : x1 + v = 2 ^ 32 * ((x1 + v) / 2 ^ 32) + u32 (x1 + v)) by (apply Z.div_mod; lia).
    set (c1 := (x + u) / 2 ^ 32) in *. set (c2 := (x1 + v) / 2 ^ 32) in *. set (y := u32 (x1 + v)) in *.
    assert (Y : 0 <= y < 2 ^ 32) by (apply Z.mod_pos_bound; lia).
    assert (C : 0 <= c1 + c2 <= 1) by lia.
    replace (u32 (c1 + c2)) with (c1 + c2) by (unfold u32; rewrite Z.mod_small; lia).
    destruct (IH b (c1 + c2)) as (IV & IW & IL); auto; try lia. split; [|split].
    + change (V5 (y :: ?l)) with (y + 2 ^ 32 * V5 l). rewrite IV.
      change (V5 (x :: a)) with (x + 2 ^ 32 * V5 a). change (V5 (v :: b)) with (v + 2 ^ 32 * V5 b).
      change (length (x :: a)) with (S (length a)). rewrite Nat2Z.inj_succ. replace (32 * Z.succ (Z.of_nat (length a))) with (32 + 32 * Z.of_nat (length a)) by lia.
      rewrite Z.pow_add_r by lia. set (M := 2 ^ (32 * Z.of_nat (length a))). assert (0 < M) by (apply Z.pow_pos_nonneg; lia).
      replace (x + 2 ^ 32 * V5 a + (v + 2 ^ 32 * V5 b) + u) with (y + 2 ^ 32 * (V5 a + V5 b + (c1 + c2))) by lia.
      set (S0 := V5 a + V5 b + (c1 + c2)). apply (Z.mod_unique_pos _ _ (S0 / M)).
      * pose proof (Z.mod_pos_bound S0 M). nia.
      * pose proof (Z.div_mod S0 M). nia.
    + constructor; auto.
    + cbn [length]. now rewrite IL.
Qed.

Lemma land_mask32 v : 0 <= v -> Z.land v 0xffffffff = v mod 2 ^ 32.
Proof. intros. change 0xffffffff with (Z.ones 32). apply Z.land_ones. lia. Qed.
(** The carry pass keeps the value. *)
Lemma carry_val : forall w c, (0 < length w)%nat -> Forall (fun x => 0 <= x <= 2 ^ 64 - 2 ^ 32) w -> 0 <= c < 2 ^ 32 ->
  V5 (p1305_carry c w) = V5 w + c /\ length (p1305_carry c w) = length w.
Proof.
  assert (G : forall w c, (0 < length w)%nat -> Forall (fun x => 0 <= x <= 2 ^ 64 - 2 ^ 32) w -> 0 <= c < 2 ^ 32 -> V5 (p1305_carry c w) = V5 w + c /\ length (p1305_carry c w) = length w).
  { induction w as [|x w IH]; intros c L F Hc; [cbn in L; lia|]. inversion F as [|? ? X F']; subst.
    destruct w as [|y w].
    - cbn [p1305_carry]. unfold u64. rewrite Z.mod_small by lia. unfold V5; cbn [val_le length]. split; [lia|reflexivity].
    - remember (y :: w) as w' eqn:Ew.
      replace (p1305_carry c (x :: w')) with (Z.land (u64 (x + c)) 0xffffffff :: p1305_carry (Z.shiftr (u64 (x + c)) 32) w') by (subst; reflexivity).
      unfold u64. rewrite (Z.mod_small (x + c)) by lia. rewrite land_mask32, Z.shiftr_div_pow2 by lia.
      destruct (IH ((x + c) / 2 ^ 32)) as [IV IL]; auto; [subst; cbn; lia|split; [apply Z.div_pos; lia|apply Z.div_lt_upper_bound; lia]|].
      assert (VC : forall h t, V5 (h :: t) = h + 2 ^ 32 * V5 t) by reflexivity.
      rewrite !VC, IV. pose proof (Z.div_mod (x + c) (2 ^ 32)).
      split; [lia|cbn [length] in *; lia]. }
  exact G.
Qed.
(** Shape of the result of a carry pass over five words. *)
Lemma carry5 w0 w1 w2 w3 w4 : 0 <= w0 <= 2 ^ 64 - 2 ^ 32 -> 0 <= w1 <= 2 ^ 64 - 2 ^ 32 -> 0 <= w2 <= 2 ^ 64 - 2 ^ 32 -> 0 <= w3 <= 2 ^ 64 - 2 ^ 32 -> 0 <= w4 <= 2 ^ 64 - 2 ^ 32 ->
  exists d0 d1 d2 d3 d4, p1305_carry 0 [w0; w1; w2; w3; w4] = [d0; d1; d2; d3; d4] /\
    0 <= d0 < 2 ^ 32 /\ 0 <= d1 < 2 ^ 32 /\ 0 <= d2 < 2 ^ 32 /\ 0 <= d3 < 2 ^ 32 /\ 0 <= d4 /\
    V5 [d0; d1; d2; d3; d4] = V5 [w0; w1; w2; w3; w4].
Proof.
  intros H0 H1 H2 H3 H4.
  destruct (carry_val [w0; w1; w2; w3; w4] 0) as [CV _]; [cbn; lia| |lia|].
  { repeat (apply Forall_cons; [lia|]). constructor. }
  cbn [p1305_carry] in *. unfold u64 in *. rewrite Z.add_0_r in *. rewrite (Z.mod_small w0) in * by lia.
  rewrite (land_mask32 w0) in * by lia. rewrite (Z.shiftr_div_pow2 w0) in * by lia.
  assert (C0 : 0 <= w0 / 2 ^ 32 < 2 ^ 32) by (split; [apply Z.div_pos; lia|apply Z.div_lt_upper_bound; lia]).
  set (c0 := w0 / 2 ^ 32) in *. rewrite (Z.mod_small (w1 + c0)) in * by lia. rewrite (land_mask32 (w1 + c0)), (Z.shiftr_div_pow2 (w1 + c0)) in * by lia.
  assert (C1 : 0 <= (w1 + c0) / 2 ^ 32 < 2 ^ 32) by (split; [apply Z.div_pos; lia|apply Z.div_lt_upper_bound; lia]).
  set (c1 := (w1 + c0) / 2 ^ 32) in *. rewrite (Z.mod_small (w2 + c1)) in * by lia. rewrite (land_mask32 (w2 + c1)), (Z.shiftr_div_pow2 (w2 + c1)) in * by lia.
  assert (C2 : 0 <= (w2 + c1) / 2 ^ 32 < 2 ^ 32) by (split; [apply Z.div_pos; lia|apply Z.div_lt_upper_bound; lia]).
  set (c2 := (w2 + c1) / 2 ^ 32) in *. rewrite (Z.mod_small (w3 + c2)) in * by lia. rewrite (land_mask32 (w3 + c2)), (Z.shiftr_div_pow2 (w3 + c2)) in * by lia.
  assert (C3 : 0 <= (w3 + c2) / 2 ^ 32 < 2 ^ 32) by (split; [apply Z.div_pos; lia|apply Z.div_lt_upper_bound; lia]).
  set (c3 := (w3 + c2) / 2 ^ 32) in *. rewrite (Z.mod_small (w4 + c3)) in * by lia.
  do 5 eexists. split; [reflexivity|]. repeat split; try apply Z.mod_pos_bound; try lia.
Qed.

(** One fold and carry pass: value changes by a multiple of p, top word at most 4. *)
Lemma fold_carry w0 w1 w2 w3 w4 : 0 <= w0 < 2 ^ 32 -> 0 <= w1 < 2 ^ 32 -> 0 <= w2 < 2 ^ 32 -> 0 <= w3 < 2 ^ 32 -> 0 <= w4 < 2 ^ 40 ->
  let l := map u32 (p1305_carry 0 (p1305_fold [w0; w1; w2; w3; w4])) in
  nf 4 l /\ V5 l = V5 [w0; w1; w2; w3; w4] - (w4 / 4) * p1305.
Proof.
  intros H0 H1 H2 H3 H4. cbv zeta. unfold p1305_fold, nthZ, upd, u64. cbn [nth]. rewrite Z.shiftr_div_pow2 by lia. change (2 ^ 2) with 4.
  assert (Q : 0 <= w4 / 4 < 2 ^ 38) by (split; [apply Z.div_pos; lia|apply Z.div_lt_upper_bound; lia]).
  assert (E3 : Z.land w4 3 = w4 mod 4) by (change 3 with (Z.ones 2); apply Z.land_ones; lia).
  assert (R : 0 <= w4 mod 4 < 4) by (apply Z.mod_pos_bound; lia). assert (D : w4 = 4 * (w4 / 4) + w4 mod 4) by (apply Z.div_mod; lia).
  rewrite E3. rewrite (Z.mod_small (5 * (w4 / 4))), (Z.mod_small (w0 + 5 * (w4 / 4))) by lia.
  set (q := w4 / 4) in *. set (r := w4 mod 4) in *.
  destruct (carry5 (w0 + 5 * q) w1 w2 w3 r) as (d0 & d1 & d2 & d3 & d4 & E & B0 & B1 & B2 & B3 & B4 & EV); try lia.
  rewrite E. rewrite !V5_cons in EV.
  assert (d4 <= 4) by lia.
  cbn [map]. unfold u32. rewrite !Z.mod_small by lia. split.
  - exists d0, d1, d2, d3, d4. repeat split; try reflexivity; lia.
  - rewrite !V5_cons. unfold p1305. rewrite D. change (2 ^ 130) with (4 * 2 ^ 128). lia.
Qed.
Lemma modp_val t x : nf t x -> t < 2 ^ 32 -> nf 4 (p1305bn_modp x) /\ exists k, 0 <= k <= t / 4 /\ V5 (p1305bn_modp x) = V5 x - k * p1305.
Proof.
  intros (a0 & a1 & a2 & a3 & a4 & -> & H0 & H1 & H2 & H3 & H4) Ht. destruct (fold_carry a0 a1 a2 a3 a4) as [A B]; try lia.
  split; [exact A|]. exists (a4 / 4). split; [|exact B]. split; [apply Z.div_pos; lia|apply Z.div_le_mono; lia].
Qed.
Lemma scl_val a x : nf 32 a -> 0 <= x <= 2 ^ 32 -> nf 4 (p1305bn_scl a x) /\ exists k, V5 (p1305bn_scl a x) = V5 a * x - k * p1305.
Proof.
  intros (a0 & a1 & a2 & a3 & a4 & -> & H0 & H1 & H2 & H3 & H4) Hx. unfold p1305bn_scl. cbv zeta. cbn [map].
  assert (M : forall v, 0 <= v < 2 ^ 32 -> 0 <= v * x <= 2 ^ 64 - 2 ^ 32) by (intros; nia).
  assert (U : forall v, 0 <= v < 2 ^ 32 -> u64 (v * x) = v * x) by (intros v Hv; unfold u64; apply Z.mod_small; specialize (M v Hv); lia).
  rewrite !U by lia.
  destruct (carry5 (a0 * x) (a1 * x) (a2 * x) (a3 * x) (a4 * x)) as (d0 & d1 & d2 & d3 & d4 & E & B0 & B1 & B2 & B3 & B4 & EV); try (apply M; lia).
  rewrite E. rewrite !V5_cons in EV.
  assert (T : d4 < 2 ^ 40).
  { pose proof (M a0 H0). pose proof (M a1 H1). pose proof (M a2 H2). pose proof (M a3 H3). assert (0 <= a4 * x <= 32 * 2 ^ 32) by nia. lia. }
  destruct (fold_carry d0 d1 d2 d3 d4) as [A B]; try lia. split; [exact A|]. exists (d4 / 4). cbv zeta in B. rewrite B, !V5_cons, EV. ring.
Qed.
Lemma scl_iter i m : nf 4 m -> nf 4 (Nat.iter i (fun m => p1305bn_scl m 0x100000000) m) /\
  exists k, V5 (Nat.iter i (fun m => p1305bn_scl m 0x100000000) m) = V5 m * 2 ^ (32 * Z.of_nat i) - k * p1305.
Proof.
  intros N. induction i as [|i IH].
  - split; [exact N|]. exists 0. change (2 ^ (32 * Z.of_nat 0)) with 1. cbn [Nat.iter nat_rect]. lia.
  - destruct IH as [A [k B]]. change (Nat.iter (S i) ?f m) with (f (Nat.iter i f m)).
    destruct (scl_val (Nat.iter i (fun m => p1305bn_scl m 0x100000000) m) 0x100000000) as [C [k' D]]; [|lia|].
    { destruct A as (a0 & a1 & a2 & a3 & a4 & E & H). exists a0, a1, a2, a3, a4. split; [exact E|]. lia. }
    split; [exact C|]. exists (k * 2 ^ 32 + k'). cbv beta. rewrite D, B. rewrite Nat2Z.inj_succ. replace (32 * Z.succ (Z.of_nat i)) with (32 * Z.of_nat i + 32) by lia.
    rewrite Z.pow_add_r by lia. change 0x100000000 with (2 ^ 32). ring.
Qed.
Lemma nf_words t l : nf t l -> t < 2 ^ 32 -> words_ok l /\ length l = 5%nat /\ 0 <= V5 l < (t + 1) * 2 ^ 128.
Proof.
  intros (a0 & a1 & a2 & a3 & a4 & -> & H0 & H1 & H2 & H3 & H4) Ht. split; [|split; [reflexivity|rewrite V5_cons; lia]].
  repeat (apply Forall_cons; [unfold word_ok; lia|]). constructor.
Qed.
Lemma words_nf l t : words_ok l -> length l = 5%nat -> V5 l < (t + 1) * 2 ^ 128 -> nf t l.
Proof.
  intros W L B. do 5 (destruct l as [|? l]; [discriminate|]). destruct l; [|discriminate].
  pose proof (nthZ_words _ 0 W) as X0. pose proof (nthZ_words _ 1 W) as X1. pose proof (nthZ_words _ 2 W) as X2. pose proof (nthZ_words _ 3 W) as X3. pose proof (nthZ_words _ 4 W) as X4.
  unfold word_ok, nthZ in *. cbn [nth] in *. rewrite V5_cons in B.
  do 5 eexists. split; [reflexivity|]. repeat split; try lia.
Qed.
Lemma add_nf s t a b : nf s a -> nf t b -> 0 <= s -> 0 <= t -> s + t < 2 ^ 31 -> nf (s + t + 1) (p1305bn_add 0 a b) /\ V5 (p1305bn_add 0 a b) = V5 a + V5 b.
Proof.
  intros A B Hs Ht Hst. destruct (nf_words _ _ A) as (WA & LA & BA); [lia|]. destruct (nf_words _ _ B) as (WB & LB & BB); [lia|].
  destruct (add_val a b 0) as (IV & IW & IL); auto; [congruence|lia|]. rewrite LA in IV, IL.
  change (2 ^ (32 * Z.of_nat 5)) with (2 ^ 160) in IV. rewrite Z.mod_small in IV by (change (2 ^ 160) with (2 ^ 32 * 2 ^ 128); nia).
  rewrite Z.add_0_r in IV. split; [|exact IV]. apply words_nf; auto. rewrite IV. lia.
Qed.

Lemma mul_val a r : nf 32 a -> nf 0 r -> nf 4 (p1305bn_mul a r) /\ V5 (p1305bn_mul a r) mod p1305 = (V5 a * V5 r) mod p1305 /\ V5 (p1305bn_mul a r) < 2 ^ 130 + 30.
Proof.
  intros A (r0 & r1 & r2 & r3 & r4 & -> & H0 & H1 & H2 & H3 & H4). assert (r4 = 0) by lia. subst r4.
  unfold p1305bn_mul. cbn [fold_left nthZ nth].
  assert (G : forall x i, 0 <= x <= 2 ^ 32 -> nf 4 (Nat.iter i (fun m => p1305bn_scl m 0x100000000) (p1305bn_scl a x)) /\
     exists k, V5 (Nat.iter i (fun m => p1305bn_scl m 0x100000000) (p1305bn_scl a x)) = V5 a * x * 2 ^ (32 * Z.of_nat i) - k * p1305).
  { intros x i Hx. destruct (scl_val a x A Hx) as [N [k E]]. destruct (scl_iter i _ N) as [N' [k' E']]. split; [exact N'|].
    exists (k * 2 ^ (32 * Z.of_nat i) + k'). rewrite E', E. ring. }
  unfold nthZ. cbn [nth].
  destruct (G 0 4%nat ltac:(lia)) as [N4 [k4 E4]]. destruct (G r3 3%nat ltac:(lia)) as [N3 [k3 E3]]. destruct (G r2 2%nat ltac:(lia)) as [N2 [k2 E2]].
  destruct (G r1 1%nat ltac:(lia)) as [N1 [k1 E1]]. destruct (G r0 0%nat ltac:(lia)) as [N0 [k0 E0]]. clear G.
  set (m4 := Nat.iter 4 _ _) in *. set (m3 := Nat.iter 3 _ _) in *. set (m2 := Nat.iter 2 _ _) in *. set (m1 := Nat.iter 1 _ _) in *. set (m0 := Nat.iter 0 _ _) in *.
  clearbody m4 m3 m2 m1 m0.
  assert (NZ : nf 0 [0; 0; 0; 0; 0]) by (exists 0, 0, 0, 0, 0; repeat split; lia).
  destruct (add_nf 0 4 _ m4 NZ N4) as [S4 V4]; try lia.
  destruct (add_nf (0 + 4 + 1) 4 _ m3 S4 N3) as [S3 V3]; try lia.
  destruct (add_nf (0 + 4 + 1 + 4 + 1) 4 _ m2 S3 N2) as [S2 V2]; try lia.
  destruct (add_nf (0 + 4 + 1 + 4 + 1 + 4 + 1) 4 _ m1 S2 N1) as [S1 V1]; try lia.
  destruct (add_nf (0 + 4 + 1 + 4 + 1 + 4 + 1 + 4 + 1) 4 _ m0 S1 N0) as [S0 V0]; try lia.
  set (n := p1305bn_add 0 _ m0) in *.
  destruct (modp_val _ n S0 ltac:(lia)) as [NM [k [Hk EM]]].
  split; [exact NM|]. split.
  - rewrite EM, V0, V1, V2, V3, V4, E0, E1, E2, E3, E4. rewrite (V5_cons 0 0 0 0 0). rewrite (V5_cons r0 r1 r2 r3 0).
    change (2 ^ (32 * Z.of_nat 4)) with (2 ^ 128). change (2 ^ (32 * Z.of_nat 3)) with (2 ^ 96). change (2 ^ (32 * Z.of_nat 2)) with (2 ^ 64). change (2 ^ (32 * Z.of_nat 1)) with (2 ^ 32). change (2 ^ (32 * Z.of_nat 0)) with 1.
    match goal with |- ?L mod _ = ?R mod _ => replace L with (R + (- (k + k0 + k1 + k2 + k3 + k4)) * p1305) by ring end.
    apply Z.mod_add. unfold p1305. lia.
  - assert (k <= 6) by (change ((0 + 4 + 1 + 4 + 1 + 4 + 1 + 4 + 1 + 4 + 1) / 4) with 6 in Hk; lia).
    assert (Dn : exists q, k = q /\ V5 n < (4 * q + 4) * 2 ^ 128).
    { destruct S0 as (a0 & a1 & a2 & a3 & a4 & En & B0 & B1 & B2 & B3 & B4). rewrite En in EM. pose proof (fold_carry a0 a1 a2 a3 a4 B0 B1 B2 B3 ltac:(lia)) as [_ F].
      cbv zeta in F. unfold p1305bn_modp in EM. rewrite F in EM. assert (k = a4 / 4) by (unfold p1305 in EM; nia). exists k. split; auto. rewrite En, V5_cons.
      pose proof (Z.mul_succ_div_gt a4 4). lia. }
    destruct Dn as [q [-> Dn]]. rewrite EM. unfold p1305. change (2 ^ 130) with (4 * 2 ^ 128). lia.
Qed.

(* ---- adding a block ---- *)
Lemma addto_val : forall k a u i, words_ok a -> 0 <= u < 2 ^ 32 -> (i + k = length a)%nat -> V5 a + u * 2 ^ (32 * Z.of_nat i) < 2 ^ (32 * Z.of_nat (length a)) ->
  V5 (p1305bn_addto k a u i) = V5 a + u * 2 ^ (32 * Z.of_nat i) /\ words_ok (p1305bn_addto k a u i) /\ length (p1305bn_addto k a u i) = length a.
Proof.
  induction k as [|k IH]; intros a u i W Hu Hi Hb; cbn [p1305bn_addto].
  - assert (0 <= V5 a) by (apply val_le_bound; [lia|now apply words_digits]).
    assert (u = 0). { destruct (Z.eq_dec u 0); auto. replace i with (length a) in Hb by lia. assert (0 < 2 ^ (32 * Z.of_nat (length a))) by (apply Z.pow_pos_nonneg; lia). nia. }
    subst u. rewrite Z.mul_0_l, Z.add_0_r. auto.
  - destruct (Z.eqb_spec u 0) as [->|N]; [rewrite Z.mul_0_l, Z.add_0_r; auto|]. cbv zeta.
    pose proof (nthZ_words a i W) as X. unfold word_ok in X. rewrite carry_bit by lia.
    set (x := u32 (nthZ i a + u)). assert (Hx : 0 <= x < 2 ^ 32) by (apply Z.mod_pos_bound; lia).
    assert (D : nthZ i a + u = 2 ^ 32 * ((nthZ i a + u) / 2 ^ 32) + x) by (apply Z.div_mod; lia).
    set (c := (nthZ i a + u) / 2 ^ 32) in *. assert (C : 0 <= c <= 1) by lia.
    replace (u32 c) with c by (unfold u32; rewrite Z.mod_small; lia).
    assert (VU : V5 (upd i x a) = V5 a + (x - nthZ i a) * 2 ^ (32 * Z.of_nat i)).
    { assert (Li : (i < length a)%nat) by lia. clearbody x. clear - Li. revert i Li. unfold V5. induction a as [|h a IH]; intros i Li; [cbn in Li; lia|].
      destruct i as [|i]; cbn [upd val_le nthZ nth].
      - change (2 ^ (32 * Z.of_nat 0)) with 1. unfold nthZ. cbn [nth]. lia.
      - rewrite IH by (cbn [length] in Li; lia). unfold nthZ. cbn [nth]. rewrite Nat2Z.inj_succ. replace (32 * Z.succ (Z.of_nat i)) with (32 + 32 * Z.of_nat i) by lia.
        rewrite Z.pow_add_r by lia. ring. }
    assert (PW : 2 ^ (32 * Z.of_nat (S i)) = 2 ^ 32 * 2 ^ (32 * Z.of_nat i)).
    { rewrite Nat2Z.inj_succ. replace (32 * Z.succ (Z.of_nat i)) with (32 + 32 * Z.of_nat i) by lia. now rewrite Z.pow_add_r by lia. }
    assert (EQ : V5 (upd i x a) + c * 2 ^ (32 * Z.of_nat (S i)) = V5 a + u * 2 ^ (32 * Z.of_nat i)).
    { rewrite VU, PW. replace x with (nthZ i a + u - 2 ^ 32 * c) by lia. ring. }
    destruct (IH (upd i x a) c (S i)) as (IV & IW & IL).
    + apply upd_Forall; auto.
    + lia.
    + rewrite upd_length. lia.
    + rewrite upd_length, EQ. exact Hb.
    + rewrite upd_length in IL. rewrite IV, EQ. auto.
Qed.
Lemma le32_at_word k i : bytes_ok k -> 0 <= le32_at k i < 2 ^ 32.
Proof.
  intros B. unfold le32_at. set (l := firstn 4 (skipn (4 * i) k)). assert (BL : bytes_ok l) by (apply Forall_firstn, Forall_skipn, B).
  pose proof (le_val_bound l BL). assert (L : (length l <= 4)%nat) by (unfold l; rewrite firstn_length; lia).
  assert (2 ^ (8 * Z.of_nat (length l)) <= 2 ^ 32) by (apply Z.pow_le_mono_r; lia). lia.
Qed.
Lemma le_val_app a b : le_val (a ++ b) = le_val a + 2 ^ (8 * Z.of_nat (length a)) * le_val b.
Proof. unfold le_val. rewrite val_le_app by lia. reflexivity. Qed.
Lemma le_val_words b : length b = 16%nat ->
  le_val b = le32_at b 0 + 2 ^ 32 * le32_at b 1 + 2 ^ 64 * le32_at b 2 + 2 ^ 96 * le32_at b 3.
Proof.
  intros L. do 16 (destruct b as [|? b]; [discriminate|]). destruct b; [|discriminate].
  unfold le32_at. cbn [skipn firstn Nat.mul Nat.add]. unfold le_val. cbn [val_le].
  change (2 ^ 64) with (2 ^ 32 * 2 ^ 32). change (2 ^ 96) with (2 ^ 32 * 2 ^ 32 * 2 ^ 32). change (2 ^ 32) with (2 ^ 8 * 2 ^ 8 * 2 ^ 8 * 2 ^ 8). ring.
Qed.
Lemma addblock a b : nf 4 a -> bytes_ok b -> length b = 16%nat ->
  let a1 := p1305bn_addto 5 a (le32_at b 0) 0 in
  let a2 := p1305bn_addto 4 a1 (le32_at b 1) 1 in
  let a3 := p1305bn_addto 3 a2 (le32_at b 2) 2 in
  let a4 := p1305bn_addto 2 a3 (le32_at b 3) 3 in
  let a5 := p1305bn_addto 1 a4 1 4 in
  nf 32 a5 /\ V5 a5 = V5 a + le_val (b ++ [1]).
Proof.
  intros N B L a1 a2 a3 a4 a5. destruct (nf_words _ _ N ltac:(lia)) as (W & LA & BA).
  pose proof (le32_at_word b 0 B) as B0. pose proof (le32_at_word b 1 B) as B1. pose proof (le32_at_word b 2 B) as B2. pose proof (le32_at_word b 3 B) as B3.
  assert (P : 2 ^ (32 * Z.of_nat 5) = 2 ^ 160) by reflexivity.
  destruct (addto_val 5 a (le32_at b 0) 0) as (V1 & W1 & L1); auto; [rewrite LA, P; change (32 * Z.of_nat 0) with 0; lia|]. fold a1 in V1, W1, L1. change (32 * Z.of_nat 0) with 0 in V1. rewrite Z.pow_0_r, Z.mul_1_r in V1.
  destruct (addto_val 4 a1 (le32_at b 1) 1) as (V2 & W2 & L2); auto; [lia|rewrite L1, LA, P, V1; change (32 * Z.of_nat 1) with 32; lia|]. fold a2 in V2, W2, L2. change (32 * Z.of_nat 1) with 32 in V2.
  destruct (addto_val 3 a2 (le32_at b 2) 2) as (V3 & W3 & L3); auto; [lia|rewrite L2, L1, LA, P, V2, V1; change (32 * Z.of_nat 2) with 64; lia|]. fold a3 in V3, W3, L3. change (32 * Z.of_nat 2) with 64 in V3.
  destruct (addto_val 2 a3 (le32_at b 3) 3) as (V4 & W4 & L4); auto; [lia|rewrite L3, L2, L1, LA, P, V3, V2, V1; change (32 * Z.of_nat 3) with 96; lia|]. fold a4 in V4, W4, L4. change (32 * Z.of_nat 3) with 96 in V4.
  destruct (addto_val 1 a4 1 4) as (V6 & W6 & L6); auto; [lia|lia|rewrite L4, L3, L2, L1, LA, P, V4, V3, V2, V1; change (32 * Z.of_nat 4) with 128; lia|]. fold a5 in V6, W6, L6. change (32 * Z.of_nat 4) with 128 in V6.
  assert (EV : V5 a5 = V5 a + le_val (b ++ [1])).
  { rewrite V6, V4, V3, V2, V1, le_val_app, L, (le_val_words b L). change (8 * Z.of_nat 16) with 128. change (le_val [1]) with 1. ring. }
  split; [|exact EV]. apply words_nf; auto; [congruence|]. rewrite V6, V4, V3, V2, V1. lia.
Qed.

(* ---- keys ---- *)
Lemma land_join n a b c d : 0 <= n -> 0 <= a < 2 ^ n -> 0 <= c < 2 ^ n -> 0 <= b -> 0 <= d ->
  Z.land (a + 2 ^ n * b) (c + 2 ^ n * d) = Z.land a c + 2 ^ n * Z.land b d.
Proof.
  intros Hn Ha Hc Hb Hd.
  assert (T : forall u v i, 0 <= i -> 0 <= u < 2 ^ n -> Z.testbit (u + 2 ^ n * v) i = if i <? n then Z.testbit u i else Z.testbit v (i - n)).
  { intros u v i Hi Hu. rewrite Z.mul_comm. destruct (Z.ltb_spec i n).
    - rewrite <- (Z.mod_pow2_bits_low _ n) by lia. rewrite Z.mod_add by (apply Z.pow_nonzero; lia). now rewrite Z.mod_small.
    - replace i with ((i - n) + n) at 1 by lia. rewrite <- Z.div_pow2_bits by lia. rewrite Z.div_add by (apply Z.pow_nonzero; lia). now rewrite Z.div_small, Z.add_0_l by lia. }
  assert (L : 0 <= Z.land a c < 2 ^ n).
  { split; [apply Z.land_nonneg; lia|]. destruct (Z.lt_ge_cases (Z.land a c) (2 ^ n)); auto. exfalso.
    assert (0 < 2 ^ n) by (apply Z.pow_pos_nonneg; lia). pose proof (Z.bit_log2 (Z.land a c) ltac:(lia)) as X. rewrite Z.land_spec in X.
    assert (n <= Z.log2 (Z.land a c)) by (apply Z.log2_le_pow2; lia). rewrite (testbit_high a n) in X by lia. discriminate. }
  apply Z.bits_inj'. intros i Hi. rewrite Z.land_spec, !T by lia. destruct (i <? n); now rewrite Z.land_spec.
Qed.
Lemma clamp_val key : bytes_ok key -> length key = 32%nat -> nf 0 (p_r (poly1305_init key)) /\ V5 (p_r (poly1305_init key)) = clamp (le_val (firstn 16 key)).
Proof.
  intros B L. unfold poly1305_init. cbn [p_r map seq app upd nthZ nth]. unfold nthZ. cbn [nth].
  pose proof (le32_at_word key 0 B) as B0. pose proof (le32_at_word key 1 B) as B1. pose proof (le32_at_word key 2 B) as B2. pose proof (le32_at_word key 3 B) as B3.
  assert (LE : forall v m, 0 <= v < 2 ^ 32 -> 0 <= m -> 0 <= Z.land v m < 2 ^ 32).
  { intros v m Hv Hm. split; [apply Z.land_nonneg; lia|]. pose proof (land_join 0 v 0 m 0). 
    destruct (Z.lt_ge_cases (Z.land v m) (2 ^ 32)); auto. exfalso. pose proof (Z.bit_log2 (Z.land v m) ltac:(lia)) as X. rewrite Z.land_spec in X.
    assert (32 <= Z.log2 (Z.land v m)) by (apply Z.log2_le_pow2; lia). rewrite (testbit_high v 32) in X by lia. discriminate. }
  split.
  - do 5 eexists. split; [reflexivity|]. repeat split; try apply LE; try lia.
  - rewrite V5_cons. unfold clamp. rewrite (le_val_words (firstn 16 key)) by (rewrite firstn_length; lia).
    assert (E : forall i, (i < 4)%nat -> le32_at (firstn 16 key) i = le32_at key i).
    { intros i Hi. unfold le32_at. f_equal. rewrite skipn_firstn_comm, firstn_firstn. f_equal. lia. }
    rewrite !E by lia.
    set (x0 := le32_at key 0) in *. set (x1 := le32_at key 1) in *. set (x2 := le32_at key 2) in *. set (x3 := le32_at key 3) in *.
    replace (x0 + 2 ^ 32 * x1 + 2 ^ 64 * x2 + 2 ^ 96 * x3) with (x0 + 2 ^ 32 * (x1 + 2 ^ 32 * (x2 + 2 ^ 32 * x3))) by ring.
    change 0x0ffffffc0ffffffc0ffffffc0fffffff with (0x0fffffff + 2 ^ 32 * (0x0ffffffc + 2 ^ 32 * (0x0ffffffc + 2 ^ 32 * 0x0ffffffc))).
    rewrite !land_join by lia. ring.
Qed.
Lemma s_val key : bytes_ok key -> length key = 32%nat -> nf 0 (p_s (poly1305_init key)) /\ V5 (p_s (poly1305_init key)) = le_val (skipn 16 key).
Proof.
  intros B L. unfold poly1305_init. cbn [p_s map seq app Nat.add].
  pose proof (le32_at_word key 4 B) as B0. pose proof (le32_at_word key 5 B) as B1. pose proof (le32_at_word key 6 B) as B2. pose proof (le32_at_word key 7 B) as B3.
  split; [do 5 eexists; split; [reflexivity|]; lia|].
  rewrite V5_cons, (le_val_words (skipn 16 key)) by (rewrite skipn_length; lia).
  assert (E : forall i, le32_at (skipn 16 key) i = le32_at key (i + 4)).
  { intros i. unfold le32_at. rewrite skipn_skipn'. replace (4 * (i + 4))%nat with (16 + 4 * i)%nat by lia. reflexivity. }
  rewrite !E. cbn [Nat.add]. ring.
Qed.

(* ---- the session ---- *)
Lemma blocks_val r : nf 0 r -> forall bl, Forall (fun b => length b = 16%nat /\ bytes_ok b) bl -> forall x acc, p_r x = r -> nf 4 (p_a x) -> V5 (p_a x) mod p1305 = acc -> V5 (p_a x) < 2 ^ 130 + 30 ->
  let y := fold_left poly1305_1block bl x in
  p_r y = r /\ p_s y = p_s x /\ nf 4 (p_a y) /\ V5 (p_a y) mod p1305 = fold_left (poly_step (V5 r)) bl acc /\ V5 (p_a y) < 2 ^ 130 + 30.
Proof.
  intros NR bl F. induction F as [|b bl [L B] F IH]; intros x acc Er Na Ea Ba; cbn [fold_left].
  - auto.
  - destruct (addblock (p_a x) b Na B L) as [N5 E5].
    set (a5 := p1305bn_addto 1 _ 1 4) in N5, E5.
    destruct (mul_val a5 r N5 NR) as (N6 & E6 & B6).
    assert (PB : poly1305_1block x b = {| p_r := r; p_s := p_s x; p_a := p1305bn_mul a5 r |}) by (unfold poly1305_1block; rewrite Er; reflexivity).
    rewrite PB. specialize (IH {| p_r := r; p_s := p_s x; p_a := p1305bn_mul a5 r |} (poly_step (V5 r) acc b)). cbn [p_r p_s p_a] in IH. apply IH; auto.
    rewrite E6, E5. unfold poly_step. rewrite <- Ea. assert (P0 : p1305 <> 0) by discriminate.
    rewrite <- (Z.mul_mod_idemp_l (V5 (p_a x) + _)) by exact P0. rewrite <- (Z.mul_mod_idemp_l (V5 (p_a x) mod p1305 + _)) by exact P0.
    now rewrite Z.add_mod_idemp_l by exact P0.
Qed.
Lemma tag_words a : nf 5 a \/ nf 10 a -> ca_tag {| p_r := repeat 0 5; p_s := repeat 0 5; p_a := a |} = le_bytes 16 (V5 a).
Proof.
  intros N. assert (N' : nf 10 a) by (destruct N as [(a0 & a1 & a2 & a3 & a4 & E & H)|N]; [exists a0, a1, a2, a3, a4; split; [exact E|lia]|exact N]). clear N.
  destruct N' as (a0 & a1 & a2 & a3 & a4 & -> & H0 & H1 & H2 & H3 & H4). unfold ca_tag. cbn [p_a seq flat_map]. unfold nthZ. cbn [nth]. rewrite app_nil_r.
  set (l := le_bytes 4 a0 ++ _). assert (BL : bytes_ok l) by (unfold l; repeat (apply Forall_app; split; [apply le_bytes_ok|]); apply le_bytes_ok).
  assert (LL : length l = 16%nat) by (unfold l; rewrite !app_length, !le_bytes_length; reflexivity).
  assert (E : le_val l = V5 [a0; a1; a2; a3; a4] mod 2 ^ 128).
  { unfold l. rewrite !le_val_app, !le_val_le_bytes, !le_bytes_length. change (2 ^ (8 * Z.of_nat 4)) with (2 ^ 32). rewrite !Z.mod_small by lia. rewrite V5_cons.
    symmetry. replace (a0 + 2 ^ 32 * a1 + 2 ^ 64 * a2 + 2 ^ 96 * a3 + 2 ^ 128 * a4) with (a0 + 2 ^ 32 * a1 + 2 ^ 64 * a2 + 2 ^ 96 * a3 + a4 * 2 ^ 128) by ring.
    rewrite Z.mod_add by lia. rewrite Z.mod_small by lia. ring. }
  rewrite <- (le_bytes_le_val l BL), LL, E. unfold le_bytes. change (2 ^ 128) with (2 ^ (8 * Z.of_nat 16)).
  rewrite <- (val_to_le 8 16) by lia. rewrite <- (to_le_length 8 16 (V5 [a0; a1; a2; a3; a4])) at 1. apply to_le_val; [lia|]. apply to_le_digits. lia.
Qed.
(** Whole-block messages: the accumulator is congruent to the RFC one and below 2^130 + 35. *)
Lemma poly_session key bl : bytes_ok key -> length key = 32%nat -> Forall (fun b => length b = 16%nat /\ bytes_ok b) bl ->
  exists A, 0 <= A < 2 ^ 130 + 30 /\ A mod p1305 = fold_left (poly_step (clamp (le_val (firstn 16 key)))) bl 0 /\
  ca_tag (poly1305_final (fold_left poly1305_1block bl (poly1305_init key))) = le_bytes 16 (A + le_val (skipn 16 key)).
Proof.
  intros B L F. destruct (clamp_val key B L) as [NR ER]. destruct (s_val key B L) as [NS ES].
  assert (NZ : nf 0 [0; 0; 0; 0; 0]) by (exists 0, 0, 0, 0, 0; repeat split; lia).
  destruct (blocks_val (p_r (poly1305_init key)) NR bl F (poly1305_init key) 0) as (E1 & E2 & N & E4 & BA); auto.
  { exists 0, 0, 0, 0, 0. repeat split; lia. } { cbn. lia. }
  set (y := fold_left poly1305_1block bl (poly1305_init key)) in *.
  destruct (nf_words _ _ N ltac:(lia)) as (_ & _ & BV). exists (V5 (p_a y)). split; [lia|]. split; [rewrite E4, ER; reflexivity|].
  unfold poly1305_final. rewrite E2. destruct (add_nf 4 0 _ _ N NS) as [NF EF]; try lia.
  rewrite tag_words by (left; exact NF). now rewrite EF, ES.
Qed.
