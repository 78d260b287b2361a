(** The five curve fields satisfy [field_ok]; inverses and square roots. *)
From Coq Require Import Znumtheory.
From Verif Require Import Base Vlong VlongLemmas VlongDivLemmas VlongMulLemmas EcMod EcModLemmas EcFieldLemmas EcExpLemmas Fermat.

Lemma reduces_good n p Q g : 0 < vval p ->
  (forall v, words_ok v -> length v = n -> vval v <= Q -> exists v', g v = (v', true) /\ reduces p v v') ->
  good_on n (vval p) (vval p) Q g.
Proof.
  intros Hp H v W L B. destruct (H v W L B) as (v' & E & W' & L' & V). exists v'.
  split; [exact E|]. split; [exact W'|]. split; [congruence|].
  pose proof (Z.mod_pos_bound (vval v) (vval p) Hp). destruct V as [V|[V V0]]; rewrite V.
  - rewrite Z.mod_mod by lia. split; [reflexivity|lia].
  - rewrite Z_mod_same_full. split; [congruence|lia].
Qed.

Lemma field_secp256r1 n : (10 <= n)%nat -> field_ok n Fp_secp256r1 remv_secp256r1.
Proof.
  intros Hn. assert (X : pw 10 <= pw n) by now apply pw_le.
  split; [const_words|cbn [length Fp_secp256r1]; lia|concrete|eapply Z.lt_le_trans; [|exact X]; concrete|].
  apply reduces_good; [concrete|]. intros v W L _. apply remv_secp256r1_spec; auto. lia.
Qed.
Lemma field_secp384r1 n : (14 <= n)%nat -> field_ok n Fp_secp384r1 remv_secp384r1.
Proof.
  intros Hn. assert (X : pw 14 <= pw n) by now apply pw_le.
  split; [const_words|cbn [length Fp_secp384r1]; lia|concrete|eapply Z.lt_le_trans; [|exact X]; concrete|].
  apply reduces_good; [concrete|]. intros v W L _. apply remv_secp384r1_spec; auto. lia.
Qed.
Lemma field_SM2 n : (10 <= n)%nat -> field_ok n Fp_SM2 remv_SM2.
Proof.
  intros Hn. assert (X : pw 10 <= pw n) by now apply pw_le.
  split; [const_words|cbn [length Fp_SM2]; lia|concrete|eapply Z.lt_le_trans; [|exact X]; concrete|].
  apply reduces_good; [concrete|]. intros v W L B. apply remv_SM2_spec; auto; [lia|].
  eapply Z.le_lt_trans; [exact B|]. concrete.
Qed.
Lemma field_448 n : (16 <= n)%nat -> field_ok n Fp_448 remv_448.
Proof.
  intros Hn. assert (X : pw 16 <= pw n) by now apply pw_le.
  split; [const_words|cbn [length Fp_448]; lia|concrete|eapply Z.lt_le_trans; [|exact X]; concrete|].
  apply reduces_good; [concrete|]. intros v W L _. apply remv_448_spec; auto. lia.
Qed.
Lemma field_25519 n : (10 <= n)%nat -> field_ok n Fp_25519 remv_25519.
Proof.
  intros Hn. assert (X : pw 10 <= pw n) by now apply pw_le.
  split; [const_words|cbn [length Fp_25519]; lia|concrete|eapply Z.lt_le_trans; [|exact X]; concrete|].
  apply reduces_good; [concrete|]. intros v W L _. apply remv_25519_spec; auto. lia.
Qed.

(** the generic reduction also qualifies, whatever the modulus (used modulo the group order) *)
Lemma field_remv n p : words_ok p -> (length p + 2 <= n)%nat -> 1 < vval p ->
  field_ok n p (fun v => vlong_remv_inplace v p).
Proof.
  intros W L H. split; auto; [lia| |].
  - pose proof (vval_bound p W) as B. assert (X : pw (S (S (length p))) <= pw n) by (apply pw_le; lia).
    rewrite !pow32_succ in X. lia.
  - intros v Wv Lv _. destruct (good_weaken _ _ _ (vval p) _ (remv_good n p W ltac:(lia) ltac:(lia)) ltac:(lia) v Wv Lv) as (v' & A).
    exists v'. exact A.
Qed.

Lemma inv_spec n p g x0 x : field_ok n p g -> prime (vval p) -> 2 <= nthZ 0 p -> rep n p x0 x -> ~ (vval p | x) ->
  rep n p (vlong_inv_fermat n x0 g p) (x ^ (vval p - 2)) /\
  (x * vval (vlong_inv_fermat n x0 g p)) mod vval p = 1.
Proof.
  intros F Hp H2 R Hx. pose proof (fo_words _ _ _ F) as W. pose proof (fo_pos _ _ _ F) as P1.
  assert (L : (0 < length p)%nat). { destruct p; [cbn in P1; lia|cbn; lia]. }
  pose proof (vval_bound p W) as B.
  assert (R' : rep n p (vlong_inv_fermat n x0 g p) (x ^ (vval p - 2))).
  { unfold vlong_inv_fermat.
    pose proof (shiftadded_spec n p g p x0 x (-2) 0 F W R ltac:(lia) ltac:(lia) ltac:(lia) ltac:(lia) L) as S.
    change (Z.of_nat 0) with 0 in S. rewrite Z.pow_0_r, Z.div_1_r in S. exact S. }
  split; [exact R'|]. destruct R' as (_ & _ & _ & V).
  rewrite <- Zmult_mod_idemp_r, V, Zmult_mod_idemp_r. now apply fermat_inverse.
Qed.

Lemma sqrt_spec n p g x0 x : field_ok n p g -> prime (vval p) -> vval p mod 4 = 3 -> rep n p x0 x -> 
  exists r, vlong_sqrt_c3m4 n x0 g p = Some r /\ rep n p r (x ^ ((vval p + 1) / 4)) /\
    ((exists y, x mod vval p = (y * y) mod vval p) <-> (vval r * vval r) mod vval p = x mod vval p).
Proof.
  intros F Hp H4 R. pose proof (fo_words _ _ _ F) as W. pose proof (fo_pos _ _ _ F) as P1.
  assert (L : (0 < length p)%nat). { destruct p; [cbn in P1; lia|cbn; lia]. }
  pose proof (vval_bound p W) as B.
  assert (N0 : nthZ 0 p = vval p mod 2 ^ 32).
  { rewrite (nthZ_vval p 0 W). change (32 * Z.of_nat 0) with 0. now rewrite Z.pow_0_r, Z.div_1_r. }
  assert (C : Z.land (nthZ 0 p) 3 = 3).
  { change 3 with (Z.ones 2) at 1. rewrite Z.land_ones, N0 by lia. change (2 ^ 2) with 4.
    rewrite <- Zmod_div_mod; try lia. exists (2 ^ 30). reflexivity. }
  unfold vlong_sqrt_c3m4. rewrite C. cbn [Z.eqb Pos.eqb negb].
  eexists. split; [reflexivity|].
  assert (NB : vval p + 1 < pw (length p)).
  { assert (vval p + 1 <> pw (length p)); [|lia]. intros E.
    (* p = 2^(32 k) - 1 is divisible by 3 *)
    assert (D3 : (3 | vval p)).
    { replace (vval p) with (pw (length p) - 1) by lia.
      replace (pw (length p)) with ((2 ^ 32) ^ Z.of_nat (length p)) by (rewrite <- Z.pow_mul_r by lia; reflexivity).
      apply Z.mod_divide; [lia|]. rewrite Zminus_mod, <- pow_mod by lia. change (2 ^ 32 mod 3) with 1.
      rewrite Z.pow_1_l by lia. reflexivity. }
    apply prime_div_prime in D3; auto; [|apply prime_3].
    destruct (length p) eqn:EL; [lia|]. rewrite pow32_succ in E. pose proof (pow32_pos n0). lia. }
  pose proof (shiftadded_spec n p g p x0 x 1 2 F W R ltac:(pose proof (nthZ_range p 0 W); lia) ltac:(lia) NB ltac:(lia) L) as S.
  change (2 ^ Z.of_nat 2) with 4 in S. split; [exact S|]. destruct S as (_ & _ & _ & V).
  set (r := vlong_modexpv_shiftadded n x0 g p 1 2) in *.
  assert (VV : (vval r * vval r) mod vval p = (x ^ ((vval p + 1) / 4) * x ^ ((vval p + 1) / 4)) mod vval p)
    by (apply mod_mul_congr; auto).
  split.
  - intros (y & Hy). rewrite VV.
    pose proof (Z.div_mod (vval p) 4 ltac:(lia)) as D. set (q := vval p / 4) in *.
    assert (E1 : (vval p + 1) / 4 = q + 1). { symmetry. apply Z.div_unique with (r := 0); lia. }
    rewrite E1. assert (Q0 : 0 <= q) by (unfold q; apply Z.div_pos; lia).
    transitivity (((y * y) ^ (q + 1) * (y * y) ^ (q + 1)) mod vval p).
    + assert (X : x ^ (q + 1) mod vval p = (y * y) ^ (q + 1) mod vval p).
      { rewrite <- (pow_mod _ x), <- (pow_mod _ (y * y)), Hy by lia. reflexivity. }
      now apply mod_mul_congr.
    + rewrite Hy. rewrite <- Z.pow_add_r by lia. replace (y * y) with (y ^ 2) by apply Z.pow_2_r. rewrite <- Z.pow_mul_r by (clear -Q0; lia).
      destruct (Znumtheory.Zdivide_dec (vval p) y) as [D0|D0].
      * assert (NZ : vval p <> 0) by (clear -P1; lia).
        rewrite (proj2 (Z.mod_divide (y ^ (2 * (q + 1 + (q + 1)))) (vval p) NZ)) by (apply divide_pow; [clear -Q0; lia|exact D0]).
        symmetry. apply (proj2 (Z.mod_divide (y ^ 2) (vval p) NZ)). apply divide_pow; [lia|exact D0].
      * replace (2 * (q + 1 + (q + 1))) with ((vval p - 1) + 2) by (clear -D H4; lia).
        rewrite Z.pow_add_r, <- Zmult_mod_idemp_l, fermat, Z.mul_1_l by (auto; clear -P1; lia). reflexivity.
  - intros H. exists (vval r). symmetry. exact H.
Qed.
