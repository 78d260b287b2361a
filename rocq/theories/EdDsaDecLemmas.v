(** eddsa_point_dec: recovery of x. *)
From Coq Require Import Znumtheory Setoid.
From Verif Require Import Base Vlong VlongLemmas VlongDivLemmas VlongMulLemmas EcMod EcModLemmas EcFieldLemmas EcExpLemmas EcCurveLemmas EcSpec EcGroupLemmas EcpXyz ScaleLemmas EcpScaleLemmas Fermat EdSpec EdCert EdGroupLemmas EcEd EdLemmas EdScaleLemmas EdCompleteLemmas CurvePrimes Der DerLemmas OctetLemmas EcMt PropEd EddsaSpec EdDsa EdDsaLemmas.

(** the roots, modulo p *)
Section Roots.
  Variable P : Z.
  Hypothesis HP : prime P.
  Hypothesis HO : P <> 2.
  Notation "x == y" := (eqm P x y) (at level 70).
  Lemma pow_nz w j : 0 <= j -> ~ w == 0 -> ~ w ^ j == 0.
  Proof.
    intros Hj N. revert j Hj. apply natlike_ind.
    - rewrite Z.pow_0_r. intros E. apply eqm_mod in E; [|pose proof (prime_ge_2 _ HP); lia]. pose proof (prime_ge_2 _ HP). rewrite Z.mod_0_l, Z.mod_small in E by lia. discriminate.
    - intros j Hj IH. rewrite Z.pow_succ_r by exact Hj. now apply mul_nz.
  Qed.
  Lemma half_pow w k : 0 <= k -> P = 2 * k + 1 -> ~ w == 0 -> w ^ k == 1 \/ w ^ k == -1.
  Proof.
    intros Hk Ek Nw. assert (E : w ^ (P - 1) == 1) by now apply eqm_pow_unit.
    replace (P - 1) with (k + k) in E by lia. rewrite Z.pow_add_r in E by lia.
    assert (D : (w ^ k - 1) * (w ^ k + 1) == 0). { replace ((w ^ k - 1) * (w ^ k + 1)) with (w ^ k * w ^ k - 1) by ring. rewrite E. reflexivity. }
    unfold eqm in D. rewrite Z.sub_0_r in D. apply prime_mult in D; [|exact HP]. destruct D as [D|D]; [left|right]; unfold eqm; [exact D|].
    replace (w ^ k - -1) with (w ^ k + 1) by ring. exact D.
  Qed.
  (** x = u v^3 (u v^7)^k, P = 8k+5 *)
  Lemma root5 u v k : 0 <= k -> v * ((u * v ^ 3 * (u * v ^ 7) ^ k) * (u * v ^ 3 * (u * v ^ 7) ^ k)) = u * (u * v ^ 7) ^ (2 * k + 1).
  Proof.
    intros Hk. set (z := u * v ^ 7). replace (2 * k + 1) with (k + k + 1) by lia. rewrite !Z.pow_add_r by lia. rewrite Z.pow_1_r. unfold z at 5. ring.
  Qed.
  Lemma root5_square u v X k : 0 <= k -> P = 8 * k + 5 -> v * (X * X) == u -> ~ u == 0 -> (u * v ^ 7) ^ (2 * k + 1) == 1 \/ (u * v ^ 7) ^ (2 * k + 1) == -1.
  Proof.
    intros Hk Ek E N. assert (Nv : ~ v == 0). { intros Z0. apply N. rewrite <- E, Z0. apply eqm_eq. ring. }
    assert (Nx : ~ X == 0). { intros Z0. apply N. rewrite <- E, Z0. apply eqm_eq. ring. }
    assert (E2 : u * v ^ 7 == (v ^ 4 * X) ^ 2). { rewrite <- E. apply eqm_eq. ring. }
    assert (E3 : (u * v ^ 7) ^ (2 * k + 1) == (v ^ 4 * X) ^ (4 * k + 2)).
    { rewrite (pow_eqm P _ _ (2 * k + 1) ltac:(lia) E2). apply eqm_eq. rewrite <- Z.pow_mul_r by lia. f_equal. lia. }
    destruct (half_pow (v ^ 4 * X) (4 * k + 2)) as [F|F]; [lia|lia| |left|right]; [|now rewrite E3|now rewrite E3].
    apply mul_nz; auto. now apply pow_nz.
  Qed.
  (** x = u^3 v (u^5 v^3)^k, P = 4k+3 *)
  Lemma root3 u v k : 0 <= k -> v * ((u ^ 3 * v * (u ^ 5 * v ^ 3) ^ k) * (u ^ 3 * v * (u ^ 5 * v ^ 3) ^ k)) = u * (u ^ 5 * v ^ 3) ^ (2 * k + 1).
  Proof.
    intros Hk. set (z := u ^ 5 * v ^ 3). replace (2 * k + 1) with (k + k + 1) by lia. rewrite !Z.pow_add_r by lia. rewrite Z.pow_1_r. unfold z at 5. ring.
  Qed.
  Lemma root3_square u v X k : 0 <= k -> P = 4 * k + 3 -> v * (X * X) == u -> ~ u == 0 -> (u ^ 5 * v ^ 3) ^ (2 * k + 1) == 1.
  Proof.
    intros Hk Ek E N. assert (Nv : ~ v == 0). { intros Z0. apply N. rewrite <- E, Z0. apply eqm_eq. ring. }
    assert (Nx : ~ X == 0). { intros Z0. apply N. rewrite <- E, Z0. apply eqm_eq. ring. }
    assert (E2 : u ^ 5 * v ^ 3 == (v ^ 4 * X ^ 5) ^ 2). { rewrite <- (pow_eqm P _ _ 5 ltac:(lia) E). apply eqm_eq. ring. }
    rewrite (pow_eqm P _ _ (2 * k + 1) ltac:(lia) E2), <- Z.pow_mul_r by lia. replace (2 * (2 * k + 1)) with (P - 1) by lia.
    apply eqm_pow_unit; auto.
    apply mul_nz; auto; apply pow_nz; auto; lia.
  Qed.
End Roots.

Section Lib.
  Variable D : eddsa_params.
  Hypothesis HD : dlib D.
  Notation c := (dp_c D).
  Notation n := (ed_w (dp_c D)).
  Notation p := (ed_p (dp_c D)).
  Notation g := (ed_g (dp_c D)).
  Notation P := (vval (ed_p (dp_c D))).
  Notation d1 := (ed_over (dp_c D)).
  Notation d2 := (ed_under (dp_c D)).
  Notation "x == y" := (eqm P x y) (at level 70).
  Notation mul a b := (fst (vlong_mulv_masked n a b 1 (Some g))).
  Notation R := (rep n p).
  Let F := d_field D HD.
  Lemma lin_u r x : R r x -> R (ecp_imod_inplace g p (vlong_imuls (vlong_adds n r (-1) 0) (vlong_adds n r (-1) 0) d2 false)) ((x - 1) * d2).
  Proof.
    intros (A1 & A2 & A3 & A4). pose proof (fo_pos _ _ _ F) as PP. pose proof (vval_bound r A1) as U. pose proof (eo_under c (d_ok D HD)) as Hd.
    apply (imod_rep n p g F) with (s := (vval r - 1) * d2).
    - apply imuls_loop_words.
    - unfold vlong_imuls. rewrite imuls_loop_length. apply vlong_adds_length.
    - rewrite vlong_imuls_val by (try apply vlong_adds_words; clear -Hd; lia). rewrite vlong_adds_length, Z.add_0_r. 
      rewrite vlong_adds_val by (try assumption; lia). change (-1 * 2 ^ (32 * Z.of_nat 0)) with (-1). rewrite Zmult_mod_idemp_l. reflexivity.
    - clear -U A3 Hd PP. nia.
    - rewrite Zmult_mod, Zminus_mod, A4, <- Zminus_mod, <- Zmult_mod. reflexivity.
  Qed.
  Lemma lin_v r x e : - 2 ^ 20 <= e <= 2 ^ 20 -> R r x -> R (ecp_imod_inplace g p (vlong_adds n (vlong_imuls (vlong_cpy n r) (vlong_cpy n r) d1 false) e 0)) (x * d1 + e).
  Proof.
    intros He Rr. apply (cpy_rep n p) in Rr. set (r' := vlong_cpy n r) in *. clearbody r'. destruct Rr as (A1 & A2 & A3 & A4).
    pose proof (fo_pos _ _ _ F) as PP. pose proof (vval_bound r' A1) as U. pose proof (eo_over c (d_ok D HD)) as Hd.
    apply (imod_rep n p g F) with (s := vval r' * d1 + e).
    - apply vlong_adds_words.
    - apply vlong_adds_length.
    - rewrite vlong_adds_val by (try apply imuls_loop_words; clear -He; lia). rewrite vlong_imuls_val by (try assumption; clear -Hd; lia). rewrite A2, Z.add_0_r.
      replace (e * 2 ^ (32 * Z.of_nat 0)) with e by (change (2 ^ (32 * Z.of_nat 0)) with 1; ring). rewrite Zplus_mod_idemp_l. reflexivity.
    - clear -U A3 Hd PP He. nia.
    - rewrite Zplus_mod, Zmult_mod, A4, <- Zmult_mod, <- Zplus_mod. reflexivity.
  Qed.
  Lemma M_rep a b x y : R a x -> R b y -> R (mul a b) (x * y). Proof. apply (mul_rep' c (d_ok D HD)). Qed.
  Lemma cmp_zero a b : words_ok a -> words_ok b -> (vlong_cmpv_shifted a b 0 =? 0) = (vval a =? vval b).
  Proof.
    intros A B. rewrite vlong_cmpv_shifted_spec by assumption. change (2 ^ Z.of_nat 0) with 1. rewrite Z.mul_1_r. unfold cmpcode.
    destruct (vval a =? vval b); [reflexivity|]. destruct (vval b <? vval a); reflexivity.
  Qed.
  Lemma zero_of z x : R z x -> x == 0 -> vval z = 0 \/ vval z = P.
  Proof.
    intros Rz E. pose proof (rep_b D z x Rz) as B. pose proof (rep_e D HD z x Rz) as E'. rewrite E in E'. pose proof (d_P1 D HD).
    destruct (Z.eq_dec (vval z) P) as [|N]; [now right|left]. apply eqm_mod in E'; [|lia]. rewrite Z.mod_0_l, Z.mod_small in E' by lia. exact E'.
  Qed.
  Lemma neg_rep z x : R z x -> R (vlong_subv n p z) (- x) /\ vval (vlong_subv n p z) = P - vval z.
  Proof.
    intros Rz. pose proof (rep_b D z x Rz) as B. pose proof (rep_e D HD z x Rz) as E. pose proof (d_P1 D HD). pose proof (fo_room _ _ _ F) as RM. pose proof (fo_words _ _ _ F) as Wp.
    assert (V : vval (vlong_subv n p z) = P - vval z).
    { rewrite vlong_subv_val by (try exact Wp; apply Rz). fold (pw n). apply Z.mod_small. lia. }
    split; [|exact V]. split; [apply vlong_subv_words|]. split; [apply vlong_subv_length|]. rewrite V. split; [lia|].
    apply eqm_mod; [lia|]. rewrite E. exists 1. ring.
  Qed.

  Lemma k_25519 : D = dp_25519 -> exists k, 0 <= k /\ P = 8 * k + 5 /\ (P + -5) / 2 ^ Z.of_nat 3 = k /\
    (0 < length p)%nat /\ 0 <= nthZ 0 p + -5 /\ P + -5 < pw (length p) /\ vval po2_25519 * vval po2_25519 == -1.
  Proof.
    intros ED. exists (2 ^ 252 - 3). pose proof (d_P1 D HD) as P1. subst D. split; [clear; lia|]. split; [vm_compute; reflexivity|]. split; [vm_compute; reflexivity|].
    split; [cbn; clear; lia|]. split; [apply Z.leb_le; vm_compute; reflexivity|]. split; [apply Z.ltb_lt; vm_compute; reflexivity|].
    apply eqm_by; [vm_compute; reflexivity|clear -P1; lia].
  Qed.
  Lemma k_448 : D = dp_448 -> exists k, 0 <= k /\ P = 4 * k + 3 /\ (P + -3) / 2 ^ Z.of_nat 2 = k /\
    (0 < length p)%nat /\ 0 <= nthZ 0 p + -3 /\ P + -3 < pw (length p).
  Proof.
    intros ED. exists (2 ^ 446 - 2 ^ 222 - 1). subst D. split; [apply Z.leb_le; vm_compute; reflexivity|]. split; [vm_compute; reflexivity|]. split; [vm_compute; reflexivity|].
    split; [cbn; clear; lia|]. split; [apply Z.leb_le; vm_compute; reflexivity|apply Z.ltb_lt; vm_compute; reflexivity].
  Qed.
  Definition uU (Y : Z) : Z := (Y * Y - 1) * d2.
  Definition getx_ok (y : list Z) (Y V : Z) (gx : option (list Z)) : Prop :=
    (forall x, gx = Some x -> R x (vval x) /\ V * (vval x * vval x) == uU Y) /\
    ((exists X, V * (X * X) == uU Y) -> ~ uU Y == 0 -> exists x, gx = Some x).

  Lemma getx_25519_ok y Y : D = dp_25519 -> words_ok y -> length y = n -> vval y <= 8 * P -> vval y == Y ->
    getx_ok y Y (Y * Y * d1 + d2) (getx_p25519 D y) /\ (uU Y == 0 -> exists x, getx_p25519 D y = Some x).
  Proof.
    intros ED W L B E. pose proof (d_P1 D HD) as P1. assert (E' : vval y mod P = Y mod P) by (apply eqm_mod; [lia|exact E]).
    pose proof (mul_big D HD y y Y Y W B W L E' E') as R0. unfold getx_p25519. fold n.
    set (y2 := mul y y) in *. clearbody y2. cbv zeta. unfold getx_ok.
    pose proof (eo_under c (d_ok D HD)) as Hd2.
    pose proof (lin_u _ _ R0) as Ru. pose proof (lin_v _ _ d2 ltac:(lia) R0) as Rv.
    set (u := ecp_imod_inplace g p (vlong_imuls (vlong_adds n y2 (-1) 0) (vlong_adds n y2 (-1) 0) d2 false)) in *.
    set (v := ecp_imod_inplace g p (vlong_adds n (vlong_imuls (vlong_cpy n y2) (vlong_cpy n y2) d1 false) d2 0)) in *. clearbody u v.
    change ((Y * Y - 1) * d2) with (uU Y) in Ru. set (U := uU Y) in *. set (V := Y * Y * d1 + d2) in *.
    pose proof (M_rep _ _ _ _ Rv Rv) as R1. set (r1 := mul v v) in *. clearbody r1.
    pose proof (M_rep _ _ _ _ R1 Rv) as R2. set (s1 := mul r1 v) in *. clearbody s1.
    pose proof (cpy_rep n p _ _ R2) as R3. set (a := vlong_cpy n s1) in *. clearbody a.
    pose proof (M_rep _ _ _ _ R2 R2) as R4. set (r2 := mul s1 s1) in *. clearbody r2.
    pose proof (M_rep _ _ _ _ R4 Rv) as R5. set (s2 := mul r2 v) in *. clearbody s2.
    pose proof (M_rep _ _ _ _ R5 Ru) as R6. set (r3 := mul s2 u) in *. clearbody r3.
    destruct (k_25519 ED) as (k & Hk & Ek & Ek' & L0 & L1 & L2 & Ei).
    pose proof (shiftadded_spec n p g p r3 _ (-5) 3 F (fo_words _ _ _ F) R6 L1 ltac:(lia) L2 ltac:(lia) L0) as R7. rewrite Ek' in R7.
    set (s3 := vlong_modexpv_shiftadded n r3 g p (-5) 3) in *. clearbody s3.
    pose proof (M_rep _ _ _ _ R7 R3) as R8. set (r4 := mul s3 a) in *. clearbody r4.
    pose proof (M_rep _ _ _ _ R8 Ru) as Rx. set (x := mul r4 u) in *. clearbody x.
    pose proof (M_rep _ _ _ _ Rx Rx) as R9. set (w := mul x x) in *. clearbody w.
    pose proof (M_rep _ _ _ _ Rv R9) as R10. set (r := mul v w) in *. clearbody r.
    replace (V * V * V * (V * V * V) * V * U) with (U * V ^ 7) in * by ring.
    set (z := (U * V ^ 7) ^ k) in *. 
    replace (z * (V * V * V) * U) with (U * V ^ 3 * z) in * by ring.
    assert (RT : V * (U * V ^ 3 * z * (U * V ^ 3 * z)) = U * (U * V ^ 7) ^ (2 * k + 1)) by (apply root5; exact Hk).
    pose proof (rep_e D HD _ _ Rx) as Ex. pose proof (rep_e D HD _ _ R10) as Er. pose proof (rep_e D HD _ _ Ru) as Eu. pose proof (rep_b D _ _ R10) as Br. pose proof (rep_b D _ _ Ru) as Bu.
    assert (Ri : R (mul x po2_25519) (vval x * vval po2_25519)).
    { assert (Ri0 : repb n p 1 po2_25519 (vval po2_25519) \/ True) by now right. clear Ri0.
      assert (Wi : words_ok po2_25519). { apply Forall_forall. intros q Hq. assert (Q : forallb (fun z => (0 <=? z) && (z <? 2 ^ 32)) po2_25519 = true) by (vm_compute; reflexivity).
        rewrite forallb_forall in Q. specialize (Q q Hq). apply andb_true_iff in Q. destruct Q as [Q1 Q2]. apply Z.leb_le in Q1. apply Z.ltb_lt in Q2. split; assumption. }
      destruct (mulv_on n x po2_25519 1 P P g (rep_w D _ _ Rx) Wi ltac:(cbn; lia) ltac:(now right) (fo_good _ _ _ F) (proj2 (rep_b D _ _ Rx)) ltac:(lia)) as (o & Eo & Wo & Lo & Bo & Vo).
      { pose proof (fo_room _ _ _ F). clear -H P1. lia. }
      rewrite Eo. cbn [fst]. split; [exact Wo|]. split; [exact Lo|]. split; [exact Bo|]. rewrite Vo. reflexivity. }
    rewrite (cmp_zero r u (rep_w D _ _ R10) (rep_w D _ _ Ru)).
    destruct (neg_rep r _ R10) as [Rn Vn]. rewrite (cmp_zero _ u (rep_w D _ _ Rn) (rep_w D _ _ Ru)), Vn.
    pose proof (rep_e D HD _ _ Rv) as Ev.
    split; [split|].
    - intros x0 H0. destruct (vval r =? vval u) eqn:C1.
      + injection H0 as <-. apply Z.eqb_eq in C1. split; [split; [apply Rx|split; [apply Rx|split; [apply Rx|reflexivity]]]|].
        rewrite Ex. rewrite <- Er, C1. exact Eu.
      + destruct (P - vval r =? vval u) eqn:C2; [|discriminate]. injection H0 as <-. apply Z.eqb_eq in C2.
        pose proof (cpy_rep n p _ _ Ri) as Ri'. pose proof (rep_e D HD _ _ Ri') as Ei'. split; [split; [apply Ri'|split; [apply Ri'|split; [apply Ri'|reflexivity]]]|].
        rewrite Ei', Ex. transitivity ((vval po2_25519 * vval po2_25519) * (V * (U * V ^ 3 * z * (U * V ^ 3 * z)))); [apply eqm_eq; ring|].
        rewrite Ei, <- Er. rewrite <- Eu, <- C2. exists (-1). ring.
    - intros (X & HX) NU. pose proof (root5_square P (d_prime D HD) (d_odd D HD) U V X k Hk Ek HX NU) as Q. rewrite RT in Er, R10.
      destruct (vval r =? vval u) eqn:C1; [eexists; reflexivity|]. destruct (P - vval r =? vval u) eqn:C2; [eexists; reflexivity|].
      exfalso. apply Z.eqb_neq in C1, C2. destruct Q as [Q|Q].
      + apply C1. apply (rep_same D HD r u U); [|exact Ru|exact NU]. apply (rep_ext n p _ (U * (U * V ^ 7) ^ (2 * k + 1))); [|exact R10].
        apply eqm_mod; [lia|]. rewrite Q, Z.mul_1_r. reflexivity.
      + apply C2. rewrite <- Vn. apply (rep_same D HD _ u U); [|exact Ru|exact NU]. refine (rep_ext n p _ _ _ _ Rn). apply eqm_mod; [lia|]. rewrite RT, Q. apply eqm_eq. ring.
    - intros U0. rewrite RT in R10. assert (Z1 : U * (U * V ^ 7) ^ (2 * k + 1) == 0). { clear -U0. generalize ((U * V ^ 7) ^ (2 * k + 1)). intros q. rewrite U0. apply eqm_eq. ring. }
      destruct (zero_of _ _ R10 Z1) as [Zr|Zr]; destruct (zero_of _ _ Ru U0) as [Zu|Zu]; rewrite Zr, Zu.
      + rewrite Z.eqb_refl. eexists; reflexivity.
      + rewrite Z.sub_0_r, Z.eqb_refl. destruct (0 =? P); eexists; reflexivity.
      + rewrite Z.sub_diag, Z.eqb_refl. destruct (P =? 0); eexists; reflexivity.
      + rewrite Z.eqb_refl. eexists; reflexivity.
  Qed.

  Lemma getx_448_ok y Y : D = dp_448 -> words_ok y -> length y = n -> vval y <= 8 * P -> vval y == Y ->
    getx_ok y Y (Y * Y * d1 + - d2) (getx_p448 D y).
  Proof.
    intros ED W L B E. pose proof (d_P1 D HD) as P1. assert (E' : vval y mod P = Y mod P) by (apply eqm_mod; [lia|exact E]).
    pose proof (mul_big D HD y y Y Y W B W L E' E') as R0. unfold getx_p448. fold n.
    set (y2 := mul y y) in *. clearbody y2. cbv zeta. unfold getx_ok.
    pose proof (eo_under c (d_ok D HD)) as Hd2.
    pose proof (lin_u _ _ R0) as Ru. pose proof (lin_v _ _ (- d2) ltac:(lia) R0) as Rv.
    set (u := ecp_imod_inplace g p (vlong_imuls (vlong_adds n y2 (-1) 0) (vlong_adds n y2 (-1) 0) d2 false)) in *.
    set (v := ecp_imod_inplace g p (vlong_adds n (vlong_imuls (vlong_cpy n y2) (vlong_cpy n y2) d1 false) (- d2) 0)) in *. clearbody u v.
    change ((Y * Y - 1) * d2) with (uU Y) in Ru. set (U := uU Y) in *. set (V := Y * Y * d1 + - d2) in *.
    pose proof (M_rep _ _ _ _ Rv Rv) as R1. set (r1 := mul v v) in *. clearbody r1.
    pose proof (M_rep _ _ _ _ R1 Rv) as R2. set (s1 := mul r1 v) in *. clearbody s1.
    pose proof (M_rep _ _ _ _ Ru Ru) as R3. set (a := mul u u) in *. clearbody a.
    pose proof (M_rep _ _ _ _ R3 R3) as R4. set (r2 := mul a a) in *. clearbody r2.
    pose proof (M_rep _ _ _ _ R4 Ru) as R5. set (w5 := mul r2 u) in *. clearbody w5.
    pose proof (M_rep _ _ _ _ R5 R2) as R6. set (r3 := mul w5 s1) in *. clearbody r3.
    destruct (k_448 ED) as (k & Hk & Ek & Ek' & L0 & L1 & L2).
    pose proof (shiftadded_spec n p g p r3 _ (-3) 2 F (fo_words _ _ _ F) R6 L1 ltac:(lia) L2 ltac:(lia) L0) as R7. rewrite Ek' in R7.
    set (s3 := vlong_modexpv_shiftadded n r3 g p (-3) 2) in *. clearbody s3.
    pose proof (M_rep _ _ _ _ R7 R3) as R8. set (r4 := mul s3 a) in *. clearbody r4.
    pose proof (M_rep _ _ _ _ R8 Ru) as R8'. set (r5 := mul r4 u) in *. clearbody r5.
    pose proof (M_rep _ _ _ _ R8' Rv) as Rx. set (x := mul r5 v) in *. clearbody x.
    pose proof (M_rep _ _ _ _ Rx Rx) as R9. set (w := mul x x) in *. clearbody w.
    pose proof (M_rep _ _ _ _ Rv R9) as R10. set (r := mul v w) in *. clearbody r.
    replace (U * U * (U * U) * U * (V * V * V)) with (U ^ 5 * V ^ 3) in * by ring.
    set (z := (U ^ 5 * V ^ 3) ^ k) in *. 
    replace (z * (U * U) * U * V) with (U ^ 3 * V * z) in * by ring.
    assert (RT : V * (U ^ 3 * V * z * (U ^ 3 * V * z)) = U * (U ^ 5 * V ^ 3) ^ (2 * k + 1)) by (apply root3; exact Hk).
    pose proof (rep_e D HD _ _ Rx) as Ex. pose proof (rep_e D HD _ _ R10) as Er. pose proof (rep_e D HD _ _ Ru) as Eu.
    rewrite (cmp_zero r u (rep_w D _ _ R10) (rep_w D _ _ Ru)).
    split.
    - intros x0 H0. destruct (vval r =? vval u) eqn:C1; [|discriminate].
      injection H0 as <-. apply Z.eqb_eq in C1. split; [split; [apply Rx|split; [apply Rx|split; [apply Rx|reflexivity]]]|].
      rewrite Ex. rewrite <- Er, C1. exact Eu.
    - intros (X & HX) NU. pose proof (root3_square P (d_prime D HD) (d_odd D HD) U V X k Hk Ek HX NU) as Q. rewrite RT in R10.
      destruct (vval r =? vval u) eqn:C1; [eexists; reflexivity|].
      exfalso. apply Z.eqb_neq in C1. apply C1. apply (rep_same D HD r u U); [|exact Ru|exact NU].
      apply (rep_ext n p _ (U * (U ^ 5 * V ^ 3) ^ (2 * k + 1))); [|exact R10]. apply eqm_mod; [lia|]. rewrite Q, Z.mul_1_r. reflexivity.
  Qed.
End Lib.
