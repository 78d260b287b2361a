(** When the sum of two opposite points is stored with Z = 0 exactly (and not with Z = p). *)
From Coq Require Import Znumtheory Setoid.
From Verif Require Import Base Vlong VlongLemmas VlongDivLemmas VlongMulLemmas EcMod EcModLemmas EcFieldLemmas EcExpLemmas EcCurveLemmas EcWideLemmas
  EcSpec EcGroupLemmas EcpXyz EcpLemmas ScaleLemmas EcLawLemmas EcpScaleLemmas EcMulLemmas PropEcp Ecc EccLemmas.

Lemma zero_words v n : words_ok v -> length v = n -> vval v = 0 -> v = repeat 0 n.
Proof.
  intros W L V. apply (val_le_inj 32); [lia|exact W|apply repeat_words|now rewrite repeat_length|]. now rewrite V, val_le_zeros.
Qed.
Definition zero_ok (c : ecp_curve) : Prop := cv_g c (repeat 0 (cv_w c)) = (repeat 0 (cv_w c), true).
Lemma zero_weierstrass c : weierstrass c -> zero_ok c.
Proof.
  intros [->|[->|[->|(A1 & A2 & A3 & A4 & _)]]]; try (vm_compute; reflexivity).
  unfold zero_ok. rewrite A4. destruct (vlong_remv_inplace_spec (repeat 0 (cv_w c)) (cv_p c) (repeat_words _) A1) as (E & W & L & V).
  - rewrite repeat_length. lia.
  - lia.
  - rewrite val_le_zeros, Zmod_0_l in V. rewrite repeat_length in L.
    rewrite (surjective_pairing (vlong_remv_inplace _ _)), E, (zero_words _ _ W L V). reflexivity.
Qed.
Lemma wide_weierstrass c : weierstrass c -> wide_ok (cv_w c) (cv_p c) (cv_g c).
Proof.
  intros [->|[->|[->|(A1 & A2 & A3 & A4 & _)]]].
  - split; [|cbn; lia]. apply reduces_good; [concrete|]. intros v W L _. apply remv_secp256r1_spec; auto. rewrite L. cbn; lia.
  - split; [|cbn; lia]. apply reduces_good; [concrete|]. intros v W L _. apply remv_secp384r1_spec; auto. rewrite L. cbn; lia.
  - split; [|cbn; lia]. apply reduces_good; [concrete|]. intros v W L B. apply remv_SM2_spec; auto; [rewrite L; cbn; lia|].
    eapply Z.le_lt_trans; [exact B|]. concrete.
  - rewrite A4. split; [|lia]. intros v Wv Lv _.
    destruct (good_weaken _ _ _ (vval (cv_p c)) _ (remv_good (cv_w c) (cv_p c) A1 ltac:(lia) ltac:(lia)) ltac:(lia) v Wv Lv) as (v' & A). exists v'. exact A.
Qed.

Section Curve.
  Variable c : ecp_curve.
  Hypothesis WC : weierstrass c.
  Hypothesis OC : odd_prime_order c.
  Notation n := (cv_w c). Notation P := (vval (cv_p c)). Notation a := (cv_a c). Notation b := (vval (cv_b c)).
  Notation z0 := (repeat 0 (cv_w c)).
  Local Notation mul x y := (fst (vlong_mulv_masked n x y 1 (Some (cv_g c)))).
  Notation R := (rep n (cv_p c)).
  Let OK : curve_ok c := weierstrass_ok c WC.
  Let HP : prime P := proj1 OC.
  Let F : field_ok n (cv_p c) (cv_g c) := co_field c OK.
  Lemma n_pos : (0 < n)%nat. Proof. exact (fo_n _ _ _ F). Qed.
  Lemma p_gt1 : 1 < P. Proof. exact (fo_pos _ _ _ F). Qed.

  Lemma g_zero : cv_g c z0 = (z0, true). Proof. exact (zero_weierstrass c WC). Qed.
  Lemma imod_zero v : words_ok v -> length v = n -> vval v = 0 -> ecp_imod_inplace (cv_g c) (cv_p c) v = z0.
  Proof.
    intros W L V. rewrite (zero_words v n W L V). unfold ecp_imod_inplace. rewrite repeat_length.
    replace (nthZ (n - 1) z0) with 0 by (unfold nthZ; symmetry; apply nth_repeat).
    change (u32 (- Z.land (Z.shiftr 0 31) 1)) with 0. change (Z.land 0 1) with 0. rewrite map_length, repeat_length.
    assert (E : map (fun w => Z.lxor w 0) z0 = z0). { rewrite <- (map_id z0) at 2. apply map_ext. intros. apply Z.lxor_0_r. }
    rewrite E. assert (E2 : vlong_adds n z0 0 0 = z0).
    { apply zero_words; [apply vlong_adds_words|apply vlong_adds_length|]. rewrite vlong_adds_val by (try apply repeat_words; lia). rewrite val_le_zeros. reflexivity. }
    rewrite E2, g_zero. cbn [fst]. cbv zeta.
    apply zero_words; [apply add_kernel_words|rewrite add_kernel_length; apply repeat_length|].
    rewrite repeat_length || idtac.
    rewrite add_kernel_val0 with (B := fun i => 0).
    - assert (M : forall l : list nat, vval (map (fun _ => 0) l) = 0) by (induction l as [|h t IH]; [reflexivity|]; cbn [map val_le]; rewrite IH; reflexivity).
      rewrite M. reflexivity.
    - constructor.
    - intros j y. rewrite Z.land_0_l. rewrite !Z.land_0_l, Z.lor_0_r, Z.sub_0_r.
      replace (if (j <? n)%nat then _ else _) with 0; [rewrite Z.land_0_r; unfold u64; apply Zmod_mod|]. destruct (j <? n)%nat; [|reflexivity]. unfold nthZ. symmetry. apply nth_repeat.
    - intros j. lia.
  Qed.

  Lemma mul_zero y : words_ok y -> mul z0 y = z0.
  Proof.
    intros Wy. assert (K : forall i, mulv_loop z0 y 1 (Some (cv_g c)) i z0 = (z0, true)).
    { induction i as [|i IH]; cbn [mulv_loop]; [reflexivity|]. cbv zeta.
      change (u32 (0 - 1)) with (2 ^ 32 - 1). change (u32 (Z.lnot (2 ^ 32 - 1))) with 0. rewrite Z.land_0_r, Z.lor_0_l.
      rewrite (Z.land_comm (nthZ i y)), land_ones32 by now apply nthZ_words.
      assert (M : vlong_muls z0 z0 (nthZ i y) true = z0).
      { apply zero_words; [apply vlong_muls_words|rewrite vlong_muls_length; apply repeat_length|].
        rewrite vlong_muls_val by (try apply repeat_words; now apply nthZ_words). rewrite !val_le_zeros, Z.mul_0_l. apply Zmod_0_l. }
      rewrite M. cbn [run_mod]. rewrite g_zero. cbn [negb]. destruct (i =? 0)%nat; [reflexivity|].
      assert (X : vlong_mulx (length z0) z0 = z0).
      { apply zero_words; [apply vlong_mulx_words, repeat_words|rewrite vlong_mulx_length; apply repeat_length|].
        rewrite vlong_mulx_val by apply repeat_words. rewrite val_le_zeros, Z.mul_0_l. apply Zmod_0_l. }
      rewrite X, g_zero. cbn [negb]. exact IH. }
    unfold vlong_mulv_masked. rewrite K. reflexivity.
  Qed.
  (** two registers holding the same nonzero residue: their difference is exactly 0 *)
  Lemma sub_exact u v x y : R u x -> R v y -> eqm P x y -> ~ eqm P x 0 -> ecp_imod_inplace (cv_g c) (cv_p c) (vlong_subv n u v) = z0.
  Proof.
    pose proof p_gt1 as p1. intros (A1 & A2 & A3 & A4) (B1 & B2 & B3 & B4) E NZ.
    assert (X : x mod P <> 0). { intros X. apply NZ. apply eqm_mod; [lia|]. now rewrite Zmod_0_l. }
    apply eqm_mod in E; [|lia]. rewrite <- E in B4.
    assert (K : forall w, 0 <= w <= P -> w mod P = x mod P -> w = x mod P).
    { intros w Bw Ew. destruct (Z.eq_dec w P) as [->|NE]; [rewrite Z_mod_same_full in Ew; congruence|]. rewrite <- Ew. symmetry. apply Z.mod_small. lia. }
    pose proof (vval_bound u A1). pose proof (vval_bound v B1).
    assert (EV : vval u = vval v) by (rewrite (K (vval u)), (K (vval v)) by (auto; lia); reflexivity).
    apply imod_zero; [apply vlong_subv_words|apply vlong_subv_length|]. rewrite vlong_subv_val by auto. rewrite EV, Z.sub_diag. apply Zmod_0_l.
  Qed.

  Ltac rp := first [eassumption | reflexivity].
  Lemma add_opp_zero q1 q2 x y : on c (Aff x y) -> holds_point c q1 (Aff x y) -> holds_point c q2 (Aff x (- y)) ->
    ~ eqm P y 1 -> ~ eqm P y (-1) -> ~ eqm P x y -> ~ eqm P x (- y) ->
    pz (ecp_point_add_rcb15 c q1 q2) = z0.
  Proof.
    intros C (X1 & Y1 & Z1 & (NZ1 & HX1 & HY1)) (X2 & Y2 & Z2 & (NZ2 & HX2 & HY2)) N1 N2 N3 N4.
    apply (reg_rep c) in X1, Y1, Z1, X2, Y2, Z2. pose proof p_gt1 as p1.
    assert (T3 : ecp_imod_inplace (cv_g c) (cv_p c) (vlong_subv n
       (vlong_cpy n (mul (fst (cv_g c (vlong_addv n (px q1) (py q1)))) (vlong_addv n (px q2) (py q2))))
       (fst (cv_g c (vlong_addv n (mul (px q1) (px q2)) (mul (py q1) (py q2)))))) = z0).
    { eapply sub_exact.
      - apply cpy_rep. apply (mul_repk c OK _ _ 2); [apply (mod_rep n (cv_p c) (cv_g c) F _ _ 2); [apply (add_rep2 c OK); rp|lia]|apply (add_rep2 c OK); rp].
      - apply (mod_rep n (cv_p c) (cv_g c) F _ _ 2); [apply (add_rep2 c OK); apply (mul_rep' c OK); rp|lia].
      - rewrite HX1, HY1, HX2, HY2. apply eqm_eq; ring.
      - rewrite HX1, HY1, HX2, HY2. intros E.
        assert (E' : eqm P (((x + y) * (x - y)) * (vval (pz q1) * vval (pz q2))) 0) by (rewrite <- E; apply eqm_eq; ring).
        apply (mul_nz P HP) in E'; [exact E'| |]; apply (mul_nz P HP); auto; intros E0.
        + apply N4. unfold eqm in *. replace (x - - y) with (x + y - 0) by ring. exact E0.
        + apply N3. unfold eqm in *. replace (x - y) with (x - y - 0) by ring. exact E0. }
    assert (T5 : ecp_imod_inplace (cv_g c) (cv_p c) (vlong_subv n
       (vlong_cpy n (mul (fst (cv_g c (vlong_addv n (py q1) (pz q1)))) (fst (cv_g c (vlong_addv n (py q2) (pz q2))))))
       (fst (cv_g c (vlong_addv n (mul (py q1) (py q2)) (mul (pz q1) (pz q2)))))) = z0).
    { eapply sub_exact.
      - apply cpy_rep. apply (mul_rep' c OK); (apply (mod_rep n (cv_p c) (cv_g c) F _ _ 2); [apply (add_rep2 c OK); rp|lia]).
      - apply (mod_rep n (cv_p c) (cv_g c) F _ _ 2); [apply (add_rep2 c OK); apply (mul_rep' c OK); rp|lia].
      - rewrite HY1, HY2. apply eqm_eq; ring.
      - rewrite HY1, HY2. intros E.
        assert (E' : eqm P (((y - -1) * (y - 1)) * (vval (pz q1) * vval (pz q2))) 0).
        { transitivity (- ((y * vval (pz q1) + vval (pz q1)) * (- y * vval (pz q2) + vval (pz q2)))); [apply eqm_eq; ring|]. rewrite E. apply eqm_eq; ring. }
        apply (mul_nz P HP) in E'; [exact E'| |]; apply (mul_nz P HP); auto; intros E0.
        + apply N2. unfold eqm in *. replace (y - -1) with (y - -1 - 0) by ring. exact E0.
        + apply N1. unfold eqm in *. replace (y - 1) with (y - 1 - 0) by ring. exact E0. }
    unfold ecp_point_add_rcb15. cbv zeta. cbn [pz]. rewrite T3, T5.
    match goal with |- fst (cv_g c (vlong_addv n ?u ?v)) = _ => assert (EU : u = z0); [|assert (EV : v = z0)] end.
    - apply mul_zero. apply vlong_addv_words.
    - apply mul_zero.
      eapply (rep_words n (cv_p c)). apply (mod_rep n (cv_p c) (cv_g c) F _ _ 2); [|lia]. apply (add_rep2 c OK).
      + apply (mod_rep n (cv_p c) (cv_g c) F _ _ 3); [|lia]. apply (imuls_k c OK); [apply (mul_rep' c OK); rp|lia].
      + apply (imuls_a c OK). apply (mul_rep' c OK); rp.
    - rewrite EU, EV. assert (E0 : vlong_addv n z0 z0 = z0).
      { apply zero_words; [apply vlong_addv_words|apply vlong_addv_length|]. rewrite vlong_addv_val by apply repeat_words. rewrite val_le_zeros. apply Zmod_0_l. }
      rewrite E0, g_zero. reflexivity.
  Qed.

  (** * The last effective addition of a scalar multiplication *)
  Notation vop := (op P a b). Notation ok := (valid P a b).
  Local Notation mulN := (mulW P a b).
  Let H2' : P <> 2 := proj1 (proj2 OC).
  Let NT : forall x, ~ eqm P (x * x * x + a * x + b) 0 := proj2 (proj2 OC).
  Lemma scale_rest s k : words_ok s -> forall i acc tmp, (forall j, (i <= j)%nat -> scalar_bit s j = 0) -> any3 c acc -> any3 c tmp ->
    scale_loop c s k i acc tmp = acc.
  Proof.
    intros Ws. induction k as [|k IH]; intros i acc tmp HB HA HT; [reflexivity|]. cbn [scale_loop]. fold (scalar_bit s i).
    assert (AA : any3 c (ecp_point_add_rcb15 c tmp acc)) by (eapply (rep_any c HP H2' NT); apply (add_rcb_rep c OK); [apply (any_rep c _ HT)|apply (any_rep c _ HA)]).
    rewrite (any_sel c acc _ _ (scalar_bit_01 s i Ws) HA AA), (HB i ltac:(lia)). change (0 =? 1) with false. cbv iota.
    destruct k; [reflexivity|]. apply IH; auto; [intros j Hj; apply HB; lia|].
    eapply (rep_any c HP H2' NT). exact (dbl_fast_rep c OK _ _ _ _ (any_rep c _ HT)).
  Qed.
  Lemma scale_top s t : words_ok s -> scalar_bit s t = 1 -> (forall j, (t < j)%nat -> scalar_bit s j = 0) ->
    forall d k i acc tmp A B, (t = i + d)%nat -> (t < i + k)%nat -> EcpScaleLemmas.rp c acc A -> EcpScaleLemmas.rp c tmp B -> B <> Inf ->
    exists q1 q2 A', scale_loop c s k i acc tmp = ecp_point_add_rcb15 c q1 q2 /\ EcpScaleLemmas.rp c q1 (mulN (2 ^ d) B) /\ mulN (2 ^ d) B <> Inf /\ EcpScaleLemmas.rp c q2 A'.
  Proof.
    intros Ws B1 B0. assert (A3 : forall q X, EcpScaleLemmas.rp c q X -> any3 c q) by (intros q X (_ & U1 & U2 & U3 & _); split; [|split]; assumption).
    induction d as [|d IH]; intros k i acc tmp A B Et Hk HA HB NB.
    - rewrite Nat.add_0_r in Et. subst i. destruct k as [|k]; [lia|]. exists tmp, acc, A.
      assert (M1 : mulN (2 ^ 0) B = B) by (apply (mulW_1 P a b HP H2' NT); apply HB). rewrite M1.
      split; [|split; [exact HB|split; [exact NB|exact HA]]].
      cbn [scale_loop]. fold (scalar_bit s t).
      pose proof (rp_add c OK HP H2' NT tmp acc B A HB HA) as HS.
      rewrite (any_sel c acc _ _ (scalar_bit_01 s t Ws) (A3 _ _ HA) (A3 _ _ HS)), B1. change (1 =? 1) with true. cbv iota.
      destruct k; [reflexivity|]. apply scale_rest; [exact Ws|intros j Hj; apply B0; lia|exact (A3 _ _ HS)|].
      eapply (rep_any c HP H2' NT). exact (dbl_fast_rep c OK _ _ _ _ (any_rep c _ (A3 _ _ HB))).
    - destruct k as [|[|k]]; [lia|lia|].
      pose proof (rp_add c OK HP H2' NT tmp acc B A HB HA) as HS.
      pose proof (rp_sel c acc _ A _ _ (scalar_bit_01 s i Ws) HA HS) as HA'.
      destruct (rp_dbl c OK HP H2' NT tmp B NB HB) as [HB' NB'].
      destruct (IH (S k) (S i) _ _ _ _ ltac:(lia) ltac:(lia) HA' HB' NB') as (q1 & q2 & A' & E & R1 & R2 & R3).
      exists q1, q2, A'. split; [exact E|].
      assert (M : mulN (2 ^ d) (vop B B) = mulN (2 ^ S d) B).
      { replace (2 ^ S d)%nat with (2 ^ d * 2)%nat by (cbn; lia). rewrite <- (mulW_mul P a b HP H2' NT) by apply HB. f_equal.
        change (vop B B = vop B (vop B Inf)). now rewrite (vop_Inf P a b HP H2' NT) by apply HB. }
      rewrite <- M. split; [exact R1|]. split; [exact R2|exact R3].
  Qed.
  Lemma holds_unique q X Y : holds_point c q X -> holds_point c q Y -> pt_eq P X Y.
  Proof.
    intros (_ & _ & _ & A) (_ & _ & _ & B). pose proof (norm_proj P a b HP H2' NT _ _ _ _ A) as NA. pose proof (norm_proj P a b HP H2' NT _ _ _ _ B) as NB.
    eapply pt_eq_trans; [exact NA|]. now apply pt_eq_sym.
  Qed.
  Lemma opp_of x y U : ok (Aff x y) -> ok U -> vop (Aff x y) U = Inf -> pt_eq P U (Aff x (- y)).
  Proof.
    intros V VU E. destruct (ec_add_ex P a b HP H2' NT _ U (proj1 V) (proj1 VU)) as (Rr & EA & PE). rewrite E in PE. destruct Rr; [|destruct PE].
    inversion EA; subst; cbn [pt_eq]. split; [now symmetry|]. rewrite H3. apply eqm_eq. ring.
  Qed.
  (** n Q = infinity is seen as Z = 0, unless 2^t Q (t: the position of the top bit of n) is one of a few points *)
  Lemma order_test base Q s t x y : ok Q -> Q <> Inf -> holds_point c base Q -> words_ok s ->
    2 ^ Z.of_nat t <= vval s < 2 ^ Z.of_nat (S t) -> mulN (Z.to_nat (vval s)) Q = Inf -> mulN (2 ^ t) Q = Aff x y ->
    ~ eqm P y 1 -> ~ eqm P y (-1) -> ~ eqm P x y -> ~ eqm P x (- y) ->
    holds_point c (ecp_xyz_inf c) Inf ->
    pz (ecp_point_scale_accumulate c (ecp_xyz_inf c) base s) = z0.
  Proof.
    intros VQ NQ HQ Ws Bs OQ ET N1 N2 N3 N4 HI.
    assert (TB : scalar_bit s t = 1 /\ forall j, (t < j)%nat -> scalar_bit s j = 0).
    { split.
      - rewrite (scalar_bit_val s t Ws). replace (vval s / 2 ^ Z.of_nat t) with 1; [reflexivity|].
        apply Z.div_unique_pos with (vval s - 2 ^ Z.of_nat t); [|ring]. rewrite Nat2Z.inj_succ, Z.pow_succ_r in Bs by lia. lia.
      - intros j Hj. rewrite (scalar_bit_val s j Ws). rewrite Z.div_small; [reflexivity|].
        assert (2 ^ Z.of_nat (S t) <= 2 ^ Z.of_nat j) by (apply Z.pow_le_mono_r; lia). assert (0 < 2 ^ Z.of_nat t) by (apply Z.pow_pos_nonneg; lia). lia. }
    destruct TB as [T1 T0].
    assert (TL : (t < length s * 32)%nat).
    { pose proof (vval_bound s Ws) as B. destruct (Nat.ltb_spec t (length s * 32)) as [H|H]; [exact H|]. exfalso.
      assert (pw (length s) <= 2 ^ Z.of_nat t) by (apply Z.pow_le_mono_r; lia). lia. }
    pose proof (copy_holds c HP H2' NT base Q HQ) as HC.
    destruct (scale_top s t Ws T1 T0 t (length s * 32) 0 (ecp_xyz_inf c) (ecp_xyz_copy c base) Inf Q eq_refl TL) as (q1 & q2 & A' & E & R1 & _ & R3).
    { split; [apply ok_Inf|exact HI]. } { split; assumption. } { exact NQ. }
    unfold ecp_point_scale_accumulate. rewrite E. rewrite ET in R1.
    pose proof (rp_add c OK HP H2' NT q1 q2 _ _ R1 R3) as [_ HS]. rewrite <- E in HS.
    destruct (scale_holds c OK HP H2' NT (ecp_xyz_inf c) base Inf Q s I (proj1 VQ) NQ Ws HI HQ) as (M & Rr & EM & ER & HR).
    pose proof (holds_unique _ _ _ HS HR) as PE.
    pose proof (ec_mul_can P a b HP H2' NT Q _ M (proj1 VQ) EM) as KM. rewrite (canW_id P a b Q VQ), OQ in KM.
    destruct M; [|discriminate]. assert (RI : Rr = Inf) by (inversion ER; reflexivity). rewrite RI in PE.
    assert (VI : vop (Aff x y) A' = Inf) by (destruct (vop (Aff x y) A'); [reflexivity|destruct PE]).
    pose proof (opp_of x y A' (proj1 R1) (proj1 R3) VI) as OP.
    apply (add_opp_zero q1 q2 x y); auto; [apply (proj1 R1)|apply R1|]. apply (holds_pt c q2 A'); [exact OP|apply R3].
  Qed.
End Curve.
