(** Lemmas about ecp_point_decode and ecp_point_encode (Ecc.v). *)
From Coq Require Import Znumtheory Setoid.
From Verif Require Import Base Vlong VlongLemmas VlongDivLemmas VlongMulLemmas EcMod EcModLemmas EcFieldLemmas EcExpLemmas EcCurveLemmas EcWideLemmas
  EcSpec EcGroupLemmas EcpXyz EcpLemmas ScaleLemmas EcLawLemmas EcpScaleLemmas EcMulLemmas Fermat Der DerLemmas PropEcp Ecc EccLemmas EccZeroLemmas EccCodecSpec.

Lemma land1 x : Z.land x 1 = x mod 2.
Proof. change 1 with (Z.ones 1). rewrite Z.land_ones by lia. reflexivity. Qed.
Lemma parity v : (0 < length v)%nat -> Z.land (nthZ 0 v) 1 = vval v mod 2.
Proof.
  intros L. destruct v as [|w v]; [cbn in L; lia|]. cbn [nthZ nth val_le]. rewrite land1.
  unfold nthZ. cbn [nth]. rewrite Z.add_mod by lia. rewrite Z.mul_mod by lia. change (2 ^ 32 mod 2) with 0. rewrite Z.mul_0_l, Zmod_0_l, Z.add_0_r, Zmod_mod. reflexivity.
Qed.

Lemma pw_13 n : pw n * 2 ^ 13 <= pw (S n) - 1.
Proof. replace (pw (S n)) with (pw n * 2 ^ 32) by (rewrite <- Z.pow_add_r by lia; f_equal; lia). pose proof (pow32_pos n). lia. Qed.
Lemma pw_32 n m : (S n <= m)%nat -> pw n * 2 ^ 32 <= pw m.
Proof. intros H. rewrite <- Z.pow_add_r by lia. apply Z.pow_le_mono_r; lia. Qed.

Section Codec.
  Variables (D : ec_domain) (g : point).
  Hypothesis DO : domain_ok D g.
  Notation c := (ed_c D). Notation wd := (cv_w (ed_c D)). Notation plen := (ed_plen D).
  Notation P := (vval (cv_p (ed_c D))). Notation N := (vval (cv_n (ed_c D))).
  Notation lp := (length (cv_p (ed_c D))).
  Notation a := (cv_a (ed_c D)). Notation b := (vval (cv_b (ed_c D))).
  Notation reg v := (words_ok v /\ length v = wd).
  Local Notation mulp x y := (fst (vlong_mulv_masked wd x y 1 (Some (cv_g c)))).
  Hypothesis HL : (plen <= 4 * lp)%nat.
  Hypothesis H4 : P mod 4 = 3.
  Local Notation HP := (Hp D g DO). Local Notation H2' := (H2 D g DO). Local Notation NT := (NoTwo D g DO). Local Notation FP := (Fp D g DO).
  Local Notation WO := (wide_weierstrass c (do_w _ _ DO)).
  Local Notation rhs X := (X * X * X + a * X + b).

  Lemma rhs_arith PL Pv Av X u av W : 0 <= X < PL -> 0 <= u <= Pv -> Pv < PL -> - 2 ^ 12 <= av <= 2 ^ 12 -> Av = X * av + u -> PL * 2 ^ 32 <= W ->
    - (PL * 2 ^ 13) <= Av <= PL * 2 ^ 13 /\ - W < 2 * Av < W.
  Proof. intros. assert (- (X * 2 ^ 12) <= X * av <= X * 2 ^ 12) by nia. lia. Qed.

  Lemma rhs_rep x : reg x -> vval x < pw lp -> rep wd (cv_p c) (curve_rhs D x) (rhs (vval x)).
  Proof.
    intros [Wx Lx] Bx. pose proof (wd_pos D g DO) as w0. pose proof (P1 D g DO) as p1. pose proof (OK D g DO) as OKc.
    pose proof (fo_words _ _ _ FP) as Wp. pose proof (vval_bound _ Wp) as BP. pose proof (vval_bound _ Wx) as BX.
    pose proof WO as [WG WL]. assert (p0 : 0 < P) by lia. assert (pn : P <> 0) by lia.
    pose proof (mul_wide wd (cv_p c) (cv_g c) x x FP WO Wx Wx ltac:(lia) Bx) as R1.
    unfold curve_rhs. set (v := mulp x x) in *. clearbody v.
    destruct R1 as (V1 & V2 & V3 & V4).
    pose proof (mul_wide wd (cv_p c) (cv_g c) x v FP WO Wx V1 ltac:(lia) Bx) as R2.
    set (u := mulp x v) in *. clearbody u. destruct R2 as (U1 & U2 & U3 & U4).
    pose proof (co_a c OKc) as Ha. pose proof (vval_bound _ U1) as BU.
    assert (E : vval (vlong_imuls u x a true) = (vval x * a + vval u) mod pw wd).
    { rewrite vlong_imuls_val by (auto; lia). rewrite U2. reflexivity. }
    pose proof (pw_32 lp wd WL) as PW.
    destruct (rhs_arith (pw lp) P _ (vval x) (vval u) a (pw wd) ltac:(lia) ltac:(lia) ltac:(lia) Ha eq_refl PW) as [Q1 Q2].
    assert (Wi : words_ok (vlong_imuls u x a true)) by apply imuls_loop_words.
    assert (Li : length (vlong_imuls u x a true) = wd) by (unfold vlong_imuls; rewrite imuls_loop_length; exact U2).
    assert (SV : sval (vlong_imuls u x a true) = vval x * a + vval u).
    { apply (sval_of _ _ wd Wi Li w0 E). lia. }
    set (i := vlong_imuls u x a true) in *. clearbody i.
    pose proof (pw_13 lp) as PS.
    assert (SVB : - (pw (S lp) - 1) <= sval i <= pw (S lp) - 1) by (rewrite SV; clear - Q1 PS; lia).
    destruct (ecp_imod_spec wd (cv_g c) (cv_p c) (pw (S lp) - 1) i Wp (fo_len _ _ _ FP) p0 WG Wi Li w0 SVB) as (I1 & I2 & I3 & I4).
    set (j := ecp_imod_inplace (cv_g c) (cv_p c) i) in *. clearbody j. pose proof (vval_bound _ I1) as BJ.
    pose proof (vval_bound _ (co_b c OKc)) as BB. pose proof (co_ble c OKc) as Bb.
    assert (AV : vval (vlong_addv wd j (cv_b c)) = vval j + b).
    { rewrite vlong_addv_val by (auto; apply OKc). apply Z.mod_small. pose proof (fo_room _ _ _ FP) as RM. clear - I3 Bb BB BJ RM p0. lia. }
    apply (mod_rep wd (cv_p c) (cv_g c) FP _ _ 2); [|discriminate].
    split; [apply vlong_addv_words|]. split; [apply vlong_addv_length|]. rewrite AV. split; [clear - I3 Bb; lia|].
    rewrite Z.add_mod, I4, SV, <- Z.add_mod by exact pn.
    apply eqm_mod; [exact pn|]. apply eqm_mod in V4; [|exact pn]. apply eqm_mod in U4; [|exact pn]. rewrite U4, V4. apply eqm_eq. ring.
  Qed.

  Lemma octets_val o : bytes_ok o -> length o = plen -> reg (vlong_OS2IP wd o) /\ vval (vlong_OS2IP wd o) = be_val o /\ 0 <= be_val o < 2 ^ (8 * Z.of_nat plen) /\ be_val o < pw lp.
  Proof.
    intros B L. destruct (os_val D g DO o B ltac:(lia)) as (R & V & _). pose proof (be_val_bound o B) as BB. rewrite L in BB.
    split; [exact R|]. split; [exact V|]. split; [exact BB|]. eapply Z.lt_le_trans; [apply BB|]. apply Z.pow_le_mono_r; lia.
  Qed.

  Lemma sq_rep y : reg y -> vval y < pw lp -> rep wd (cv_p c) (mulp y y) (vval y * vval y).
  Proof. intros [W L] B. pose proof (wd_pos D g DO). apply (mul_wide wd (cv_p c) (cv_g c) y y FP WO W W); [lia|exact B]. Qed.
  Lemma rep_iff u v x y : rep wd (cv_p c) u x -> rep wd (cv_p c) v y -> ~ eqm P y 0 -> (vlong_cmpv_shifted u v 0 =? 0) = true <-> eqm P x y.
  Proof.
    intros U V NZ. destruct (rep_eqm D g DO _ _ U) as ((Wu & _) & _ & Eu). destruct (rep_eqm D g DO _ _ V) as ((Wv & _) & _ & Ev).
    rewrite cmp_eq by auto. rewrite Z.eqb_eq. split.
    - intros E. rewrite <- Eu, <- Ev, E. apply eqm_eq; reflexivity.
    - intros E. apply (small_eq D g DO u v y); auto. eapply rep_ext; [|exact U]. apply eqm_mod; [pose proof (P1 D g DO); lia|exact E].
  Qed.
  Lemma curve_check x y u : reg y -> vval y < pw lp -> rep wd (cv_p c) u (rhs x) ->
    (vlong_cmpv_shifted (mulp y y) u 0 =? 0) = true <-> on c (Aff x (vval y)).
  Proof.
    intros Ry By U. rewrite (rep_iff _ _ _ _ (sq_rep y Ry By) U (NT x)). reflexivity.
  Qed.

  Lemma P_odd : P mod 2 = 1.
  Proof. rewrite (Z.div_mod P 4) by lia. rewrite H4. replace (4 * (P / 4) + 3) with (1 + (2 * (P / 4) + 1) * 2) by ring. rewrite Z.mod_add by lia. reflexivity. Qed.
  Lemma p_lt : P < pw lp. Proof. apply vval_bound. apply (fo_words _ _ _ FP). Qed.

  (** the root with the wanted parity *)
  Lemma decode_root u X os : rep wd (cv_p c) u (rhs X) -> os = 2 \/ os = 3 ->
    exists r y, vlong_sqrt_c3m4 wd u (cv_g c) (cv_p c) = Some r /\
      y = (if Z.land os 1 =? Z.land (nthZ 0 r) 1 then r else fst (cv_g c (vlong_subv wd (cv_p c) r))) /\
      reg y /\ vval y <= P /\
      (on c (Aff X (vval y)) -> vval y < P /\ 2 + vval y mod 2 = os) /\
      ((exists z, on c (Aff X z)) -> on c (Aff X (vval y))).
  Proof.
    intros U Os. pose proof (P1 D g DO) as p1. pose proof (wd_pos D g DO) as w0.
    destruct (sqrt_spec wd (cv_p c) (cv_g c) u (rhs X) FP HP H4 U) as (r & E & R & S0).
    exists r. set (y := if Z.land os 1 =? Z.land (nthZ 0 r) 1 then r else fst (cv_g c (vlong_subv wd (cv_p c) r))).
    exists y. split; [exact E|]. split; [reflexivity|].
    destruct (rep_eqm D g DO _ _ R) as ((Wr & Lr) & Ir & _). pose proof (vval_bound r Wr) as Br.
    assert (SUB : vval (vlong_subv wd (cv_p c) r) = P - vval r).
    { rewrite vlong_subv_val by (auto; apply (fo_words _ _ _ FP)). apply Z.mod_small. pose proof (fo_room _ _ _ FP). lia. }
    assert (Rn : rep wd (cv_p c) (fst (cv_g c (vlong_subv wd (cv_p c) r))) (- vval r)).
    { apply (mod_rep wd (cv_p c) (cv_g c) FP _ _ 1); [|lia]. split; [apply vlong_subv_words|]. split; [apply vlong_subv_length|].
      rewrite SUB. split; [lia|]. replace (P - vval r) with (- vval r + 1 * P) by ring. apply Z.mod_add. lia. }
    destruct (rep_eqm D g DO _ _ Rn) as ((Wn & Ln) & In & En). pose proof (vval_bound _ Wn) as Bn.
    assert (SQ : eqm P (vval y * vval y) (vval r * vval r)).
    { unfold y. destruct (Z.land os 1 =? Z.land (nthZ 0 r) 1); [apply eqm_eq; reflexivity|]. rewrite En. apply eqm_eq. ring. }
    split; [unfold y; destruct (Z.land os 1 =? Z.land (nthZ 0 r) 1); split; assumption|].
    split; [unfold y; destruct (Z.land os 1 =? Z.land (nthZ 0 r) 1); assumption|].
    split.
    - intros C. cbn [on on_curve] in C.
      assert (RR : eqm P (vval r * vval r) (rhs X)) by (rewrite <- SQ; exact C).
      assert (NR : ~ eqm P (vval r) 0). { intros Z0. apply (NT X). rewrite <- RR, Z0. apply eqm_eq; ring. }
      assert (NRm : vval r <> 0 /\ vval r <> P).
      { split; intros Z0; apply NR; apply eqm_mod; try lia; rewrite Z0; [reflexivity|now rewrite Z_mod_same_full, Zmod_0_l]. }
      assert (VN : vval (fst (cv_g c (vlong_subv wd (cv_p c) r))) = P - vval r).
      { destruct (small_eq D g DO _ _ _ Rn Rn) as (_ & _ & V).
        - intros Z0. apply NR. transitivity (- (- vval r)); [apply eqm_eq; ring|]. rewrite Z0. apply eqm_eq; ring.
        - rewrite V. rewrite <- (Z.mod_small (P - vval r) P) by lia. replace (P - vval r) with (- vval r + 1 * P) by ring. now rewrite Z.mod_add by lia. }
      unfold y. rewrite parity by lia. rewrite land1. destruct (Z.eqb_spec (os mod 2) (vval r mod 2)) as [Q|Q].
      + split; [lia|]. rewrite <- Q. destruct Os; subst os; reflexivity.
      + rewrite VN. split; [lia|]. pose proof P_odd as PO. clear - Q Os PO.
        assert (M : (P - vval r) mod 2 = (1 - vval r mod 2) mod 2) by (rewrite Zminus_mod, PO; reflexivity).
        rewrite M. pose proof (Z.mod_pos_bound (vval r) 2 ltac:(lia)). destruct Os; subst os; change (2 mod 2) with 0 in Q; change (3 mod 2) with 1 in Q.
        * replace (vval r mod 2) with 1 by lia. reflexivity.
        * replace (vval r mod 2) with 0 by lia. reflexivity.
    - intros (z & C). cbn [on on_curve] in C |- *. change (eqm P (vval y * vval y) (rhs X)). rewrite SQ. apply eqm_mod; [lia|]. apply S0. exists z.
      apply eqm_mod in C; [|lia]. symmetry. exact C.
  Qed.

  Lemma firstn_skipn1 (enc : list Z) o r : enc = o :: r -> firstn plen (skipn 1 enc) = firstn plen r. Proof. intros ->. reflexivity. Qed.

  (** * what is accepted *)
  Lemma decode_sound enc Q : bytes_ok enc -> ecp_point_decode D enc = Some Q ->
    exists X Y, reg (px Q) /\ reg (py Q) /\ vval (px Q) = X /\ vval (py Q) = Y /\ rep wd (cv_p c) (pz Q) 1 /\ vval (pz Q) = 1 /\ X < pw lp /\ Y < pw lp /\
      sec1_octets plen enc X Y /\ on c (Aff X Y) /\ (nthZ 0 enc <> 4 -> Y < P) /\
      words_or (pz (ecp_point_scale_accumulate c (ecp_xyz_inf c) Q (cv_n c))) = 0.
  Proof.
    intros B E. unfold ecp_point_decode in E. pose proof (do_pl _ _ DO) as PL.
    destruct (decode_y D enc (curve_rhs D (vlong_OS2IP wd (firstn plen (skipn 1 enc))))) as [y|] eqn:EY; [|discriminate].
    destruct (vlong_cmpv_shifted (mulp y y) (curve_rhs D (vlong_OS2IP wd (firstn plen (skipn 1 enc)))) 0 =? 0) eqn:EC; cbn [negb] in E; [|discriminate].
    set (Q0 := {| px := vlong_OS2IP wd (firstn plen (skipn 1 enc)); py := y; pz := vlong_cpy wd vlong_one |}) in *.
    destruct (words_or (pz (ecp_point_scale_accumulate c (ecp_xyz_inf c) Q0 (cv_n c))) =? 0) eqn:EZ; cbn [negb] in E; [|discriminate].
    assert (EQ : Q = Q0) by congruence. clear E. apply Z.eqb_eq in EZ.
    destruct enc as [|os enc].
    { unfold decode_y in EY. cbn [nthZ nth length] in EY. unfold nthZ in EY. cbn in EY. discriminate. }
    assert (Bo : bytes_ok enc) by (inversion B; assumption).
    change (skipn 1 (os :: enc)) with enc in *. unfold decode_y in EY. change (nthZ 0 (os :: enc)) with os in *.
    assert (LE : length (os :: enc) = S (length enc)) by reflexivity. rewrite LE in EY.
    assert (LX : length enc = (2 * plen)%nat \/ length enc = plen).
    { destruct ((os =? 4) && Nat.eqb (S (length enc)) (1 + plen * 2)) eqn:T1.
      - apply Bool.andb_true_iff in T1. destruct T1 as [_ T1]. apply Nat.eqb_eq in T1. left. lia.
      - destruct (((os =? 2) || (os =? 3)) && Nat.eqb (S (length enc)) (1 + plen)) eqn:T2; [|discriminate].
        apply Bool.andb_true_iff in T2. destruct T2 as [_ T2]. apply Nat.eqb_eq in T2. right. lia. }
    set (ox := firstn plen enc) in *.
    assert (Lox : length ox = plen) by (unfold ox; rewrite firstn_length; lia).
    assert (Box : bytes_ok ox) by (apply Forall_firstn; exact Bo).
    destruct (octets_val ox Box Lox) as (Rx & Vx & B1 & B2).
    pose proof (rhs_rep _ Rx ltac:(rewrite Vx; exact B2)) as RH. rewrite Vx in RH.
    pose proof (one_rep D g DO) as [O1 O2].
    assert (XO : be_bytes plen (be_val ox) = ox) by (rewrite <- Lox; apply be_bytes_be_val; exact Box).
    subst Q. exists (be_val ox), (vval y). unfold Q0 in *. cbn [px py pz] in *.
    destruct ((os =? 4) && Nat.eqb (S (length enc)) (1 + plen * 2)) eqn:T1.
    - apply Bool.andb_true_iff in T1. destruct T1 as [T0 T1]. apply Nat.eqb_eq in T1. apply Z.eqb_eq in T0. subst os.
      change (skipn (1 + plen) (4 :: enc)) with (skipn plen enc) in EY.
      assert (EO : firstn plen (skipn plen enc) = skipn plen enc) by (apply firstn_all2; rewrite skipn_length; lia).
      rewrite EO in EY. set (oy := skipn plen enc) in *.
      assert (Loy : length oy = plen) by (unfold oy; rewrite skipn_length; lia).
      assert (Boy : bytes_ok oy) by (apply Forall_skipn; exact Bo).
      destruct (octets_val oy Boy Loy) as (Ry & Vy & B3 & B4).
      assert (Ey : y = vlong_OS2IP wd oy) by congruence. clear EY.
      assert (YO : be_bytes plen (be_val oy) = oy) by (rewrite <- Loy; apply be_bytes_be_val; exact Boy).
      assert (Hy : vval y = be_val oy) by (rewrite Ey; exact Vy). rewrite <- Ey in Ry.
      assert (C : on c (Aff (be_val ox) (vval y))). { apply (curve_check (be_val ox) y _ Ry ltac:(rewrite Hy; exact B4) RH). exact EC. }
      split; [exact Rx|]. split; [exact Ry|]. split; [exact Vx|]. split; [reflexivity|]. split; [exact O1|]. split; [exact O2|]. split; [exact B2|]. split; [rewrite Hy; exact B4|].
      split; [|split; [exact C|split; [intros H; exfalso; apply H; reflexivity|exact EZ]]].
      unfold sec1_octets. split; [exact B1|]. split; [rewrite Hy; exact B3|]. left. rewrite XO, Hy, YO. f_equal. unfold ox, oy. symmetry. apply firstn_skipn.
    - destruct (((os =? 2) || (os =? 3)) && Nat.eqb (S (length enc)) (1 + plen)) eqn:T2; [|discriminate].
      apply Bool.andb_true_iff in T2. destruct T2 as [T0 T2]. apply Nat.eqb_eq in T2. apply Bool.orb_true_iff in T0. rewrite !Z.eqb_eq in T0.
      destruct (decode_root _ _ os RH T0) as (r & y' & ER & EY' & Ry & Iy & Sy & _). rewrite ER in EY.
      assert (Ey : y = y') by (destruct (Z.land os 1 =? Z.land (nthZ 0 r) 1); congruence). clear EY'. subst y'.
      pose proof p_lt as PLT.
      assert (C : on c (Aff (be_val ox) (vval y))). { apply (curve_check (be_val ox) y _ Ry ltac:(lia) RH). exact EC. }
      destruct (Sy C) as [S1 S2]. pose proof (vval_bound y (proj1 Ry)) as BY.
      split; [exact Rx|]. split; [exact Ry|]. split; [exact Vx|]. split; [reflexivity|]. split; [exact O1|]. split; [exact O2|]. split; [exact B2|]. split; [lia|].
      split; [|split; [exact C|split; [intros _; exact S1|exact EZ]]].
      unfold sec1_octets. split; [exact B1|]. split; [pose proof (do_pb _ _ DO); lia|]. right. rewrite XO, S2. f_equal. unfold ox. symmetry. apply firstn_all2. lia.
  Qed.

  Lemma reg_point Q X Y : reg (px Q) -> reg (py Q) -> vval (px Q) = X -> vval (py Q) = Y -> rep wd (cv_p c) (pz Q) 1 -> X <= P -> Y <= P -> holds_point c Q (Aff X Y).
  Proof.
    intros [A1 A2] [B1 B2] EX EY Z1 LX LY.
    assert (RX : rep wd (cv_p c) (px Q) X) by (split; [|split; [|split]]; auto; congruence || lia).
    assert (RY : rep wd (cv_p c) (py Q) Y) by (split; [|split; [|split]]; auto; congruence || lia).
    apply (rep_holds c HP H2' NT Q _ _ _ (Aff X Y) (conj RX (conj RY Z1))). cbn [proj].
    split; [apply (one_nz P a b HP H2' NT)|]. split; apply eqm_eq; ring.
  Qed.

  Lemma decode_order enc Q : bytes_ok enc -> ecp_point_decode D enc = Some Q -> vval (px Q) < P -> vval (py Q) < P ->
    holds_point c Q (Aff (vval (px Q)) (vval (py Q))) /\
    ec_mul P a (Aff (vval (px Q)) (vval (py Q))) (Z.to_nat N) Inf.
  Proof.
    intros B E LX LY. destruct (decode_sound enc Q B E) as (X & Y & RX & RY & EX & EY & Z1 & _ & _ & _ & _ & C & _ & W).
    rewrite EX, EY in *. pose proof (reg_point Q X Y RX RY EX EY Z1 ltac:(lia) ltac:(lia)) as HQ. split; [exact HQ|].
    pose proof (vval_bound _ (proj1 RX)). pose proof (vval_bound _ (proj1 RY)).
    destruct (scale_holds c (OK D g DO) HP H2' NT (ecp_xyz_inf c) Q Inf (Aff X Y) (cv_n c) I C ltac:(discriminate) (do_nw _ _ DO) (inf_holds D g DO) HQ) as (M & R & EM & ER & HR).
    assert (R = Inf) by (apply (z_zero D _ _ HR); now apply Z.eqb_eq). subst R.
    assert (M = Inf) by (inversion ER; reflexivity). subst M. exact EM.
  Qed.

  (** * what is decoded *)
  Lemma decode_core enc X Y yv t x y : 0 <= X <= P -> 0 <= Y <= P -> firstn plen (skipn 1 enc) = be_bytes plen X ->
    decode_y D enc (curve_rhs D (vlong_OS2IP wd (be_bytes plen X))) = Some yv -> reg yv -> vval yv = Y -> on c (Aff X Y) ->
    ec_mul P a (Aff X Y) (Z.to_nat N) Inf -> 2 ^ Z.of_nat t <= N < 2 ^ Z.of_nat (S t) ->
    ec_mul P a (Aff X Y) (2 ^ t) (Aff x y) -> ~ eqm P y 1 -> ~ eqm P y (-1) -> ~ eqm P x y -> ~ eqm P x (- y) ->
    exists Q, ecp_point_decode D enc = Some Q /\ holds_point c Q (Aff X Y) /\ vval (px Q) = X /\ vval (py Q) = Y /\ vval (pz Q) = 1.
  Proof.
    intros BX BY FX EYv Ryv Vyv C HO HT HM N1' N2' N3' N4'. pose proof p_lt as PLT. pose proof (one_rep D g DO) as [O1 O2].
    pose proof (P1 D g DO) as p1. pose proof (do_pb _ _ DO) as PB. assert (OX : 0 <= X < 2 ^ (8 * Z.of_nat plen)) by lia.
    assert (Lx : length (be_bytes plen X) = plen) by apply be_bytes_length. assert (Bx : bytes_ok (be_bytes plen X)) by apply be_bytes_ok.
    assert (VX : be_val (be_bytes plen X) = X). { rewrite be_val_be_bytes by lia. apply Z.mod_small. exact OX. }
    destruct (octets_val _ Bx Lx) as (Rx & Vx & B1 & B2). rewrite VX in Vx, B1, B2.
    pose proof (rhs_rep _ Rx ltac:(rewrite Vx; exact B2)) as RH. rewrite Vx in RH.
    set (Q0 := {| px := vlong_OS2IP wd (be_bytes plen X); py := yv; pz := vlong_cpy wd vlong_one |}).
    assert (HQ : holds_point c Q0 (Aff X Y)). { apply reg_point; auto; lia. }
    exists Q0. split; [|split; [exact HQ|split; [exact Vx|split; [exact Vyv|exact O2]]]].
    unfold ecp_point_decode. rewrite FX, EYv.
    assert (CC : (vlong_cmpv_shifted (mulp yv yv) (curve_rhs D (vlong_OS2IP wd (be_bytes plen X))) 0 =? 0) = true).
    { apply (curve_check X yv _ Ryv ltac:(lia) RH). rewrite Vyv. exact C. }
    rewrite CC. cbn [negb]. fold Q0.
    destruct (holds_valid D g DO Q0 (Aff X Y) C HQ) as [VO HQ'].
    pose proof (ec_mul_can P a b HP H2' NT _ _ _ C HO) as KO. pose proof (ec_mul_can P a b HP H2' NT _ _ _ C HM) as KM. cbn [canW] in KO, KM, VO, HQ'.
    pose proof (order_test c (do_w _ _ DO) (do_o _ _ DO) Q0 (Aff (X mod P) (Y mod P)) (cv_n c) t _ _ VO ltac:(discriminate) HQ' (do_nw _ _ DO) HT (eq_sym KO) (eq_sym KM)) as OT.
    assert (MX : forall v, eqm P (v mod P) v) by (intros v; apply eqm_mod; [lia|]; apply Zmod_mod).
    rewrite OT; [| | | | |apply (inf_holds D g DO)].
    - assert (Z0 : words_or (repeat 0 wd) = 0). { apply Z.eqb_eq. rewrite words_or_0 by apply repeat_words. rewrite val_le_zeros. reflexivity. }
      rewrite Z0. reflexivity.
    - rewrite MX. exact N1'.
    - rewrite MX. exact N2'.
    - rewrite !MX. exact N3'.
    - rewrite !MX. exact N4'.
  Qed.

  Lemma decode_complete enc X Y t x y : 0 <= X < P -> 0 <= Y < P -> sec1_octets plen enc X Y -> on c (Aff X Y) ->
    ec_mul P a (Aff X Y) (Z.to_nat N) Inf -> 2 ^ Z.of_nat t <= N < 2 ^ Z.of_nat (S t) ->
    ec_mul P a (Aff X Y) (2 ^ t) (Aff x y) -> ~ eqm P y 1 -> ~ eqm P y (-1) -> ~ eqm P x y -> ~ eqm P x (- y) ->
    exists Q, ecp_point_decode D enc = Some Q /\ holds_point c Q (Aff X Y) /\ vval (px Q) = X /\ vval (py Q) = Y /\ vval (pz Q) = 1.
  Proof.
    intros BX BY (OX & OY & Hs) C HO HT HM N1' N2' N3' N4'. pose proof p_lt as PLT. pose proof (one_rep D g DO) as [O1 O2].
    pose proof (P1 D g DO) as p1.
    assert (Lx : length (be_bytes plen X) = plen) by apply be_bytes_length. assert (Bx : bytes_ok (be_bytes plen X)) by apply be_bytes_ok.
    assert (VX : be_val (be_bytes plen X) = X). { rewrite be_val_be_bytes by lia. apply Z.mod_small. exact OX. }
    destruct (octets_val _ Bx Lx) as (Rx & Vx & B1 & B2). rewrite VX in Vx, B1, B2.
    pose proof (rhs_rep _ Rx ltac:(rewrite Vx; exact B2)) as RH. rewrite Vx in RH.
    assert (FX : firstn plen (skipn 1 enc) = be_bytes plen X).
    { destruct Hs as [-> | ->]; cbn [skipn]; [rewrite firstn_app, Lx, Nat.sub_diag, firstn_O, app_nil_r|]; apply firstn_all2; lia. }
    assert (DY : exists yv, decode_y D enc (curve_rhs D (vlong_OS2IP wd (be_bytes plen X))) = Some yv /\ reg yv /\ vval yv = Y).
    { destruct Hs as [-> | ->].
      - unfold decode_y. change (nthZ 0 (4 :: be_bytes plen X ++ be_bytes plen Y)) with 4. change (4 =? 4) with true.
        assert (LL : length (4 :: be_bytes plen X ++ be_bytes plen Y) = (1 + plen * 2)%nat) by (cbn [length]; rewrite app_length, !be_bytes_length; lia).
        rewrite LL, Nat.eqb_refl. cbn [andb]. change (skipn (1 + plen) (4 :: be_bytes plen X ++ be_bytes plen Y)) with (skipn plen (be_bytes plen X ++ be_bytes plen Y)).
        rewrite skipn_app, Lx, Nat.sub_diag, skipn_O, skipn_all2, app_nil_l, firstn_all2 by (rewrite be_bytes_length; lia).
        assert (VY : be_val (be_bytes plen Y) = Y). { rewrite be_val_be_bytes by lia. apply Z.mod_small. exact OY. }
        destruct (octets_val (be_bytes plen Y) (be_bytes_ok _ _) (be_bytes_length _ _)) as (Ry & Vy & _ & _).
        eexists. split; [reflexivity|]. split; [exact Ry|]. now rewrite Vy, VY.
      - unfold decode_y. change (nthZ 0 ((2 + Y mod 2) :: be_bytes plen X)) with (2 + Y mod 2).
        pose proof (Z.mod_pos_bound Y 2 ltac:(lia)) as M2.
        assert (Os : 2 + Y mod 2 = 2 \/ 2 + Y mod 2 = 3) by lia.
        assert (LL : length ((2 + Y mod 2) :: be_bytes plen X) = (1 + plen)%nat) by (cbn [length]; rewrite be_bytes_length; lia).
        rewrite LL, Nat.eqb_refl.
        destruct (decode_root _ _ _ RH Os) as (r & yv & ER & EY & Ry & Iy & Sy & Cy).
        assert (Cv : on c (Aff X (vval yv))) by (apply Cy; now exists Y). destruct (Sy Cv) as [S1 S2].
        assert (T : ((2 + Y mod 2 =? 4) && Nat.eqb (1 + plen) (1 + plen * 2) = false)). { destruct Os as [-> | ->]; reflexivity. }
        rewrite T. assert (T' : ((2 + Y mod 2 =? 2) || (2 + Y mod 2 =? 3)) && true = true) by (destruct Os as [-> | ->]; reflexivity). rewrite T', ER.
        exists yv. split; [rewrite EY; destruct (Z.land (2 + Y mod 2) 1 =? Z.land (nthZ 0 r) 1); reflexivity|]. split; [exact Ry|].
        pose proof (vval_bound yv (proj1 Ry)) as BV. cbn [on on_curve] in C, Cv.
        assert (SQ : eqm P ((vval yv - Y) * (vval yv + Y)) 0).
        { transitivity (vval yv * vval yv - Y * Y); [apply eqm_eq; ring|]. rewrite Cv, C. apply eqm_eq. ring. }
        apply eqm_mod in SQ; [|lia]. rewrite Zmod_0_l in SQ. apply Z.mod_divide in SQ; [|lia].
        destruct (prime_mult P HP _ _ SQ) as [[k K]|[k K]].
        + assert (k = 0) by (clear - K BV BY S1; nia). subst k. clear - K. lia.
        + assert (KK : k = 0 \/ k = 1) by (clear - K BV BY S1; nia). destruct KK as [-> | ->]; [clear - K BV BY S1; lia|]. exfalso.
          assert (Z1 : vval yv = P - Y) by (clear - K; lia). pose proof P_odd as PO.
          assert (M : (P - Y) mod 2 = (1 - Y mod 2) mod 2) by (rewrite Zminus_mod, PO; reflexivity).
          assert (EE : vval yv mod 2 = Y mod 2) by lia. rewrite Z1, M in EE. clear - EE M2.
          assert (Y mod 2 = 0 \/ Y mod 2 = 1) as [T|T] by lia; rewrite T in EE; vm_compute in EE; lia. }
    destruct DY as (yv & EYv & Ryv & Vyv).
    apply (decode_core enc X Y yv t x y); auto; lia.
  Qed.
  Lemma decode_noncanonical Y t x y : 0 <= Y < P -> on c (Aff 0 Y) ->
    ec_mul P a (Aff 0 Y) (Z.to_nat N) Inf -> 2 ^ Z.of_nat t <= N < 2 ^ Z.of_nat (S t) ->
    ec_mul P a (Aff 0 Y) (2 ^ t) (Aff x y) -> ~ eqm P y 1 -> ~ eqm P y (-1) -> ~ eqm P x y -> ~ eqm P x (- y) ->
    exists Q, ecp_point_decode D (4 :: be_bytes plen P ++ be_bytes plen Y) = Some Q /\ vval (px Q) = P.
  Proof.
    intros BY C HO HT HM N1' N2' N3' N4'. pose proof (P1 D g DO) as p1. pose proof (do_pb _ _ DO) as PB.
    assert (PE : pt_eq P (Aff 0 Y) (Aff P Y)).
    { split; [|apply eqm_eq; reflexivity]. apply eqm_mod; [lia|]. now rewrite Z_mod_same_full, Zmod_0_l. }
    assert (C' : on c (Aff P Y)) by (apply (on_curve_eq P a b (Aff 0 Y)); [exact PE|exact C]).
    assert (CP : canW P (Aff P Y) = canW P (Aff 0 Y)) by (symmetry; now apply (canW_of P a b HP H2' NT)).
    assert (TR : forall k M, ec_mul P a (Aff 0 Y) k M -> exists M', ec_mul P a (Aff P Y) k M' /\ pt_eq P M' M).
    { intros k M HK. destruct (smul_mul' P a b HP H2' NT (Aff P Y) k C') as (M' & E'). exists M'. split; [exact E'|].
      apply (canW_pt P a b HP H2' NT). rewrite (ec_mul_can P a b HP H2' NT _ _ _ C' E'), (ec_mul_can P a b HP H2' NT _ _ _ C HK), CP. reflexivity. }
    destruct (TR _ _ HO) as (M1 & E1 & T1). destruct M1; [|destruct T1]. destruct (TR _ _ HM) as (M2 & E2 & T2). destruct M2 as [|x' y']; [destruct T2|]. destruct T2 as [T2 T3].
    set (enc := 4 :: be_bytes plen P ++ be_bytes plen Y).
    destruct (octets_val (be_bytes plen Y) (be_bytes_ok _ _) (be_bytes_length _ _)) as (Ry & Vy & _ & _).
    assert (VY : be_val (be_bytes plen Y) = Y). { rewrite be_val_be_bytes by lia. apply Z.mod_small. lia. }
    destruct (decode_core enc P Y (vlong_OS2IP wd (be_bytes plen Y)) t x' y') as (Q & EQ & _ & VX & _); auto; try lia.
    - unfold enc. cbn [skipn]. rewrite firstn_app, be_bytes_length, Nat.sub_diag, firstn_O, app_nil_r. apply firstn_all2. rewrite be_bytes_length. lia.
    - unfold decode_y, enc. change (nthZ 0 (4 :: be_bytes plen P ++ be_bytes plen Y)) with 4. change (4 =? 4) with true.
      assert (LL : length (4 :: be_bytes plen P ++ be_bytes plen Y) = (1 + plen * 2)%nat) by (cbn [length]; rewrite app_length, !be_bytes_length; lia).
      rewrite LL, Nat.eqb_refl. cbn [andb]. change (skipn (1 + plen) (4 :: be_bytes plen P ++ be_bytes plen Y)) with (skipn plen (be_bytes plen P ++ be_bytes plen Y)).
      rewrite skipn_app, be_bytes_length, Nat.sub_diag, skipn_O, skipn_all2, app_nil_l, firstn_all2 by (rewrite be_bytes_length; lia). reflexivity.
    - now rewrite T3.
    - now rewrite T3.
    - now rewrite T2, T3.
    - now rewrite T2, T3.
    - exists Q. split; assumption.
  Qed.

  (** * encoding *)
  Lemma encode_spec Q : reg (px Q) -> reg (py Q) -> vval (px Q) < 2 ^ (8 * Z.of_nat plen) -> vval (py Q) < 2 ^ (8 * Z.of_nat plen) -> forall l,
    match ecp_point_encode D Q l with
    | Some enc => length enc = l /\ sec1_octets plen enc (vval (px Q)) (vval (py Q))
    | None => l <> (1 + plen * 2)%nat /\ l <> (1 + plen)%nat
    end.
  Proof.
    clear HL H4. intros [WX LX] [WY LY] BX BY l. pose proof (wd_pos D g DO) as w0. pose proof (vval_bound _ WX) as B1. pose proof (vval_bound _ WY) as B2. unfold ecp_point_encode.
    destruct (Nat.eqb_spec l (1 + plen * 2)) as [-> |N1'].
    - rewrite !I2OSP_spec by auto. split; [cbn [length]; rewrite app_length, !be_bytes_length; lia|]. split; [lia|]. split; [lia|]. now left.
    - destruct (Nat.eqb_spec l (1 + plen)) as [-> |N2']; [|now split].
      rewrite parity by lia. rewrite I2OSP_spec by auto. split; [cbn [length]; rewrite be_bytes_length; lia|]. split; [lia|]. split; [lia|]. right.
      f_equal. pose proof (Z.mod_pos_bound (vval (py Q)) 2 ltac:(lia)) as M.
      assert (vval (py Q) mod 2 = 0 \/ vval (py Q) mod 2 = 1) as [T|T] by lia; rewrite T; reflexivity.
  Qed.

  (** * ecp_point_decode called with tinf == Q, compressed points *)
  Notation zero3 q := (xyz_rep c q 0 0 0).
  Lemma sel_any s t m : m = 0 \/ m = 1 -> any3 c s -> any3 c t -> any3 c (ecp_xyz_substitute s t m).
  Proof. intros Hm A B. rewrite (any_sel c s t m Hm A B). destruct (m =? 1); assumption. Qed.
  Lemma dbl_zero q Y : xyz_rep c q 0 Y 0 -> zero3 (ecp_point_dbl_fast c q).
  Proof.
    intros Zq. destruct (dbl_fast_rep c (OK D g DO) q _ _ _ Zq) as (R1 & R2 & R3). split; [|split]; (eapply (rep_eq wd (cv_p c)); [|eassumption]); ring.
  Qed.
  Lemma last_step s k i acc tmp : scale_last D s (S (S k)) i acc tmp =
    scale_last D s (S k) (S i) (ecp_xyz_substitute acc (ecp_point_add_rcb15 c tmp acc) (scalar_bit s i)) (ecp_point_dbl_fast c tmp).
  Proof. reflexivity. Qed.
  Lemma last_zero s : words_ok s -> forall k i acc tmp, any3 c acc -> zero3 tmp ->
    zero3 (fst (scale_last D s k i acc tmp)) /\ any3 c (snd (scale_last D s k i acc tmp)).
  Proof.
    intros Ws. induction k as [|k IH]; intros i acc tmp HA HT; [now split|]. destruct k as [|k]; [now split|].
    rewrite last_step. apply IH; [|now apply (dbl_zero tmp 0)].
    apply sel_any; [apply scalar_bit_01; exact Ws|exact HA|].
    eapply (rep_any c HP H2' NT). exact (add_rcb_rep c (OK D g DO) _ _ _ _ _ _ _ _ HT (any_rep c _ HA)).
  Qed.
  Lemma t3_zero l1 l2 : zero3 l1 -> any3 c l2 -> rep wd (cv_p c) (rcb15_t3 D l1 l2) 0.
  Proof.
    intros (A1 & A2 & A3) B. destruct (any_rep c _ B) as (B1 & B2 & B3). pose proof (OK D g DO) as OKc. unfold rcb15_t3.
    pose proof (mul_rep' c OKc _ _ _ _ A1 B1) as T0. pose proof (mul_rep' c OKc _ _ _ _ A2 B2) as T1.
    pose proof (mod_rep wd (cv_p c) (cv_g c) FP _ _ 2 (add_rep2 c OKc _ _ _ _ A1 A2) ltac:(discriminate)) as T3.
    pose proof (add_rep2 c OKc _ _ _ _ B1 B2) as T4. pose proof (cpy_rep wd (cv_p c) _ _ (mul_repk c OKc _ _ 2 _ _ T3 T4)) as T3'.
    pose proof (mod_rep wd (cv_p c) (cv_g c) FP _ _ 2 (add_rep2 c OKc _ _ _ _ T0 T1) ltac:(discriminate)) as T4'.
    eapply (rep_eq wd (cv_p c)); [|exact (sub_rep' c OKc _ _ _ _ T3' T4')]. ring.
  Qed.
  Lemma inplace_compressed enc Q : nthZ 0 enc = 2 \/ nthZ 0 enc = 3 -> ecp_point_decode_inplace D enc = Some Q -> eqm P (vval (py Q)) 0.
  Proof.
    intros Os E. pose proof (P1 D g DO) as p1. pose proof (wd_pos D g DO) as w0. pose proof (ln_pos D g DO) as l0. unfold ecp_point_decode_inplace in E.
    destruct (decode_y D enc _) as [y|] in E; [|discriminate].
    destruct (negb (vlong_cmpv_shifted _ _ 0 =? 0)) in E; [discriminate|]. destruct (negb (words_or _ =? 0)) in E; [discriminate|].
    destruct (scale_last D (cv_n c) (length (cv_n c) * 32) 0 (ecp_xyz_inf c) (ecp_xyz_copy c (ecp_xyz_inf c))) as [l1 l2] eqn:EL.
    assert (LZ : zero3 l1 /\ any3 c l2).
    { pose proof (copy_holds c HP H2' NT _ _ (inf_holds D g DO)) as HC. pose proof (inf_holds D g DO) as HI.
      assert (ZC : xyz_rep c (ecp_xyz_copy c (ecp_xyz_inf c)) 0 (vval (py (ecp_xyz_copy c (ecp_xyz_inf c)))) 0).
      { destruct HC as (A1 & A2 & A3 & A4 & A5 & _). split; [|split].
        - eapply (rep_ext wd (cv_p c)); [|exact (reg_rep c _ A1)]. apply eqm_mod; [lia|exact A4].
        - exact (reg_rep c _ A2).
        - eapply (rep_ext wd (cv_p c)); [|exact (reg_rep c _ A3)]. apply eqm_mod; [lia|exact A5]. }
      assert (AI : any3 c (ecp_xyz_inf c)) by (destruct HI as (I1 & I2 & I3 & _); now split).
      replace (length (cv_n c) * 32)%nat with (S (S (length (cv_n c) * 32 - 2))) in EL by lia. rewrite last_step in EL.
      assert (X : zero3 (fst (l1, l2)) /\ any3 c (snd (l1, l2))); [|exact X].
      rewrite <- EL. apply last_zero; [exact (do_nw _ _ DO)| |exact (dbl_zero _ _ ZC)].
      apply sel_any; [apply scalar_bit_01; exact (do_nw _ _ DO)|exact AI|].
      eapply (rep_any c HP H2' NT). exact (add_rcb_rep c (OK D g DO) _ _ _ _ _ _ _ _ ZC (any_rep c _ AI)). }
    destruct LZ as [Z1 Z2]. pose proof (t3_zero l1 l2 Z1 Z2) as U. set (u := rcb15_t3 D l1 l2) in *. clearbody u.
    unfold decode_y in E. assert (N4 : (nthZ 0 enc =? 4) = false) by (destruct Os as [-> | ->]; reflexivity). rewrite N4 in E. cbn [andb] in E.
    destruct (((nthZ 0 enc =? 2) || (nthZ 0 enc =? 3)) && Nat.eqb (length enc) (1 + plen)); [|discriminate].
    destruct (sqrt_spec wd (cv_p c) (cv_g c) u 0 FP HP H4 U) as (r & ER & R & _). rewrite ER in E.
    assert (EX : 0 < (P + 1) / 4) by (apply Z.div_str_pos; pose proof P1; assert (3 <= P) by (rewrite (Z.div_mod P 4) by lia; rewrite H4; pose proof (Z.div_pos P 4 ltac:(lia) ltac:(lia)); lia); lia).
    rewrite Z.pow_0_l in R by exact EX. destruct (rep_eqm D g DO _ _ R) as ((Wr & Lr) & Ir & Er). pose proof (vval_bound r Wr) as Br.
    destruct (Z.land (nthZ 0 enc) 1 =? Z.land (nthZ 0 r) 1); (assert (EQ : Some Q = Some Q) by reflexivity); injection E as <-; cbn [py]; [exact Er|].
    assert (SUB : vval (vlong_subv wd (cv_p c) r) = P - vval r).
    { rewrite vlong_subv_val by (auto; apply (fo_words _ _ _ FP)). apply Z.mod_small. pose proof (fo_room _ _ _ FP). lia. }
    assert (Rn : rep wd (cv_p c) (fst (cv_g c (vlong_subv wd (cv_p c) r))) (- vval r)).
    { apply (mod_rep wd (cv_p c) (cv_g c) FP _ _ 1); [|lia]. split; [apply vlong_subv_words|]. split; [apply vlong_subv_length|].
      rewrite SUB. split; [lia|]. replace (P - vval r) with (- vval r + 1 * P) by ring. apply Z.mod_add. lia. }
    destruct (rep_eqm D g DO _ _ Rn) as (_ & _ & En). rewrite En, Er. apply eqm_eq; reflexivity.
  Qed.
End Codec.
