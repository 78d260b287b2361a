(** Lemmas about Ecc.v: the signature schemes. *)
From Coq Require Import Znumtheory Setoid.
From Verif Require Import Base Vlong VlongLemmas VlongDivLemmas VlongMulLemmas EcMod EcModLemmas EcFieldLemmas EcExpLemmas EcCurveLemmas EcWideLemmas
  EcSpec EcGroupLemmas EcpXyz EcpLemmas ScaleLemmas EcLawLemmas EcpScaleLemmas EcMulLemmas Fermat Der DerLemmas PropEcp Ecc EccSpec EccLemmas.

Lemma inv_unique n s w w' : 1 < n -> (s * w) mod n = 1 -> (s * w') mod n = 1 -> w mod n = w' mod n.
Proof.
  intros H A B. assert (E : (w * (s * w')) mod n = (w' * (s * w)) mod n) by (f_equal; ring).
  rewrite <- Zmult_mod_idemp_r, B, Z.mul_1_r in E. rewrite <- (Zmult_mod_idemp_r (s * w)), A, Z.mul_1_r in E. exact E.
Qed.

Lemma land_word x y : word_ok x -> word_ok (Z.land x y).
Proof.
  unfold word_ok. intros B. assert (E : Z.land x y = Z.land x y mod 2 ^ 32).
  { rewrite <- Z.land_ones by lia. rewrite <- Z.land_assoc, (Z.land_comm y), Z.land_assoc, Z.land_ones, Z.mod_small by lia. reflexivity. }
  rewrite E. apply Z.mod_pos_bound. lia.
Qed.

Section Domain.
  Variables (D : ec_domain) (g : point).
  Hypothesis DO : domain_ok D g.
  Notation c := (ed_c D). Notation wd := (cv_w (ed_c D)). Notation plen := (ed_plen D).
  Notation P := (vval (cv_p (ed_c D))). Notation N := (vval (cv_n (ed_c D))).
  Notation ln := (length (cv_n (ed_c D))).
  Notation a := (cv_a (ed_c D)). Notation b := (vval (cv_b (ed_c D))).
  Notation ok := (valid P a b). Notation vop := (op P a b).
  Notation reg v := (words_ok v /\ length v = wd).
  Local Notation mulp x y := (fst (vlong_mulv_masked wd x y 1 (Some (cv_g c)))).
  Local Notation muln x y := (fst (vlong_mulv_masked wd x y 1 (Some (modn D)))).
  Local Notation mulN := (mulW P a b).
  Local Notation mulG := (mulZ P a b N).
  Local Notation HP := (Hp D g DO). Local Notation HT := (H2 D g DO). Local Notation NT := (NoTwo D g DO).
  Local Notation g0 := (G0 D g).

  Lemma comb_point Q u v x : on c Q ->
    combination_x P a g Q u v x <-> exists y, vop (mulN (Z.to_nat u) g0) (mulN (Z.to_nat v) (canW P Q)) = Aff x y.
  Proof.
    intros CQ. pose proof (do_Gc _ _ DO) as CG. pose proof (canW_ok P a b HP HT NT g CG) as VG. pose proof (canW_ok P a b HP HT NT Q CQ) as VQ. split.
    - intros (U & V & x0 & y0 & EU & EV & EA & ->).
      pose proof (ec_mul_on P a b HP HT NT g _ U CG EU) as CU. pose proof (ec_mul_on P a b HP HT NT Q _ V CQ EV) as CV.
      pose proof (add_can P a b HP HT NT U V _ CU CV EA) as K.
      rewrite (ec_mul_can P a b HP HT NT g _ U CG EU), (ec_mul_can P a b HP HT NT Q _ V CQ EV) in K.
      exists (y0 mod P). symmetry. exact K.
    - intros (y & E).
      destruct (smul_mul' P a b HP HT NT g (Z.to_nat u) CG) as (U & EU). destruct (smul_mul' P a b HP HT NT Q (Z.to_nat v) CQ) as (V & EV).
      pose proof (ec_mul_on P a b HP HT NT g _ U CG EU) as CU. pose proof (ec_mul_on P a b HP HT NT Q _ V CQ EV) as CV.
      destruct (ec_add_ex P a b HP HT NT U V CU CV) as (R & EA & _).
      pose proof (add_can P a b HP HT NT U V R CU CV EA) as K.
      rewrite (ec_mul_can P a b HP HT NT g _ U CG EU), (ec_mul_can P a b HP HT NT Q _ V CQ EV) in K.
      change (canW P g) with g0 in K. rewrite E in K. destruct R as [|x0 y0]; [discriminate|]. cbn [canW] in K.
      exists U, V, x0, y0. split; [exact EU|]. split; [exact EV|]. split; [exact EA|]. congruence.
  Qed.

  Lemma restore r : reg r -> vval r < N -> reg (vlong_OS2IP wd (vlong_I2OSP r plen)) /\ vval (vlong_OS2IP wd (vlong_I2OSP r plen)) = vval r.
  Proof.
    intros [W L] B. rewrite I2OSP_spec by exact W.
    destruct (os_val D g DO (be_bytes plen (vval r)) (be_bytes_ok _ _) ltac:(rewrite be_bytes_length; lia)) as (R & V & _).
    split; [exact R|]. rewrite V, be_val_be_bytes. apply Z.mod_small. pose proof (vval_bound r W). pose proof (do_pb _ _ DO). pose proof (do_np _ _ DO). lia.
  Qed.
  Lemma reg_len v : reg v -> (0 < length v)%nat.
  Proof. intros [_ L]. rewrite L. apply (wd_pos D g DO). Qed.
  Lemma hash_ok digest : bytes_ok digest -> bytes_ok (firstn plen digest) /\ (length (firstn plen digest) <= plen)%nat.
  Proof. intros H. split; [now apply Forall_firstn|rewrite firstn_length; lia]. Qed.
  Lemma N_lt x : vval x < N -> vval x < pw ln.
  Proof. pose proof (vval_bound _ (do_nw _ _ DO)). lia. Qed.
  (** comparing the x-coordinate register with a number below p *)
  Lemma x_test q R v : ok R -> holds_point c q R -> 1 <= v < N ->
    (vval (affine_x D q) = v <-> exists y, R = Aff v y).
  Proof.
    intros V H B. pose proof (do_np _ _ DO) as NP. pose proof (P1 D g DO) as p1. pose proof (affine_x_spec D g DO q R H) as A.
    destruct R as [|x y].
    - destruct (rep_eqm D g DO _ _ A) as ([W _] & U & E). split; [|intros (y & E'); discriminate].
      intros EV. exfalso. rewrite EV in E. apply eqm_mod in E; [|lia]. rewrite Zmod_0_l, Z.mod_small in E by lia. lia.
    - destruct V as [_ [KX KY]]. destruct (Z.eq_dec x 0) as [->|NX].
      + destruct (rep_eqm D g DO _ _ A) as ([W _] & U & E). split; [|intros (y' & E'); injection E'; lia].
        intros EV. exfalso. rewrite EV in E. apply eqm_mod in E; [|lia]. rewrite Zmod_0_l, Z.mod_small in E by lia. lia.
      + destruct (small_eq D g DO _ _ _ A A) as (_ & _ & E).
        { intros E. apply eqm_mod in E; [|lia]. rewrite Zmod_0_l, Z.mod_small in E by lia. lia. }
        rewrite E, Z.mod_small by lia. split; [intros ->; now exists y|]. intros (y' & E'). injection E'. auto.
  Qed.

  Lemma ecdsa_verify_spec x digest Q : on c Q -> Q <> Inf -> holds_point c (e_Q x) Q -> reg (e_r x) -> reg (e_s x) -> bytes_ok digest ->
    snd (HMP1994_Verify D x digest) = true <->
    1 <= vval (e_r x) < N /\ 1 <= vval (e_s x) < N /\ ecdsa_x P a N g Q (be_val (firstn plen digest)) (vval (e_r x)) (vval (e_s x)) (vval (e_r x)).
  Proof.
    intros CQ NQ HQ Rr Rs BD. unfold HMP1994_Verify.
    destruct (in_range D (e_r x)) eqn:I1.
    2:{ cbn [andb negb snd]. split; [discriminate|]. intros (H & _). apply (in_range_spec D g DO _ (proj1 Rr)) in H. congruence. }
    destruct (in_range D (e_s x)) eqn:I2.
    2:{ cbn [andb negb snd]. split; [discriminate|]. intros (_ & H & _). apply (in_range_spec D g DO _ (proj1 Rs)) in H. congruence. }
    apply (in_range_spec D g DO _ (proj1 Rr)) in I1. apply (in_range_spec D g DO _ (proj1 Rs)) in I2. cbn [andb negb].
    destruct (hash_ok digest BD) as [BH LH].
    destruct (os_val D g DO _ BH LH) as (RH & VH & HH). set (e := be_val (firstn plen digest)) in *. clearbody e.
    destruct (invn D g DO (e_s x) Rs I2) as (RT & TN & VT). set (t := vlong_inv_fermat wd (e_s x) (modn D) (cv_n c)) in *. clearbody t.
    set (w := vlong_OS2IP wd (firstn plen digest)) in *. clearbody w.
    destruct (muln_val D g DO w t (proj1 RH) (proj1 RT) (reg_len t RT) ltac:(lia)) as (RD & VD). rewrite VH in VD.
    destruct (muln_val D g DO (e_r x) t (proj1 Rr) (proj1 RT) (reg_len t RT) ltac:(apply N_lt; lia)) as (RK & VK).
    set (d := muln w t) in *. clearbody d. set (k := muln (e_r x) t) in *. clearbody k.
    destruct (holds_valid D g DO _ _ CQ HQ) as [VQ HQ0].
    assert (NQ0 : canW P Q <> Inf) by (destruct Q; cbn; congruence).
    pose proof (mulG_code D g DO d (proj1 RD)) as HR1.
    pose proof (scale_code D g DO _ _ _ _ k (mulG_ok D g DO (vval d)) VQ NQ0 (proj1 RK) HR1 HQ0) as HR.
    set (R := ecp_point_scale_accumulate c _ (e_Q x) k) in *. clearbody R. clear HR1.
    assert (EM : mulG (vval d) g0 = mulN (Z.to_nat (vval d)) g0).
    { symmetry. apply (mulW_Z P a b HP HT NT N (N1 D g DO)); [apply (G0_ok D g DO)|apply (G0_ord D g DO)|]. pose proof (vval_bound d (proj1 RD)). lia. }
    rewrite EM in HR. set (RP := vop _ _) in HR.
    assert (VR : ok RP) by (apply vop_ok; auto using HP, HT, NT, mulW_ok, G0_ok).
    assert (SP : ecdsa_x P a N g Q e (vval (e_r x)) (vval (e_s x)) (vval (e_r x)) <-> exists y, RP = Aff (vval (e_r x)) y).
    { unfold ecdsa_x, RP. rewrite VD, VK. pose proof (N1 D g DO) as n1. split.
      - intros (w0 & EW & CX). apply eqm_mod in EW; [|lia]. rewrite (Z.mod_small 1) in EW by lia.
        pose proof (inv_unique N _ _ _ n1 EW VT) as IU.
        rewrite <- (Zmult_mod_idemp_r w0), IU, Zmult_mod_idemp_r in CX. rewrite <- (Zmult_mod_idemp_r w0), IU, Zmult_mod_idemp_r in CX.
        apply (proj1 (comb_point Q _ _ _ CQ)) in CX. exact CX.
      - intros CX. exists (vval t). split; [apply eqm_mod; [lia|]; rewrite (Z.mod_small 1) by lia; exact VT|].
        apply (proj2 (comb_point Q _ _ _ CQ)). exact CX. }
    rewrite SP. cbv zeta. destruct (words_or (pz R) =? 0) eqn:EZ.
    { cbn [snd]. split; [discriminate|]. intros (_ & _ & y & E). pose proof (z_zero D _ _ HR EZ). congruence. }
    destruct (restore (e_r x) Rr ltac:(lia)) as (RO & VO). set (r' := vlong_OS2IP wd (vlong_I2OSP (e_r x) plen)) in *. clearbody r'.
    destruct (rep_eqm D g DO _ _ (affine_x_spec D g DO R RP HR)) as (RA & _).
    rewrite (cmp_eq _ _ (proj1 RA) (proj1 RO)), VO.
    pose proof (x_test R RP (vval (e_r x)) VR HR I1) as XT.
    destruct (Z.eqb_spec (vval (affine_x D R)) (vval (e_r x))) as [E|E]; cbn [negb snd].
    - split; [|reflexivity]. intros _. split; [exact I1|]. split; [exact I2|]. apply XT, E.
    - split; [discriminate|]. intros (_ & _ & H). apply XT in H. congruence.
  Qed.

  Lemma topword_reg v : reg v -> reg (topword_modmask D v).
  Proof.
    intros [W L]. unfold topword_modmask. set (i := ((plen - 1) / 4)%nat). split; [|now rewrite upd_length].
    apply upd_Forall; [exact W|]. apply land_word. exact (nthZ_words v i W).
  Qed.
  Lemma os_reg H : bytes_ok H -> reg (vlong_OS2IP wd H).
  Proof. intros B. destruct (OS2IP_spec wd H B) as (A1 & A2 & _). split; assumption. Qed.

  Lemma nonce_spec rnd : Forall bytes_ok rnd -> forall k R rnd', ecdsa_nonce D rnd = Some (k, R, rnd') ->
    reg k /\ 1 <= vval k < N /\ holds_point c R (mulG (vval k) g0) /\ Forall bytes_ok rnd'.
  Proof.
    intros F. induction F as [|H rnd BH F IH]; intros k R rnd' E; cbn [ecdsa_nonce] in E; [discriminate|].
    pose proof (topword_reg _ (os_reg H BH)) as RK. set (k0 := topword_modmask D (vlong_OS2IP wd H)) in *. clearbody k0.
    destruct (in_range D k0) eqn:I1; [|exact (IH _ _ _ E)]. apply (in_range_spec D g DO _ (proj1 RK)) in I1.
    destruct (words_or (px _) =? 0); [exact (IH _ _ _ E)|]. injection E as <- <- <-.
    split; [exact RK|]. split; [exact I1|]. split; [apply (mulG_code D g DO _ (proj1 RK))|exact F].
  Qed.
  Lemma sign_inv fuel x digest : forall rnd x', Forall bytes_ok rnd -> hmp_sign_loop D fuel x digest rnd = Some x' ->
    exists k R, reg k /\ 1 <= vval k < N /\ holds_point c R (mulG (vval k) g0) /\
      (e_r x', e_s x') = ecdsa_rs D (e_d x) k R (firstn plen digest) /\ (words_or (e_s x') =? 0) = false /\
      e_d x' = e_d x /\ e_Q x' = e_Q x /\ e_status x' = 1 /\ e_k x' = k.
  Proof.
    induction fuel as [|fuel IH]; intros rnd x' F E; cbn [hmp_sign_loop] in E; [discriminate|].
    destruct (ecdsa_nonce D rnd) as [[[k R] rnd']|] eqn:EN; [|discriminate].
    destruct (nonce_spec rnd F _ _ _ EN) as (RK & BK & HR & F').
    destruct (ecdsa_rs D (e_d x) k R (firstn plen digest)) as [r s] eqn:ERS. destruct (words_or s =? 0) eqn:ES; [exact (IH _ _ F' E)|].
    injection E as <-. exists k, R. cbn [e_r e_s e_d e_Q e_status e_k]. rewrite ERS. repeat (split; [solve [auto|reflexivity|tauto]|]). reflexivity.
  Qed.
  Lemma rs_val d k R H : reg d -> 1 <= vval k < N -> reg k -> vval d < N -> holds_point c R (mulG (vval k) g0) -> bytes_ok H -> (length H <= plen)%nat ->
    let '(r, s) := ecdsa_rs D d k R H in
    r = affine_x D R /\ reg r /\ reg s /\ vval s < N /\ (vval s * vval k) mod N = (be_val H + vval r * vval d) mod N.
  Proof.
    intros RD BK RK BD HR BH LH. unfold ecdsa_rs. cbv zeta. pose proof (N1 D g DO) as n1.
    destruct (rep_eqm D g DO _ _ (affine_x_spec D g DO R _ HR)) as (RA & UA & _). set (r := affine_x D R) in *. clearbody r.
    pose proof (P_pw D g DO) as PP. pose proof (vval_bound _ (do_nw _ _ DO)) as BN.
    destruct (muln_val D g DO r d (proj1 RA) (proj1 RD) (reg_len d RD) ltac:(lia)) as (RU & VU). set (u := muln r d) in *. clearbody u.
    destruct (os_val D g DO H BH LH) as (RV & VV & BV). set (v := vlong_OS2IP wd H) in *. clearbody v.
    pose proof (Z.mod_pos_bound (vval r * vval d) N ltac:(lia)) as MB.
    destruct (addn D g DO u v RU RV ltac:(lia) ltac:(lia)) as (RW & VW). set (w := vlong_addv wd u v) in *. clearbody w.
    destruct (modn_val D g DO w RW) as (RM & VM). set (m := fst (modn D w)) in *. clearbody m.
    destruct (invn D g DO k RK BK) as (RT & TN & VT). set (t := vlong_inv_fermat wd k (modn D) (cv_n c)) in *. clearbody t.
    destruct (muln_val D g DO t m (proj1 RT) (proj1 RM) (reg_len m RM) ltac:(lia)) as (RS & VS). set (s := muln t m) in *. clearbody s.
    split; [reflexivity|]. split; [exact RA|]. split; [exact RS|].
    split; [rewrite VS; apply Z.mod_pos_bound; lia|].
    rewrite VS, VM, VW, VU, VV. clear - VT n1. rewrite Zmult_mod_idemp_l, Zmult_mod_idemp_r || idtac.
    set (T := vval t) in *. set (K := vval k) in *. set (rd := vval r * vval d). set (e := be_val H). clearbody T K rd e. set (n := N) in *. clearbody n.
    rewrite Zmult_mod_idemp_l. replace (T * ((rd mod n + e) mod n) * K) with (K * T * ((rd mod n + e) mod n)) by ring.
    rewrite <- Zmult_mod_idemp_l, VT, Z.mul_1_l, Zmod_mod, Zplus_mod_idemp_l. f_equal. ring.
  Qed.
  Lemma key_point d Q : 0 <= d -> on c Q -> ec_mul P a g (Z.to_nat d) Q -> canW P Q = mulG d g0.
  Proof.
    intros B CQ E. rewrite (ec_mul_can P a b HP HT NT g _ Q (do_Gc _ _ DO) E).
    apply (mulW_Z P a b HP HT NT N (N1 D g DO)); [apply (G0_ok D g DO)|apply (G0_ord D g DO)|exact B].
  Qed.

  Lemma ecdsa_sign_verify x digest rnd x' y Q : on c Q -> Q <> Inf -> ec_mul P a g (Z.to_nat (vval (e_d x))) Q ->
    reg (e_d x) -> 1 <= vval (e_d x) < N -> bytes_ok digest -> Forall bytes_ok rnd ->
    HMP1994_Sign D x digest rnd = Some x' -> holds_point c (e_Q y) Q -> 1 <= vval (e_r x') < N ->
    e_r y = e_r x' -> e_s y = e_s x' -> snd (HMP1994_Verify D y digest) = true.
  Proof.
    intros CQ NQ EQ RD BD BDg F ES HQ BR Er Es. pose proof (N1 D g DO) as n1.
    destruct (sign_inv _ _ _ _ _ F ES) as (k & R & RK & BK & HR & ERS & NZ & _).
    destruct (hash_ok digest BDg) as [BH LH].
    pose proof (rs_val (e_d x) k R _ RD BK RK ltac:(lia) HR BH LH) as V. rewrite <- ERS in V. destruct V as (EA & Rr & Rs & SN & SV).
    rewrite words_or_0 in NZ by apply Rs. apply Z.eqb_neq in NZ.
    assert (BS : 1 <= vval (e_s x') < N) by (pose proof (vval_bound _ (proj1 Rs)); lia).
    apply (ecdsa_verify_spec y digest Q CQ NQ HQ); [rewrite Er; exact Rr|rewrite Es; exact Rs|exact BDg|].
    rewrite Er, Es. split; [exact BR|]. split; [exact BS|].
    destruct (invn D g DO (e_s x') Rs BS) as (_ & _ & VT). set (w := vval (vlong_inv_fermat _ _ _ _)) in VT. clearbody w.
    exists w. split; [apply eqm_mod; [lia|]; rewrite (Z.mod_small 1) by lia; exact VT|].
    apply (proj2 (comb_point Q _ _ _ CQ)).
    assert (EX : exists y0, mulG (vval k) g0 = Aff (vval (e_r x')) y0).
    { apply (x_test R _ _ (mulG_ok D g DO _) HR BR). now rewrite EA. }
    destruct EX as (y0 & EX). exists y0. rewrite <- EX.
    rewrite (key_point (vval (e_d x)) Q ltac:(lia) CQ EQ).
    set (e := be_val (firstn plen digest)) in *. clearbody e. clear - DO SV VT n1.
    set (r := vval (e_r x')) in *. set (s := vval (e_s x')) in *. set (d := vval (e_d x)) in *. set (kk := vval k) in *. clearbody r s d kk.
    pose proof (G0_ok D g DO) as VG. pose proof (G0_ord D g DO) as OG.
    change (mulN (Z.to_nat ((e * w) mod N)) g0) with (mulG (e * w) g0).
    change (mulN (Z.to_nat ((r * w) mod N)) (mulG d g0)) with (mulG (r * w) (mulG d g0)).
    rewrite (mulZ_mul P a b HP HT NT N n1 _ _ _ VG OG), (mulZ_add P a b HP HT NT N n1 _ _ _ VG OG).
    apply mulZ_mod. replace (e * w + r * w * d) with (w * (e + r * d)) by ring.
    rewrite <- Zmult_mod_idemp_r, <- SV, Zmult_mod_idemp_r. replace (w * (s * kk)) with (s * w * kk) by ring.
    rewrite <- Zmult_mod_idemp_l, VT. f_equal. ring.
  Qed.

  (** * SM2 *)
  Lemma x_nz q R x y : ok R -> holds_point c q R -> R = Aff x y -> x <> 0 -> vval (affine_x D q) = x.
  Proof.
    intros V H -> NX. pose proof (P1 D g DO) as p1. destruct V as [_ [KX KY]]. pose proof (affine_x_spec D g DO q _ H) as A. cbv beta iota in A.
    destruct (small_eq D g DO _ _ _ A A) as (_ & _ & E).
    { intros E. apply eqm_mod in E; [|lia]. rewrite Zmod_0_l, Z.mod_small in E by lia. lia. }
    rewrite E. apply Z.mod_small; lia.
  Qed.
  Lemma eq_shift n r s k x e : 0 < n -> 0 <= s < n -> 0 <= r < n -> k = (r + s) mod n ->
    (s = (k - (x + e)) mod n <-> (e + x) mod n = r).
  Proof.
    intros H Bs Br ->. rewrite Zminus_mod_idemp_l. split.
    - intros E. rewrite <- (Z.mod_small r n) by lia. apply eqm_mod; [lia|]. rewrite <- (Z.mod_small s n) in E at 1 by lia. apply eqm_mod in E; [|lia].
      unfold eqm in *. replace (e + x - r) with (s - (r + s - (x + e))) by ring. exact E.
    - intros E. rewrite <- (Z.mod_small r n) in E at 1 by lia. apply eqm_mod in E; [|lia]. rewrite <- (Z.mod_small s n) at 1 by lia. apply eqm_mod; [lia|].
      unfold eqm in *. replace (s - (r + s - (x + e))) with (e + x - r) by ring. exact E.
  Qed.

  Lemma sm2_verify_spec x digest Q : on c Q -> Q <> Inf -> holds_point c (e_Q x) Q -> reg (e_r x) -> reg (e_s x) -> bytes_ok digest ->
    (1 <= vval (e_r x) < N -> 1 <= vval (e_s x) < N -> (vval (e_r x) + vval (e_s x)) mod N <> 0 ->
       exists x0, combination_x P a g Q (vval (e_s x)) ((vval (e_r x) + vval (e_s x)) mod N) x0 /\ x0 <> 0) ->
    snd (GMT0003pt2_Verify D x digest) = true <-> sm2_valid P a N g Q (be_val (firstn plen digest)) (vval (e_r x)) (vval (e_s x)).
  Proof.
    intros CQ NQ HQ Rr Rs BD HX. unfold GMT0003pt2_Verify, sm2_valid. pose proof (N1 D g DO) as n1.
    destruct (in_range D (e_r x)) eqn:I1.
    2:{ cbn [andb negb snd]. split; [discriminate|]. intros (H & _). apply (in_range_spec D g DO _ (proj1 Rr)) in H. congruence. }
    destruct (in_range D (e_s x)) eqn:I2.
    2:{ cbn [andb negb snd]. split; [discriminate|]. intros (_ & H & _). apply (in_range_spec D g DO _ (proj1 Rs)) in H. congruence. }
    apply (in_range_spec D g DO _ (proj1 Rr)) in I1. apply (in_range_spec D g DO _ (proj1 Rs)) in I2. cbn [andb negb].
    destruct (hash_ok digest BD) as [BH LH].
    destruct (os_val D g DO _ BH LH) as (RH & VH & HH). set (e := be_val (firstn plen digest)) in *. clearbody e.
    set (w := vlong_OS2IP wd (firstn plen digest)) in *. clearbody w.
    pose proof (vval_bound _ (do_nw _ _ DO)) as BN. pose proof (P_pw D g DO) as PP. pose proof (vval_bound w (proj1 RH)) as BW.
    assert (VDd : reg (vlong_cpy wd (e_s x)) /\ vval (vlong_cpy wd (e_s x)) = vval (e_s x)).
    { split; [split; [apply vlong_cpy_words, Rs|apply vlong_cpy_length]|]. rewrite vlong_cpy_val by apply Rs. apply Z.mod_small. pose proof (pw_wd D g DO). lia. }
    destruct VDd as [RD VD]. set (d := vlong_cpy wd (e_s x)) in *. clearbody d.
    destruct (addn D g DO (e_r x) (e_s x) Rr Rs ltac:(lia) ltac:(lia)) as (RA0 & VA0). destruct (modn_val D g DO _ RA0) as (RK & VK). rewrite VA0 in VK.
    set (k := fst (modn D (vlong_addv wd (e_r x) (e_s x)))) in *. clearbody k. clear RA0 VA0.
    cbv zeta. rewrite (words_or_0 k (proj1 RK)).
    destruct (Z.eqb_spec (vval k) 0) as [K0|K0].
    { cbn [snd]. split; [discriminate|]. intros (_ & _ & H & _). congruence. }
    destruct (HX I1 I2 ltac:(congruence)) as (x0 & CX & NX). clear HX.
    destruct (holds_valid D g DO _ _ CQ HQ) as [VQ HQ0].
    assert (NQ0 : canW P Q <> Inf) by (destruct Q; cbn; congruence).
    pose proof (mulG_code D g DO d (proj1 RD)) as HR1.
    pose proof (scale_code D g DO _ _ _ _ k (mulG_ok D g DO (vval d)) VQ NQ0 (proj1 RK) HR1 HQ0) as HR.
    set (R := ecp_point_scale_accumulate c _ (e_Q x) k) in *. clearbody R. clear HR1.
    assert (EM : mulG (vval d) g0 = mulN (Z.to_nat (vval d)) g0).
    { symmetry. apply (mulW_Z P a b HP HT NT N (N1 D g DO)); [apply (G0_ok D g DO)|apply (G0_ord D g DO)|]. pose proof (vval_bound d (proj1 RD)). lia. }
    rewrite EM in HR. set (RP := vop _ _) in HR.
    assert (VR : ok RP) by (apply vop_ok; auto using HP, HT, NT, mulW_ok, G0_ok).
    assert (SP : forall u, combination_x P a g Q (vval (e_s x)) ((vval (e_r x) + vval (e_s x)) mod N) u <-> exists y, RP = Aff u y).
    { intros u. rewrite (comb_point Q _ _ _ CQ). unfold RP. rewrite VD, VK. reflexivity. }
    apply (proj1 (SP x0)) in CX. destruct CX as (y0 & CX). rewrite CX in HR. rewrite (z_aff D _ _ _ HR).
    rewrite CX in VR. pose proof (x_nz R _ _ _ VR HR eq_refl NX) as XV. destruct (rep_eqm D g DO _ _ (affine_x_spec D g DO R _ HR)) as (RAx & UA & _).
    destruct (addn D g DO (affine_x D R) w RAx RH ltac:(lia) ltac:(lia)) as (RS & VS).
    destruct (imodn D g DO k (vlong_addv wd (affine_x D R) w) RK RS) as (RI & VI).
    { rewrite VK. pose proof (Z.mod_pos_bound (vval (e_r x) + vval (e_s x)) N ltac:(lia)). lia. }
    { rewrite VS. lia. }
    rewrite (cmp_eq _ _ (proj1 RD) (proj1 RI)), VI, VS, XV, VD, VH.
    pose proof (eq_shift N (vval (e_r x)) (vval (e_s x)) (vval k) x0 e ltac:(lia) ltac:(lia) ltac:(lia) VK) as ES.
    match goal with |- context [negb (?u =? ?v)] => destruct (Z.eqb_spec u v) as [E|E] end; cbn [negb snd].
    - split; [|reflexivity]. intros _. split; [exact I1|]. split; [exact I2|]. split; [congruence|]. exists x0. split; [apply SP; now exists y0|]. now apply ES.
    - split; [discriminate|]. intros (_ & _ & _ & u & H & H'). apply (proj1 (SP u)) in H. destruct H as (y' & H). exfalso. apply E, ES. congruence.
  Qed.
  Lemma sm2_reject_range x digest : reg (e_r x) -> reg (e_s x) -> snd (GMT0003pt2_Verify D x digest) = true ->
    1 <= vval (e_r x) < N /\ 1 <= vval (e_s x) < N /\ (vval (e_r x) + vval (e_s x)) mod N <> 0.
  Proof.
    intros Rr Rs. unfold GMT0003pt2_Verify. pose proof (vval_bound _ (do_nw _ _ DO)) as BN.
    destruct (in_range D (e_r x)) eqn:I1; [|discriminate]. destruct (in_range D (e_s x)) eqn:I2; [|discriminate].
    apply (in_range_spec D g DO _ (proj1 Rr)) in I1. apply (in_range_spec D g DO _ (proj1 Rs)) in I2. cbn [andb negb]. cbv zeta.
    destruct (addn D g DO (e_r x) (e_s x) Rr Rs ltac:(lia) ltac:(lia)) as (RA0 & VA0). destruct (modn_val D g DO _ RA0) as (RK & VK). rewrite VA0 in VK.
    rewrite (words_or_0 _ (proj1 RK)), VK. destruct (Z.eqb_spec ((vval (e_r x) + vval (e_s x)) mod N) 0); [discriminate|]. auto.
  Qed.

  Lemma sm2_nonce_spec rnd : Forall bytes_ok rnd -> forall k R rnd', sm2_nonce D rnd = Some (k, R, rnd') ->
    reg k /\ 1 <= vval k < N /\ holds_point c R (mulG (vval k) g0) /\ Forall bytes_ok rnd'.
  Proof.
    intros F. induction F as [|H rnd BH F IH]; intros k R rnd' E; cbn [sm2_nonce] in E; [discriminate|].
    pose proof (os_reg H BH) as RK. set (k0 := vlong_OS2IP wd H) in *. clearbody k0.
    destruct (in_range D k0) eqn:I1; [|exact (IH _ _ _ E)]. apply (in_range_spec D g DO _ (proj1 RK)) in I1.
    injection E as <- <- <-.
    split; [exact RK|]. split; [exact I1|]. split; [apply (mulG_code D g DO _ (proj1 RK))|exact F].
  Qed.
  Lemma sm2_r_val q Q H : holds_point c q Q -> bytes_ok H -> (length H <= plen)%nat ->
    reg (sm2_r D q H) /\ vval (sm2_r D q H) = (vval (affine_x D q) + be_val H) mod N.
  Proof.
    intros HR BH LH. unfold sm2_r. destruct (os_val D g DO _ BH LH) as (RH & VH & HH).
    destruct (rep_eqm D g DO _ _ (affine_x_spec D g DO q _ HR)) as (RAx & UA & _). pose proof (P_pw D g DO) as PP.
    destruct (addn D g DO (affine_x D q) (vlong_OS2IP wd H) RAx RH ltac:(lia) ltac:(lia)) as (RS & VS).
    destruct (modn_val D g DO _ RS) as (RM & VM). split; [exact RM|]. rewrite VM, VS, VH. reflexivity.
  Qed.
  Lemma invn0 v : reg v -> vval v = 0 -> 2 < N -> vval (vlong_inv_fermat wd v (modn D) (cv_n c)) mod N = 0 /\ reg (vlong_inv_fermat wd v (modn D) (cv_n c)) /\ vval (vlong_inv_fermat wd v (modn D) (cv_n c)) <= N.
  Proof.
    intros R0 V0 HN. pose proof (do_nw _ _ DO) as W. pose proof (vval_bound _ W) as B. pose proof (do_n2 _ _ DO) as L2.
    pose proof (shiftadded_spec wd (cv_n c) (modn D) (cv_n c) v (vval v) (-2) 0 (Fn D g DO) W (rep_n D v R0 ltac:(lia)) ltac:(lia) ltac:(lia) ltac:(lia) ltac:(lia) (ln_pos D g DO)) as S0.
    change (Z.of_nat 0) with 0 in S0. rewrite Z.pow_0_r, Z.div_1_r, V0, Z.pow_0_l in S0 by lia. destruct S0 as (S1 & S2 & S3 & S4).
    unfold vlong_inv_fermat. split; [rewrite S4; apply Zmod_0_l|]. split; [split; assumption|exact S3].
  Qed.
  Lemma sm2_s_val d k r : reg d -> reg k -> reg r -> vval d < N -> vval k < N -> vval r < N -> 2 < N ->
    reg (sm2_s D d k r) /\ 0 <= vval (sm2_s D d k r) < N /\
    (vval d = N - 1 -> vval (sm2_s D d k r) = 0) /\
    (vval d < N - 1 -> (vval (sm2_s D d k r) * (1 + vval d)) mod N = (vval k - vval r * vval d) mod N).
  Proof.
    intros RD RK Rr BD BK Br HN. unfold sm2_s. cbv zeta.
    pose proof (vval_bound _ (do_nw _ _ DO)) as BN. pose proof (vval_bound d (proj1 RD)) as Bd. pose proof (vval_bound k (proj1 RK)) as Bk. pose proof (pw_wd D g DO) as PW.
    assert (A : reg (vlong_adds wd d 1 0) /\ vval (vlong_adds wd d 1 0) = vval d + 1).
    { split; [split; [apply vlong_adds_words|apply vlong_adds_length]|]. rewrite vlong_adds_val by (try apply RD; lia).
      change (32 * Z.of_nat 0) with 0. rewrite Z.pow_0_r, Z.mul_1_r. apply Z.mod_small. lia. }
    destruct A as [RA VA]. destruct (modn_val D g DO _ RA) as (RM & VM). rewrite VA in VM. set (m := fst (modn D (vlong_adds wd d 1 0))) in *. clearbody m. clear RA VA.
    destruct (muln_val D g DO r d (proj1 Rr) (proj1 RD) (reg_len d RD) ltac:(apply N_lt; lia)) as (RU & VU). set (u := muln r d) in *. clearbody u.
    pose proof (Z.mod_pos_bound (vval r * vval d) N ltac:(lia)) as MB.
    destruct (imodn D g DO k u RK RU ltac:(lia) ltac:(lia)) as (RW & VW). set (w := vlong_imod_inplace (vlong_subv wd k u) (cv_n c)) in *. clearbody w.
    assert (T : reg (vlong_inv_fermat wd m (modn D) (cv_n c)) /\ vval (vlong_inv_fermat wd m (modn D) (cv_n c)) <= N /\
       (vval d = N - 1 -> vval (vlong_inv_fermat wd m (modn D) (cv_n c)) mod N = 0) /\
       (vval d < N - 1 -> ((vval d + 1) * vval (vlong_inv_fermat wd m (modn D) (cv_n c))) mod N = 1)).
    { destruct (Z.eq_dec (vval d) (N - 1)) as [E|E].
      - rewrite E in VM. replace (N - 1 + 1) with N in VM by ring. rewrite Z_mod_same_full in VM.
        destruct (invn0 m RM VM HN) as (I0 & RI & BI). split; [exact RI|]. split; [exact BI|]. split; [auto|lia].
      - rewrite Z.mod_small in VM by lia. destruct (invn D g DO m RM ltac:(lia)) as (RT & TN & VT). rewrite VM in VT. split; [exact RT|]. split; [exact TN|]. split; [lia|auto]. }
    destruct T as (RT & TN & T0 & T1). set (t := vlong_inv_fermat wd m (modn D) (cv_n c)) in *. clearbody t.
    destruct (muln_val D g DO t w (proj1 RT) (proj1 RW) (reg_len w RW) ltac:(lia)) as (RS & VS). set (s := muln t w) in *. clearbody s.
    split; [exact RS|]. split; [rewrite VS; apply Z.mod_pos_bound; lia|]. rewrite VS, VW, VU. clear - T0 T1 HN.
    set (rd := vval r * vval d). set (dd := vval d) in *. set (tt := vval t) in *. set (kk := vval k). set (n := N) in *. clearbody rd dd tt kk n.
    rewrite (Zminus_mod_idemp_r kk rd). split.
    - intros E. rewrite <- Zmult_mod_idemp_l, (T0 E). apply Zmod_0_l.
    - intros E. rewrite Zmult_mod_idemp_r, Zmult_mod_idemp_l. replace (tt * (kk - rd) * (1 + dd)) with ((dd + 1) * tt * (kk - rd)) by ring.
      rewrite <- Zmult_mod_idemp_l, (T1 E), Z.mul_1_l. reflexivity.
  Qed.
  Lemma sm2_sign_inv fuel x digest : reg (e_d x) -> forall rnd x', Forall bytes_ok rnd -> sm2_sign_loop D fuel x digest rnd = Some x' ->
    exists k R, reg k /\ 1 <= vval k < N /\ holds_point c R (mulG (vval k) g0) /\
      e_r x' = sm2_r D R (firstn plen digest) /\ e_s x' = sm2_s D (e_d x) k (e_r x') /\
      (words_or (e_r x') =? 0) = false /\ (vlong_cmpv_shifted (vlong_addv wd (e_r x') k) (cv_n c) 0 =? 0) = false /\ (words_or (e_s x') =? 0) = false /\
      e_d x' = e_d x /\ e_Q x' = e_Q x /\ e_k x' = k.
  Proof.
    intros RD. induction fuel as [|fuel IH]; intros rnd x' F E; cbn [sm2_sign_loop] in E; [discriminate|].
    destruct (sm2_nonce D rnd) as [[[k R] rnd']|] eqn:EN; [|discriminate].
    destruct (sm2_nonce_spec rnd F _ _ _ EN) as (RK & BK & HR & F'). cbv zeta in E.
    destruct (words_or (sm2_r D R (firstn plen digest)) =? 0) eqn:E1; [exact (IH _ _ F' E)|].
    destruct (vlong_cmpv_shifted _ (cv_n c) 0 =? 0) eqn:E2; [exact (IH _ _ F' E)|].
    destruct (words_or (sm2_s D (e_d x) k _) =? 0) eqn:E3; [exact (IH _ _ F' E)|].
    injection E as <-. exists k, R. cbn [e_r e_s e_d e_Q e_k]. repeat (split; [solve [auto|reflexivity|tauto]|]). reflexivity.
  Qed.

  Lemma sm2_sign_verify x digest rnd x' y Q : on c Q -> Q <> Inf -> ec_mul P a g (Z.to_nat (vval (e_d x))) Q ->
    reg (e_d x) -> 1 <= vval (e_d x) < N -> 2 < N -> bytes_ok digest -> Forall bytes_ok rnd ->
    GMT0003pt2_Sign D x digest rnd = Some x' -> holds_point c (e_Q y) Q ->
    e_r y = e_r x' -> e_s y = e_s x' ->
    1 <= vval (e_k x') < N /\ forall xk, combination_x P a g Inf (vval (e_k x')) 0 xk -> xk <> 0 -> snd (GMT0003pt2_Verify D y digest) = true.
  Proof.
    intros CQ NQ EQ RD BD HN BDg F ES HQ Er Es. pose proof (N1 D g DO) as n1.
    destruct (sm2_sign_inv _ _ _ RD _ _ F ES) as (k & R & RK & BK & HR & ER & ESs & Z1 & Z2 & Z3 & _ & _ & EK). rewrite EK. clear EK.
    destruct (hash_ok digest BDg) as [BH LH]. destruct (sm2_r_val R _ _ HR BH LH) as (Rr & Vr). rewrite <- ER in Rr, Vr.
    assert (Br : 0 <= vval (e_r x') < N) by (rewrite Vr; apply Z.mod_pos_bound; lia).
    destruct (sm2_s_val (e_d x) k (e_r x') RD RK Rr ltac:(lia) ltac:(lia) ltac:(lia) HN) as (Rs & Bs & S0 & S1). rewrite <- ESs in *.
    rewrite (words_or_0 _ (proj1 Rr)) in Z1. rewrite (words_or_0 _ (proj1 Rs)) in Z3. apply Z.eqb_neq in Z1, Z3.
    pose proof (vval_bound _ (do_nw _ _ DO)) as BN.
    destruct (addn D g DO (e_r x') k Rr RK ltac:(lia) ltac:(lia)) as (RA & VA). rewrite (cmp_eq _ _ (proj1 RA) (do_nw _ _ DO)), VA in Z2. apply Z.eqb_neq in Z2.
    assert (Dn : vval (e_d x) < N - 1) by (destruct (Z.eq_dec (vval (e_d x)) (N - 1)) as [E|E]; [rewrite (S0 E) in Z3; congruence|lia]).
    specialize (S1 Dn). clear S0.
    assert (BR1 : 1 <= vval (e_r x') < N) by (clear - Br Z1; lia). assert (BS1 : 1 <= vval (e_s x') < N) by (clear - Bs Z3; lia).
    set (e := be_val (firstn plen digest)) in *.
    set (r := vval (e_r x')) in *. set (s := vval (e_s x')) in *. set (d := vval (e_d x)) in *. set (kk := vval k) in *.
    split; [exact BK|]. intros xk CK NK.
    pose proof (G0_ok D g DO) as VG. pose proof (G0_ord D g DO) as OG.
    (* s + (r + s) d = k *)
    assert (KS : (s + (r + s) * d) mod N = kk mod N).
    { replace (s + (r + s) * d) with (s * (1 + d) + r * d) by ring. rewrite <- Zplus_mod_idemp_l, S1, Zplus_mod_idemp_l. f_equal. ring. }
    assert (T0 : (r + s) mod N <> 0).
    { intros E. rewrite <- Zplus_mod_idemp_r, <- Zmult_mod_idemp_l, E, Z.mul_0_l, Zmod_0_l, Z.add_0_r in KS.
      rewrite (Z.mod_small s), (Z.mod_small kk) in KS by lia. apply Z.mod_divide in E; [|lia]. destruct E as [j E]. clear - E KS Z1 Z2 Z3 Br Bs BK.
      assert (j = 1) by nia. subst j. lia. }
    assert (PT : vop (mulN (Z.to_nat s) g0) (mulN (Z.to_nat ((r + s) mod N)) (canW P Q)) = mulG kk g0).
    { rewrite (key_point d Q ltac:(lia) CQ EQ). change (mulN (Z.to_nat ((r + s) mod N)) (mulG d g0)) with (mulG (r + s) (mulG d g0)).
      rewrite (mulW_Z P a b HP HT NT N n1 s g0 VG OG) by lia.
      rewrite (mulZ_mul P a b HP HT NT N n1 _ _ _ VG OG), (mulZ_add P a b HP HT NT N n1 _ _ _ VG OG). apply mulZ_mod. exact KS. }
    apply (proj1 (comb_point Inf _ _ _ I)) in CK. destruct CK as (yk & CK). change (mulN (Z.to_nat 0) (canW P Inf)) with Inf in CK.
    rewrite (vop_Inf P a b HP HT NT) in CK by (apply mulW_ok; auto using HP, HT, NT).
    rewrite (mulW_Z P a b HP HT NT N n1 kk g0 VG OG) in CK by lia.
    assert (CC : combination_x P a g Q s ((r + s) mod N) xk).
    { apply (proj2 (comb_point Q _ _ _ CQ)). exists yk. rewrite PT. exact CK. }
    apply (sm2_verify_spec y digest Q CQ NQ HQ); [rewrite Er; exact Rr|rewrite Es; exact Rs|exact BDg| |].
    - intros _ _ _. rewrite Er, Es. exists xk. split; assumption.
    - rewrite Er, Es. split; [exact BR1|]. split; [exact BS1|]. split; [exact T0|]. exists xk. split; [exact CC|].
      rewrite CK in HR. pose proof (mulG_ok D g DO kk) as VK. fold g0 in VK. rewrite CK in VK.
      pose proof (x_nz R _ _ _ VK HR eq_refl NK) as XV. change (vval (e_r x')) with r. rewrite Vr, XV. f_equal. apply Z.add_comm.
  Qed.

  (** with d = n - 1 every s is 0: no signature is ever found *)
  Lemma sm2_diverges fuel x digest : reg (e_d x) -> vval (e_d x) = N - 1 -> 2 < N -> bytes_ok digest ->
    forall rnd, Forall bytes_ok rnd -> sm2_sign_loop D fuel x digest rnd = None.
  Proof.
    intros RD ED HN BDg. induction fuel as [|fuel IH]; intros rnd F; cbn [sm2_sign_loop]; [reflexivity|].
    destruct (sm2_nonce D rnd) as [[[k R] rnd']|] eqn:EN; [|reflexivity].
    destruct (sm2_nonce_spec rnd F _ _ _ EN) as (RK & BK & HR & F'). cbv zeta.
    destruct (words_or _ =? 0); [now apply IH|]. destruct (vlong_cmpv_shifted _ _ _ =? 0); [now apply IH|].
    destruct (hash_ok digest BDg) as [BH LH]. destruct (sm2_r_val R _ _ HR BH LH) as (Rr & Vr).
    assert (Br : vval (sm2_r D R (firstn plen digest)) < N) by (rewrite Vr; apply Z.mod_pos_bound; lia).
    destruct (sm2_s_val (e_d x) k _ RD RK Rr ltac:(lia) ltac:(lia) Br HN) as (Rs & Bs & S0 & S1).
    rewrite (words_or_0 _ (proj1 Rs)), (S0 ED). change (0 =? 0) with true. cbv iota. now apply IH.
  Qed.

  (** * Key pairs and ECDH *)
  Lemma key_mul k : 0 <= k -> exists K, ec_mul P a g (Z.to_nat k) K /\ canW P K = mulG k g0 /\ on c K.
  Proof.
    intros Bk. destruct (smul_mul' P a b HP HT NT g (Z.to_nat k) (do_Gc _ _ DO)) as (K & EK). exists K.
    pose proof (ec_mul_on P a b HP HT NT g _ K (do_Gc _ _ DO) EK) as CK. split; [exact EK|]. split; [now apply key_point|exact CK].
  Qed.
  Lemma aff_of k : 1 <= k < N -> exists x y, mulG k g0 = Aff x y.
  Proof. intros B. pose proof (mulG_nz D g DO k B) as H. destruct (mulZ P a b N k (G0 D g)) as [|x y]; [congruence|]. now exists x, y. Qed.
  Lemma pubkey_code d : reg d -> 1 <= vval d < N ->
    exists x y, mulG (vval d) g0 = Aff x y /\ holds_point c (ecc_pubkey D d) (Aff x y) /\ vval (pz (ecc_pubkey D d)) = 1.
  Proof.
    intros RD BD. destruct (aff_of _ BD) as (x & y & E). exists x, y. split; [exact E|]. pose proof (mulG_code D g DO d (proj1 RD)) as H. rewrite E in H.
    unfold ecc_pubkey. now apply (canon_code D g DO).
  Qed.
  Lemma pubkey_spec d : reg d -> 1 <= vval d < N ->
    exists Q, ec_mul P a g (Z.to_nat (vval d)) Q /\ on c Q /\ Q <> Inf /\ holds_point c (ecc_pubkey D d) Q /\ vval (pz (ecc_pubkey D d)) = 1.
  Proof.
    intros RD BD. destruct (pubkey_code d RD BD) as (x & y & E & H & Z1). destruct (key_mul (vval d) ltac:(lia)) as (K & EK & CK & OK').
    rewrite E in CK. exists K. split; [exact EK|]. split; [exact OK'|]. split; [destruct K; [discriminate|congruence]|].
    split; [|exact Z1]. apply (holds_pt c _ (Aff x y)); [|exact H]. rewrite <- CK. apply pt_eq_sym, (canW_eq P a b HP HT NT).
  Qed.
  Lemma gen_spec rnd : Forall bytes_ok rnd -> forall d Q, ecc_gen_privkey D rnd = Some (d, Q) -> reg d /\ 1 <= vval d < N /\ Q = ecc_pubkey D d.
  Proof.
    intros F. induction F as [|H rnd BH F IH]; intros d Q E; cbn [ecc_gen_privkey] in E; [discriminate|].
    pose proof (topword_reg _ (os_reg H BH)) as RK. cbv zeta in E. destruct (in_range D _) eqn:I1; [|exact (IH _ _ E)].
    injection E as <- <-. split; [exact RK|]. split; [|reflexivity]. now apply (in_range_spec D g DO _ (proj1 RK)).
  Qed.
  Lemma dec_spec enc d Q : bytes_ok enc -> ecc_dec_privkey D enc = Some (d, Q) <->
    length enc = plen /\ 1 <= be_val enc < N /\ d = vlong_OS2IP wd enc /\ Q = ecc_pubkey D d.
  Proof.
    intros B. unfold ecc_dec_privkey. destruct (Nat.eqb_spec (length enc) plen) as [L|L]; cbn [negb]; [|split; [discriminate|tauto]].
    destruct (os_val D g DO enc B ltac:(lia)) as (R & V & _). cbv zeta. pose proof (in_range_spec D g DO _ (proj1 R)) as IR. rewrite V in IR.
    destruct (in_range D (vlong_OS2IP wd enc)).
    - split.
      + intros E. injection E as <- <-. split; [exact L|]. split; [now apply IR|]. split; reflexivity.
      + intros (_ & _ & -> & ->). reflexivity.
    - split; [discriminate|]. intros (_ & H & _). apply IR in H. discriminate.
  Qed.

  (** the shared secret *)
  Lemma secret_code q base B k : ok B -> B <> Inf -> words_ok k -> holds_point c base B -> q = ecp_point_scale_accumulate c (ecp_xyz_inf c) base k ->
    forall x y, mulN (Z.to_nat (vval k)) B = Aff x y -> x <> 0 ->
    (words_or (pz q) =? 0) = false /\ vlong_I2OSP (affine_x D q) plen = be_bytes plen x.
  Proof.
    intros VB NB Wk HB -> x y E NX. pose proof (scale_inf_code D g DO base B k VB NB Wk HB) as H. pose proof (mulW_ok P a b HP HT NT (Z.to_nat (vval k)) B VB) as V.
    rewrite E in H, V. split; [exact (z_aff D _ _ _ H)|]. pose proof (x_nz _ _ _ _ V H eq_refl NX) as XV.
    destruct (rep_eqm D g DO _ _ (affine_x_spec D g DO _ _ H)) as (RA & _). rewrite I2OSP_spec by apply RA. now rewrite XV.
  Qed.
  Lemma kem_enc_inv Q : forall rnd, Forall bytes_ok rnd -> forall ct ss, ECDH_KEM_Enc D Q rnd = Some (ct, ss) ->
    exists k, (exists H, In H rnd /\ k = topword_modmask D (vlong_OS2IP wd H)) /\ reg k /\ 1 <= vval k < N /\ ct = ecc_pubkey D k /\ ss = vlong_I2OSP (affine_x D (ecp_point_scale_accumulate c (ecp_xyz_inf c) Q k)) plen.
  Proof.
    intros rnd F. induction F as [|H rnd BH F IH]; intros ct ss E; cbn [ECDH_KEM_Enc] in E; [discriminate|].
    pose proof (topword_reg _ (os_reg H BH)) as RK. cbv zeta in E. remember (topword_modmask D (vlong_OS2IP wd H)) as k eqn:KE.
    destruct (in_range D k) eqn:I1; [|destruct (IH _ _ E) as (k1 & (H1 & I2 & E2) & R3); exists k1; split; [exists H1; split; [right; exact I2|exact E2]|exact R3]].
    destruct (words_or _ =? 0); [discriminate|]. injection E as <- <-. exists k. split; [exists H; split; [left; reflexivity|exact KE]|]. split; [exact RK|].
    split; [now apply (in_range_spec D g DO _ (proj1 RK))|]. split; reflexivity.
  Qed.
  Lemma ecdh_agree d Q q rnd ct ss : reg d -> 1 <= vval d < N -> ec_mul P a g (Z.to_nat (vval d)) Q -> holds_point c q Q -> Forall bytes_ok rnd ->
    ECDH_KEM_Enc D q rnd = Some (ct, ss) ->
    exists k K S, (exists H, In H rnd /\ k = vval (topword_modmask D (vlong_OS2IP wd H))) /\ 1 <= k < N /\ ec_mul P a g (Z.to_nat k) K /\ on c K /\ K <> Inf /\ holds_point c ct K /\ ec_mul P a Q (Z.to_nat k) S /\
      forall xs ys, S = Aff xs ys -> ~ eqm P xs 0 ->
        ss = be_bytes plen (xs mod P) /\ forall ct', holds_point c ct' K -> ECDH_KEM_Dec D d ct' = Some ss.
  Proof.
    intros RD BD EQ HQ F E. pose proof (N1 D g DO) as n1. pose proof (P1 D g DO) as p1.
    pose proof (ec_mul_on P a b HP HT NT g _ Q (do_Gc _ _ DO) EQ) as CQ.
    destruct (kem_enc_inv q rnd F ct ss E) as (k & (H & IH & KH) & RK & BK & -> & ->).
    destruct (pubkey_spec k RK BK) as (K & EK & CK & NK & HK & _).
    destruct (smul_mul' P a b HP HT NT Q (Z.to_nat (vval k)) CQ) as (S0 & ES).
    exists (vval k), K, S0. split; [exists H; split; [exact IH|now rewrite KH]|]. clear H IH KH. split; [exact BK|]. split; [exact EK|]. split; [exact CK|]. split; [exact NK|]. split; [exact HK|]. split; [exact ES|].
    intros xs ys -> NX. pose proof (ec_mul_can P a b HP HT NT Q _ _ CQ ES) as KS. cbn [canW] in KS.
    assert (NX0 : xs mod P <> 0). { intros X. apply NX, eqm_mod; [lia|]. now rewrite Zmod_0_l. }
    destruct (holds_valid D g DO _ _ CQ HQ) as [VQ HQ0].
    pose proof (G0_ok D g DO) as VG. pose proof (G0_ord D g DO) as OG.
    pose proof (key_point (vval d) Q ltac:(lia) CQ EQ) as KQ. pose proof (key_point (vval k) K ltac:(lia) CK EK) as KK.
    assert (NQ : canW P Q <> Inf). { rewrite KQ. now apply (mulG_nz D g DO). }
    destruct (secret_code _ q (canW P Q) k VQ NQ (proj1 RK) HQ0 eq_refl _ _ (eq_sym KS) NX0) as [_ SE]. split; [exact SE|].
    intros ct' HC. destruct (holds_valid D g DO _ _ CK HC) as [VK HK0]. rewrite SE. unfold ECDH_KEM_Dec. cbv zeta.
    assert (NK0 : canW P K <> Inf) by (destruct K; cbn; congruence).
    pose proof (copy_holds c HP HT NT ct' (canW P K) HK0) as HC0.
    assert (KD : mulN (Z.to_nat (vval d)) (canW P K) = Aff (xs mod P) (ys mod P)).
    { rewrite KS, KQ, KK. rewrite !(mulW_Z P a b HP HT NT N n1) by (try lia; try apply (mulG_ok D g DO); try (apply mulZ_ord; auto using HP, HT, NT)).
      rewrite !(mulZ_mul P a b HP HT NT N n1) by assumption. f_equal. ring. }
    destruct (secret_code _ (ecp_xyz_copy c ct') (canW P K) d VK NK0 (proj1 RD) HC0 eq_refl _ _ KD NX0) as [Z1 SE']. rewrite Z1, SE'. reflexivity.
  Qed.
End Domain.
