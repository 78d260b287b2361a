(** Lemmas about Ecc.v: successful runs, and what verification leaves in the registers. *)
From Coq Require Import Znumtheory Setoid.
From Verif Require Import Base Vlong VlongLemmas VlongDivLemmas VlongMulLemmas EcMod EcModLemmas EcFieldLemmas EcExpLemmas EcCurveLemmas EcWideLemmas
  EcSpec EcGroupLemmas EcpXyz EcpLemmas ScaleLemmas EcLawLemmas EcpScaleLemmas EcMulLemmas Fermat Der DerLemmas PropEcp Ecc EccSpec EccLemmas EccSigLemmas.

Section Domain.
  Variables (D : ec_domain) (g : point).
  Hypothesis DO : domain_ok D g.
  Notation c := (ed_c D). Notation wd := (cv_w (ed_c D)). Notation plen := (ed_plen D).
  Notation P := (vval (cv_p (ed_c D))). Notation N := (vval (cv_n (ed_c D))).
  Notation a := (cv_a (ed_c D)). Notation b := (vval (cv_b (ed_c D))).
  Notation reg v := (words_ok v /\ length v = wd).
  Local Notation mulG := (mulZ P a b N).
  Local Notation HP := (Hp D g DO). Local Notation HT := (H2 D g DO). Local Notation NT := (NoTwo D g DO).
  Local Notation g0 := (G0 D g).

  Lemma px_nz q x y : valid P a b (Aff x y) -> holds_point c q (Aff x y) -> x <> 0 -> (words_or (px q) =? 0) = false.
  Proof.
    intros [_ [KX KY]] (RX & _ & _ & (HZ & HX & _)) NX. pose proof (P1 D g DO) as p1. rewrite words_or_0 by apply RX. apply Z.eqb_neq. intros E0. rewrite E0 in HX.
    assert (HX' : eqm P (x * vval (pz q)) 0) by (symmetry; exact HX).
    apply eqm_mod in HX'; [|lia]. rewrite Zmod_0_l in HX'. apply Z.mod_divide in HX'; [|lia].
    destruct (prime_mult P HP _ _ HX') as [DV|DV].
    - apply Z.divide_pos_le in DV; lia.
    - apply HZ. apply eqm_mod; [lia|]. rewrite Zmod_0_l. apply Z.mod_divide; [lia|exact DV].
  Qed.

  Lemma sign_some x digest H x0 y0 : bytes_ok H -> reg (e_d x) -> vval (e_d x) < N -> bytes_ok digest ->
    in_range D (topword_modmask D (vlong_OS2IP wd H)) = true ->
    mulG (vval (topword_modmask D (vlong_OS2IP wd H))) g0 = Aff x0 y0 -> x0 <> 0 ->
    (be_val (firstn plen digest) + x0 * vval (e_d x)) mod N <> 0 ->
    exists x', HMP1994_Sign D x digest [H] = Some x' /\ vval (e_r x') = x0 /\ reg (e_r x') /\ reg (e_s x').
  Proof.
    intros BH RD BD BDg IR EM NX NS. pose proof (N1 D g DO) as n1. pose proof (topword_reg D _ (os_reg D H BH)) as RK.
    unfold HMP1994_Sign. cbn [length hmp_sign_loop ecdsa_nonce]. rewrite IR.
    set (k := topword_modmask D (vlong_OS2IP wd H)) in *. clearbody k.
    apply (in_range_spec D g DO _ (proj1 RK)) in IR.
    pose proof (mulG_code D g DO k (proj1 RK)) as HR. set (R := ecp_point_scale_accumulate c (ecp_xyz_inf c) (ed_G D) k) in *. clearbody R.
    pose proof (mulG_ok D g DO (vval k)) as VK. rewrite EM in VK. pose proof HR as HR'. rewrite EM in HR'. rewrite (px_nz R x0 y0 VK HR' NX).
    destruct (hash_ok D digest BDg) as [BHd LHd].
    pose proof (rs_val D g DO (e_d x) k R _ RD IR RK BD HR BHd LHd) as V.
    destruct (ecdsa_rs D (e_d x) k R (firstn plen digest)) as [r s] eqn:ERS. destruct V as (EA & Rr & Rs & SN & SV).
    pose proof (x_nz D g DO R _ _ _ VK HR' eq_refl NX) as XV. rewrite <- EA in XV.
    rewrite words_or_0 by apply Rs. destruct (Z.eqb_spec (vval s) 0) as [S0|S0].
    - exfalso. apply NS. rewrite S0, XV in SV. rewrite <- SV. apply Zmod_0_l.
    - eexists. split; [reflexivity|]. cbn [e_r e_s]. split; [exact XV|]. split; assumption.
  Qed.

  Lemma verify_d x digest : reg (e_r x) -> reg (e_s x) -> bytes_ok digest -> 1 <= vval (e_r x) < N -> 1 <= vval (e_s x) < N ->
    (vval (e_d (fst (HMP1994_Verify D x digest))) * vval (e_s x)) mod N = be_val (firstn plen digest) mod N.
  Proof.
    intros Rr Rs BD I1 I2. pose proof (N1 D g DO) as n1. unfold HMP1994_Verify.
    rewrite (proj2 (in_range_spec D g DO _ (proj1 Rr)) I1), (proj2 (in_range_spec D g DO _ (proj1 Rs)) I2). cbn [andb negb]. cbv zeta.
    destruct (hash_ok D digest BD) as [BH LH]. destruct (os_val D g DO _ BH LH) as (RH & VH & HH).
    destruct (invn D g DO (e_s x) Rs I2) as (RT & TN & VT).
    destruct (muln_val D g DO _ _ (proj1 RH) (proj1 RT) (reg_len D g DO _ RT) ltac:(lia)) as (RD & VD).
    match goal with |- context [fst (if ?q then _ else _)] => destruct q end; [|match goal with |- context [fst (if ?q then _ else _)] => destruct q end];
      cbn [fst e_d]; rewrite VD, VH; clear - VT n1; set (t := vval (vlong_inv_fermat _ _ _ _)) in *; clearbody t;
      rewrite Zmult_mod_idemp_l; replace (be_val (firstn plen digest) * t * vval (e_s x)) with (be_val (firstn plen digest) * (vval (e_s x) * t)) by ring;
      rewrite <- Zmult_mod_idemp_r, VT, Z.mul_1_r; reflexivity.
  Qed.
  Lemma sm2_verify_d x digest : reg (e_r x) -> reg (e_s x) -> 1 <= vval (e_r x) < N -> 1 <= vval (e_s x) < N ->
    vval (e_d (fst (GMT0003pt2_Verify D x digest))) = vval (e_s x).
  Proof.
    intros Rr Rs I1 I2. unfold GMT0003pt2_Verify.
    rewrite (proj2 (in_range_spec D g DO _ (proj1 Rr)) I1), (proj2 (in_range_spec D g DO _ (proj1 Rs)) I2). cbn [andb negb]. cbv zeta.
    assert (V : vval (vlong_cpy wd (e_s x)) = vval (e_s x)).
    { rewrite vlong_cpy_val by apply Rs. apply Z.mod_small. pose proof (vval_bound _ (proj1 Rs)) as B. rewrite (proj2 Rs) in B. exact B. }
    repeat (match goal with |- context [fst (if ?q then _ else _)] => destruct q end; [cbn [fst e_d]; exact V|]). cbn [fst e_d]. exact V.
  Qed.

  Lemma sm2_sign_some x digest H x0 y0 : bytes_ok H -> reg (e_d x) -> vval (e_d x) < N - 1 -> 2 < N -> bytes_ok digest ->
    in_range D (vlong_OS2IP wd H) = true -> mulG (vval (vlong_OS2IP wd H)) g0 = Aff x0 y0 -> x0 <> 0 ->
    let r := (x0 + be_val (firstn plen digest)) mod N in
    r <> 0 -> r + vval (vlong_OS2IP wd H) <> N -> (vval (vlong_OS2IP wd H) - r * vval (e_d x)) mod N <> 0 ->
    exists x', GMT0003pt2_Sign D x digest [H] = Some x' /\ e_k x' = vlong_OS2IP wd H.
  Proof.
    intros BH RD BD HN BDg IR EM NX r NR NK NS. pose proof (N1 D g DO) as n1. pose proof (os_reg D H BH) as RK.
    unfold GMT0003pt2_Sign. cbn [length sm2_sign_loop sm2_nonce]. rewrite IR. cbv zeta.
    set (k := vlong_OS2IP wd H) in *. clearbody k. apply (in_range_spec D g DO _ (proj1 RK)) in IR.
    pose proof (mulG_code D g DO k (proj1 RK)) as HR. set (R := ecp_point_scale_accumulate c (ecp_xyz_inf c) (ed_G D) k) in *. clearbody R.
    pose proof (mulG_ok D g DO (vval k)) as VK. rewrite EM in VK, HR.
    destruct (hash_ok D digest BDg) as [BHd LHd]. destruct (sm2_r_val D g DO R _ _ HR BHd LHd) as (Rr & Vr).
    rewrite (x_nz D g DO R _ _ _ VK HR eq_refl NX) in Vr. fold r in Vr.
    assert (Br : 0 <= r < N) by (apply Z.mod_pos_bound; lia). pose proof (vval_bound _ (do_nw _ _ DO)) as BN.
    rewrite words_or_0 by apply Rr. rewrite Vr, (proj2 (Z.eqb_neq r 0) NR).
    destruct (addn D g DO _ k Rr RK ltac:(lia) ltac:(lia)) as (RA & VA). rewrite (cmp_eq _ _ (proj1 RA) (do_nw _ _ DO)), VA, Vr, (proj2 (Z.eqb_neq _ N) NK).
    destruct (sm2_s_val D g DO (e_d x) k _ RD RK Rr ltac:(lia) ltac:(lia) ltac:(lia) HN) as (Rs & Bs & _ & S1).
    rewrite words_or_0 by apply Rs. destruct (Z.eqb_spec (vval (sm2_s D (e_d x) k (sm2_r D R (firstn plen digest)))) 0) as [S0|S0].
    - exfalso. apply NS. specialize (S1 BD). rewrite S0, Vr in S1. rewrite <- S1. reflexivity.
    - eexists. split; reflexivity.
  Qed.
  Lemma kem_some q Q H : bytes_ok H -> on c Q -> Q <> Inf -> holds_point c q Q -> in_range D (topword_modmask D (vlong_OS2IP wd H)) = true ->
    forall x0 y0, mulW P a b (Z.to_nat (vval (topword_modmask D (vlong_OS2IP wd H)))) (canW P Q) = Aff x0 y0 ->
    exists ct ss, ECDH_KEM_Enc D q [H] = Some (ct, ss).
  Proof.
    intros BH CQ NQ HQ IR x0 y0 EM. pose proof (topword_reg D _ (os_reg D H BH)) as RK. cbn [ECDH_KEM_Enc]. rewrite IR. cbv zeta.
    set (k := topword_modmask D (vlong_OS2IP wd H)) in *. clearbody k. destruct (holds_valid D g DO _ _ CQ HQ) as [VQ HQ0].
    pose proof (scale_inf_code D g DO q (canW P Q) k VQ ltac:(destruct Q; cbn; congruence) (proj1 RK) HQ0) as HR. rewrite EM in HR.
    rewrite (z_aff D _ _ _ HR). do 2 eexists. reflexivity.
  Qed.
End Domain.
