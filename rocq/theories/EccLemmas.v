(** Lemmas about Ecc.v: arithmetic modulo the order, points, ranges. *)
From Coq Require Import Znumtheory Setoid.
From Verif Require Import Base Vlong VlongLemmas VlongDivLemmas VlongMulLemmas EcMod EcModLemmas EcFieldLemmas EcExpLemmas EcCurveLemmas EcWideLemmas
  EcSpec EcGroupLemmas EcpXyz EcpLemmas ScaleLemmas EcLawLemmas EcpScaleLemmas EcMulLemmas Fermat Der DerLemmas PropEcp Ecc.

(** What the theorems assume of domain parameters D with base point g: a curve of prime order n
    over a prime field, n <= p, registers two words longer than n, p and n fitting in plen octets. *)
Record domain_ok (D : ec_domain) (g : point) : Prop := {
  do_w : weierstrass (ed_c D);
  do_o : odd_prime_order (ed_c D);
  do_p2 : 2 <= nthZ 0 (cv_p (ed_c D));
  do_nw : words_ok (cv_n (ed_c D));
  do_nl : (length (cv_n (ed_c D)) + 2 <= cv_w (ed_c D))%nat;
  do_n : prime (val_le 32 (cv_n (ed_c D)));
  do_n2 : 2 <= nthZ 0 (cv_n (ed_c D));
  do_np : val_le 32 (cv_n (ed_c D)) <= val_le 32 (cv_p (ed_c D));
  do_pl : (ed_plen D <= 4 * length (cv_n (ed_c D)))%nat;
  do_pb : val_le 32 (cv_p (ed_c D)) < 2 ^ (8 * Z.of_nat (ed_plen D));
  do_G : holds_point (ed_c D) (ed_G D) g;
  do_Gc : on (ed_c D) g;
  do_Gi : g <> Inf;
  do_Go : ec_mul (val_le 32 (cv_p (ed_c D))) (cv_a (ed_c D)) g (Z.to_nat (val_le 32 (cv_n (ed_c D)))) Inf }.

Lemma words_or_0 v : words_ok v -> (words_or v =? 0) = (vval v =? 0).
Proof.
  intros W. destruct (lor_fold_zero v 0 W ltac:(unfold word_ok; lia)) as [_ E]. unfold words_or.
  destruct (Z.eqb_spec (vval v) 0) as [H|H]; [apply Z.eqb_eq, E; auto|]. apply Z.eqb_neq. tauto.
Qed.
Lemma cmp_eq a b : words_ok a -> words_ok b -> (vlong_cmpv_shifted a b 0 =? 0) = (vval a =? vval b).
Proof.
  intros A B. rewrite vlong_cmpv_shifted_spec by auto. change (2 ^ Z.of_nat 0) with 1. rewrite Z.mul_1_r. unfold cmpcode.
  destruct (vval a =? vval b); [reflexivity|]. destruct (vval b <? vval a); reflexivity.
Qed.
Lemma cmp_lt a b : words_ok a -> words_ok b -> (vlong_cmpv_shifted a b 0 =? 2) = (vval a <? vval b).
Proof.
  intros A B. rewrite vlong_cmpv_shifted_spec by auto. change (2 ^ Z.of_nat 0) with 1. rewrite Z.mul_1_r. unfold cmpcode.
  destruct (Z.eqb_spec (vval a) (vval b)); destruct (Z.ltb_spec (vval b) (vval a)); destruct (Z.ltb_spec (vval a) (vval b)); try lia; reflexivity.
Qed.
Lemma cmp_gt a b : words_ok a -> words_ok b -> (vlong_cmpv_shifted a b 0 =? 1) = (vval b <? vval a).
Proof.
  intros A B. rewrite vlong_cmpv_shifted_spec by auto. change (2 ^ Z.of_nat 0) with 1. rewrite Z.mul_1_r. unfold cmpcode.
  destruct (Z.eqb_spec (vval a) (vval b)); destruct (Z.ltb_spec (vval b) (vval a)); try lia; reflexivity.
Qed.

Section Domain.
  Variables (D : ec_domain) (g : point).
  Hypothesis DO : domain_ok D g.
  Notation c := (ed_c D). Notation wd := (cv_w (ed_c D)). Notation plen := (ed_plen D).
  Notation P := (vval (cv_p (ed_c D))). Notation N := (vval (cv_n (ed_c D))).
  Notation ln := (length (cv_n (ed_c D))).
  Notation a := (cv_a (ed_c D)). Notation b := (vval (cv_b (ed_c D))).
  Notation ok := (valid P a b). Notation vop := (op P a b).
  Notation reg v := (words_ok v /\ length v = wd).
  Local Notation mulp x y := (fst (vlong_mulv_masked wd x y 1 (Some (cv_g c)))).
  Local Notation muln x y := (fst (vlong_mulv_masked wd x y 1 (Some (modn D)))).
  Local Notation mulN := (mulW P a b).
  Local Notation mulG := (mulZ P a b N).

  Lemma OK : curve_ok c. Proof. apply weierstrass_ok, DO. Qed.
  Lemma Fp : field_ok wd (cv_p c) (cv_g c). Proof. apply OK. Qed.
  Lemma Hp : prime P. Proof. apply (do_o _ _ DO). Qed.
  Lemma H2 : P <> 2. Proof. apply (do_o _ _ DO). Qed.
  Lemma NoTwo x : ~ eqm P (x * x * x + a * x + b) 0. Proof. apply (do_o _ _ DO). Qed.
  Lemma N1 : 1 < N. Proof. pose proof (prime_ge_2 _ (do_n _ _ DO)). lia. Qed.
  Lemma P1 : 1 < P. Proof. pose proof (prime_ge_2 _ Hp). lia. Qed.
  Lemma Fn : field_ok wd (cv_n c) (modn D).
  Proof. apply field_remv; [apply (do_nw _ _ DO)|apply (do_nl _ _ DO)|apply N1]. Qed.
  Lemma ln_pos : (0 < ln)%nat.
  Proof. pose proof N1 as H. destruct (cv_n c); cbn in *; [lia|lia]. Qed.
  Lemma wd_pos : (0 < wd)%nat. Proof. pose proof (do_nl _ _ DO). lia. Qed.
  Lemma P_pw : P < pw ln.
  Proof.
    eapply Z.lt_le_trans; [exact (do_pb _ _ DO)|]. apply Z.pow_le_mono_r; [lia|]. pose proof (do_pl _ _ DO). lia.
  Qed.
  Lemma pw_wd : pw ln * 2 ^ 64 <= pw wd.
  Proof. rewrite <- Z.pow_add_r by lia. apply Z.pow_le_mono_r; [lia|]. pose proof (do_nl _ _ DO). lia. Qed.

  (** * modulo n *)
  Lemma modn_val v : reg v -> reg (fst (modn D v)) /\ vval (fst (modn D v)) = vval v mod N.
  Proof.
    intros [W L]. destruct (vlong_remv_inplace_spec v (cv_n c) W (do_nw _ _ DO)) as (E & W' & L' & V).
    - pose proof (do_nl _ _ DO). lia.
    - pose proof N1. lia.
    - unfold modn. split; [split; [exact W'|congruence]|exact V].
  Qed.
  Lemma muln_val x y : words_ok x -> words_ok y -> (0 < length y)%nat -> vval x < pw ln ->
    reg (muln x y) /\ vval (muln x y) = (vval x * vval y) mod N.
  Proof.
    intros Wx Wy Ly Bx. pose proof N1 as n1. pose proof (vval_bound (cv_n c) (do_nw _ _ DO)) as BN. pose proof pw_wd as PW.
    destruct (mulv_wide wd x y N (N - 1) (pw ln - 1) (pw wd - 1) (modn D)) as (r & E & W & L & K & V);
      [exact Wx|exact Wy|exact Ly| |lia|lia|lia|lia|lia|lia|].
    - intros v Wv Lv _. destruct (modn_val v (conj Wv Lv)) as [[W' L'] V'].
      destruct (vlong_remv_inplace_spec v (cv_n c) Wv (do_nw _ _ DO)) as (E & _ & _ & _); [pose proof (do_nl _ _ DO); lia|lia|].
      exists (fst (modn D v)). split; [unfold modn; rewrite <- E; apply surjective_pairing|].
      split; [exact W'|]. split; [exact L'|]. rewrite V'. pose proof (Z.mod_pos_bound (vval v) N ltac:(lia)). rewrite Zmod_mod. split; [reflexivity|lia].
    - rewrite E. cbn [fst]. split; [split; assumption|]. rewrite <- V. symmetry. apply Z.mod_small.
      pose proof (vval_bound r W). lia.
  Qed.
  Lemma rep_n v : reg v -> vval v <= N -> rep wd (cv_n c) v (vval v).
  Proof. intros [W L] B. split; [|split; [|split]]; auto. Qed.
  Lemma invn k : reg k -> 1 <= vval k < N ->
    reg (vlong_inv_fermat wd k (modn D) (cv_n c)) /\ vval (vlong_inv_fermat wd k (modn D) (cv_n c)) <= N /\
    (vval k * vval (vlong_inv_fermat wd k (modn D) (cv_n c))) mod N = 1.
  Proof.
    intros Rk B. destruct (inv_spec wd (cv_n c) (modn D) k (vval k) Fn (do_n _ _ DO) (do_n2 _ _ DO)) as [(W & L & I & _) V].
    - apply rep_n; [exact Rk|lia].
    - intros D0. apply Z.divide_pos_le in D0; lia.
    - split; [split; assumption|]. split; assumption.
  Qed.
  Lemma imodn x y : reg x -> reg y -> vval x < pw ln * 2 -> vval y < pw ln * 2 ->
    reg (vlong_imod_inplace (vlong_subv wd x y) (cv_n c)) /\ vval (vlong_imod_inplace (vlong_subv wd x y) (cv_n c)) = (vval x - vval y) mod N.
  Proof.
    intros [Wx Lx] [Wy Ly] Bx By. pose proof pw_wd as PW. pose proof (pow32_pos ln) as PL. pose proof (vval_bound x Wx). pose proof (vval_bound y Wy).
    assert (S0 : sval (vlong_subv wd x y) = vval x - vval y).
    { apply (sval_of _ _ wd); [apply vlong_subv_words|apply vlong_subv_length|apply wd_pos|now apply vlong_subv_val|lia]. }
    destruct (vlong_imod_inplace_spec (vlong_subv wd x y) (cv_n c)) as (W & L & V).
    - apply vlong_subv_words.
    - exact (do_nw _ _ DO).
    - intros E. apply (f_equal (@length Z)) in E. rewrite vlong_subv_length in E. pose proof wd_pos. cbn in E. lia.
    - rewrite vlong_subv_length. pose proof (do_nl _ _ DO). lia.
    - pose proof N1. lia.
    - rewrite S0 in V. rewrite vlong_subv_length in L. split; [split; assumption|exact V].
  Qed.
  Lemma addn x y : reg x -> reg y -> vval x < pw ln * 2 ^ 32 -> vval y < pw ln * 2 ^ 32 ->
    reg (vlong_addv wd x y) /\ vval (vlong_addv wd x y) = vval x + vval y.
  Proof.
    intros [Wx Lx] [Wy Ly] Bx By. pose proof pw_wd as PW. pose proof (pow32_pos ln) as PL. pose proof (vval_bound x Wx). pose proof (vval_bound y Wy).
    split; [split; [apply vlong_addv_words|apply vlong_addv_length]|]. rewrite vlong_addv_val by auto. apply Z.mod_small. lia.
  Qed.
  Lemma os_val H : bytes_ok H -> (length H <= plen)%nat -> reg (vlong_OS2IP wd H) /\ vval (vlong_OS2IP wd H) = be_val H /\ be_val H < pw ln.
  Proof.
    intros BH LH. destruct (OS2IP_spec wd H BH) as (W & L & V). pose proof (be_val_bound H BH) as B.
    assert (X : 2 ^ (8 * Z.of_nat (length H)) <= pw ln) by (apply Z.pow_le_mono_r; [lia|]; pose proof (do_pl _ _ DO); lia).
    pose proof pw_wd as PW. split; [split; assumption|]. split; [|lia]. rewrite V. apply Z.mod_small. lia.
  Qed.
  Lemma in_range_spec k : words_ok k -> in_range D k = true <-> 1 <= vval k < N.
  Proof.
    intros W. unfold in_range. assert (W1 : words_ok vlong_one) by (repeat constructor; unfold word_ok; lia).
    rewrite (cmp_lt k (cv_n c) W (do_nw _ _ DO)), (cmp_gt vlong_one k W1 W).
    change (vval vlong_one) with 1. rewrite Bool.andb_true_iff, Bool.negb_true_iff, Z.ltb_lt, Z.ltb_ge. lia.
  Qed.

  (** * points *)
  Lemma rep_eqm v x : rep wd (cv_p c) v x -> reg v /\ vval v <= P /\ eqm P (vval v) x.
  Proof.
    intros (A1 & A2 & A3 & A4). split; [split; assumption|]. split; [exact A3|]. apply eqm_mod; [pose proof P1; lia|exact A4].
  Qed.
  Lemma holds_valid q Q : on_curve P a b Q -> holds_point c q Q -> ok (canW P Q) /\ holds_point c q (canW P Q).
  Proof.
    intros C H. split; [now apply (canW_ok P a b Hp H2 NoTwo)|]. apply (holds_pt c q Q); [apply (canW_eq P a b Hp H2 NoTwo)|exact H].
  Qed.
  Lemma inf_holds : holds_point c (ecp_xyz_inf c) Inf.
  Proof.
    pose proof P1 as p1. pose proof wd_pos as w0. unfold ecp_xyz_inf, holds_point, register. cbn [px py pz].
    assert (Z0 : vval (repeat 0 wd) = 0) by apply val_le_zeros.
    assert (O1 : vval (1 :: repeat 0 (wd - 1)) = 1). { cbn [val_le]. rewrite val_le_zeros. lia. }
    rewrite Z0, O1, !repeat_length. cbn [length]. rewrite repeat_length. pose proof (repeat_words wd) as RW. pose proof (repeat_words (wd - 1)) as RW'.
    split; [|split; [|split]]; [split; [exact RW|lia]| |split; [exact RW|lia]|].
    - split; [constructor; [unfold word_ok; lia|exact RW']|lia].
    - cbn [proj]. split; [apply eqm_eq; reflexivity|]. split; [apply eqm_eq; reflexivity|]. intros E. apply eqm_mod in E; [|lia].
      rewrite Z.mod_1_l, Zmod_0_l in E by lia. lia.
  Qed.
  Lemma scale_code acc base A B s : ok A -> ok B -> B <> Inf -> words_ok s -> holds_point c acc A -> holds_point c base B ->
    holds_point c (ecp_point_scale_accumulate c acc base s) (vop A (mulN (Z.to_nat (vval s)) B)).
  Proof.
    intros VA VB NB Ws HA HB.
    destruct (scale_holds c OK Hp H2 NoTwo acc base A B s (proj1 VA) (proj1 VB) NB Ws HA HB) as (M & R & EM & ER & HR).
    pose proof (ec_mul_on P a b Hp H2 NoTwo B _ M (proj1 VB) EM) as CM.
    pose proof (ec_mul_can P a b Hp H2 NoTwo B _ M (proj1 VB) EM) as KM.
    pose proof (add_can P a b Hp H2 NoTwo A M R (proj1 VA) CM ER) as KR.
    rewrite KM, (canW_id P a b A VA), (canW_id P a b B VB) in KR. rewrite <- KR. apply (holds_pt c _ R); [apply (canW_eq P a b Hp H2 NoTwo)|exact HR].
  Qed.
  Lemma scale_inf_code base B s : ok B -> B <> Inf -> words_ok s -> holds_point c base B ->
    holds_point c (ecp_point_scale_accumulate c (ecp_xyz_inf c) base s) (mulN (Z.to_nat (vval s)) B).
  Proof.
    intros VB NB Ws HB. rewrite <- (Inf_vop P a b Hp H2 NoTwo (mulN (Z.to_nat (vval s)) B)) by (apply mulW_ok; auto using Hp, H2, NoTwo).
    apply scale_code; auto; [apply ok_Inf|apply inf_holds].
  Qed.

  (** the base point *)
  Definition G0 : point := canW P g.
  Lemma G0_ok : ok G0. Proof. apply (canW_ok P a b Hp H2 NoTwo). exact (do_Gc _ _ DO). Qed.
  Lemma G0_nz : G0 <> Inf. Proof. unfold G0. pose proof (do_Gi _ _ DO). destruct g; cbn; congruence. Qed.
  Lemma G0_ord : mulN (Z.to_nat N) G0 = Inf.
  Proof. pose proof (ec_mul_can P a b Hp H2 NoTwo g _ _ (do_Gc _ _ DO) (do_Go _ _ DO)) as E. symmetry. exact E. Qed.
  Lemma G0_holds : holds_point c (ed_G D) G0.
  Proof. apply holds_valid; [exact (do_Gc _ _ DO)|exact (do_G _ _ DO)]. Qed.
  Lemma mulG_code s : words_ok s -> holds_point c (ecp_point_scale_accumulate c (ecp_xyz_inf c) (ed_G D) s) (mulG (vval s) G0).
  Proof.
    intros W. pose proof (vval_bound s W) as B. rewrite <- (mulW_Z P a b Hp H2 NoTwo N N1 _ G0 G0_ok G0_ord) by lia.
    apply scale_inf_code; auto using G0_ok, G0_nz, G0_holds.
  Qed.
  Lemma mulG_ok k : ok (mulG k G0). Proof. apply mulZ_ok; auto using Hp, H2, NoTwo, G0_ok. Qed.
  Lemma mulG_nz k : 1 <= k < N -> mulG k G0 <> Inf.
  Proof.
    intros B E. apply (mulZ_nz P a b Hp H2 NoTwo N N1 k G0 (do_n _ _ DO) G0_ok G0_ord G0_nz) in E. apply Z.divide_pos_le in E; lia.
  Qed.

  (** x coordinates *)
  Lemma invp z x : rep wd (cv_p c) z x -> rep wd (cv_p c) (vlong_inv_fermat wd z (cv_g c) (cv_p c)) (x ^ (P - 2)).
  Proof.
    intros R. unfold vlong_inv_fermat. pose proof (fo_words _ _ _ Fp) as W. pose proof P1 as p1. pose proof (vval_bound _ W) as B.
    assert (L : (0 < length (cv_p c))%nat). { destruct (cv_p c); [cbn in p1; lia|cbn; lia]. }
    pose proof (do_p2 _ _ DO) as L2.
    pose proof (shiftadded_spec wd (cv_p c) (cv_g c) (cv_p c) z x (-2) 0 Fp W R ltac:(lia) ltac:(lia) ltac:(lia) ltac:(lia) L) as S0.
    change (Z.of_nat 0) with 0 in S0. rewrite Z.pow_0_r, Z.div_1_r in S0. exact S0.
  Qed.
  Lemma affine_x_spec q Q : holds_point c q Q ->
    rep wd (cv_p c) (affine_x D q) (match Q with Inf => 0 | Aff x _ => x end).
  Proof.
    intros (RX & RY & RZ & H). pose proof P1 as p1.
    pose proof (mul_rep' c OK _ _ _ _ (invp _ _ (reg_rep c _ RZ)) (reg_rep c _ RX)) as M. unfold affine_x.
    eapply (rep_ext wd (cv_p c)); [|exact M]. apply eqm_mod; [lia|]. destruct Q as [|x y]; cbn [proj] in H.
    - destruct H as (HX & _). rewrite HX. apply eqm_eq; ring.
    - destruct H as (HZ & HX & _). rewrite HX. pose proof (inv_eqm P a b Hp H2 NoTwo _ HZ) as I.
      transitivity (x * (vval (pz q) * vval (pz q) ^ (P - 2))); [apply eqm_eq; ring|]. rewrite I. apply eqm_eq; ring.
  Qed.
  Lemma small_eq v v' x : rep wd (cv_p c) v x -> rep wd (cv_p c) v' x -> ~ eqm P x 0 -> vval v = vval v' /\ 1 <= vval v < P /\ vval v = x mod P.
  Proof.
    pose proof P1 as p1. intros (A1 & A2 & A3 & A4) (B1 & B2 & B3 & B4) NZ.
    assert (X : x mod P <> 0). { intros E. apply NZ. apply eqm_mod; [lia|]. now rewrite Zmod_0_l. }
    assert (K : forall u, 0 <= u <= P -> u mod P = x mod P -> u = x mod P).
    { intros u Bu Eu. destruct (Z.eq_dec u P) as [->|NE]; [rewrite Z_mod_same_full in Eu; congruence|]. rewrite <- Eu. symmetry. apply Z.mod_small. lia. }
    pose proof (vval_bound v A1). pose proof (vval_bound v' B1). rewrite (K (vval v)), (K (vval v')) by (auto; lia).
    pose proof (Z.mod_pos_bound x P ltac:(lia)). lia.
  Qed.
  Lemma z_zero q Q : holds_point c q Q -> (words_or (pz q) =? 0) = true -> Q = Inf.
  Proof.
    intros (_ & _ & RZ & H) E. rewrite words_or_0 in E by apply RZ. apply Z.eqb_eq in E. destruct Q as [|x y]; [reflexivity|].
    cbn [proj] in H. destruct H as [H _]. exfalso. apply H. rewrite E. apply eqm_eq; reflexivity.
  Qed.
  Lemma z_aff q x y : holds_point c q (Aff x y) -> (words_or (pz q) =? 0) = false.
  Proof. intros H. destruct (words_or (pz q) =? 0) eqn:E; [|reflexivity]. pose proof (z_zero _ _ H E). discriminate. Qed.

  (** ecc_canon_pubkey *)
  Lemma one_rep : rep wd (cv_p c) (vlong_cpy wd vlong_one) 1 /\ vval (vlong_cpy wd vlong_one) = 1.
  Proof.
    pose proof P1 as p1. pose proof wd_pos as w0.
    assert (V : vval (vlong_cpy wd vlong_one) = 1).
    { rewrite vlong_cpy_val by (repeat constructor; unfold word_ok; lia). change (vval vlong_one) with 1. apply Z.mod_1_l.
      apply Z.pow_gt_1; lia. }
    split; [|exact V]. split; [apply vlong_cpy_words; repeat constructor; unfold word_ok; lia|]. split; [apply vlong_cpy_length|]. rewrite V. split; [lia|reflexivity].
  Qed.
  Lemma canon_code q x y : holds_point c q (Aff x y) -> holds_point c (ecc_canon_pubkey D q) (Aff x y) /\ vval (pz (ecc_canon_pubkey D q)) = 1.
  Proof.
    intros (RX & RY & RZ & (HZ & HX & HY)). pose proof P1 as p1. pose proof (invp _ _ (reg_rep c _ RZ)) as IV.
    pose proof (mul_rep' c OK _ _ _ _ (reg_rep c _ RX) IV) as MX. pose proof (mul_rep' c OK _ _ _ _ (reg_rep c _ RY) IV) as MY.
    pose proof (cpy_rep wd (cv_p c) _ _ MX) as CX. pose proof (cpy_rep wd (cv_p c) _ _ MY) as CY.
    destruct one_rep as [OR OV]. split; [|exact OV].
    apply (rep_holds c Hp H2 NoTwo (ecc_canon_pubkey D q) _ _ _ (Aff x y) (conj CX (conj CY OR))). pose proof (inv_eqm P a b Hp H2 NoTwo _ HZ) as I. cbn [proj].
    split; [apply (one_nz P a b Hp H2 NoTwo)|]. rewrite HX, HY. split.
    - transitivity (x * (vval (pz q) * vval (pz q) ^ (P - 2))); [apply eqm_eq; ring|]. rewrite I. apply eqm_eq; ring.
    - transitivity (y * (vval (pz q) * vval (pz q) ^ (P - 2))); [apply eqm_eq; ring|]. rewrite I. apply eqm_eq; ring.
  Qed.
End Domain.
