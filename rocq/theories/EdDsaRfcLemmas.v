(** EdDSA against RFC 8032: keys, signatures, decoding and verification in terms of EddsaSpec. *)
From Coq Require Import Znumtheory Setoid.
From Verif Require Import MdLemmas Base Vlong VlongLemmas VlongDivLemmas VlongMulLemmas EcMod EcModLemmas EcFieldLemmas EcExpLemmas EcCurveLemmas EcSpec EcGroupLemmas EcpXyz ScaleLemmas EcpScaleLemmas Fermat EdSpec EdCert EdGroupLemmas EcEd EdLemmas EdScaleLemmas EdCompleteLemmas CurvePrimes PolyLemmas Der DerLemmas OctetLemmas EcMt PropEd EddsaSpec EdDsa EdDsaLemmas EdDsaDecLemmas EdDsaPointLemmas EdMulLemmas EdDsaSigLemmas.

(** A hash with octet output of the requested length (SHA-512 is asked for 64 octets, SHAKE256 for 114 and 64). *)
Definition octet_hash (hash : list Z -> nat -> list Z) : Prop := forall m k, bytes_ok (hash m k) /\ length (hash m k) = k.

Lemma exps_nn D C : rfc_of D C -> 0 <= rc_n C /\ 0 <= rc_c C.
Proof. intros [[_ ->]|[_ ->]]; split; discriminate. Qed.
Lemma base_x D C : rfc_of D C -> (vval (ex (dp_B D)) mod vval (ed_p (dp_c D)) =? 0) = false.
Proof. intros [[-> _]|[-> _]]; vm_compute; reflexivity. Qed.

Section Proofs.
  Variable D : eddsa_params.
  Variable C : rfc8032_curve.
  Hypothesis HDC : rfc_of D C.
  Variable hash : list Z -> nat -> list Z.
  Hypothesis HH : octet_hash hash.
  Notation c := (dp_c D).
  Notation n := (ed_w (dp_c D)).
  Notation P := (vval (ed_p (dp_c D))).
  Notation a := (ed_a (dp_c D)).
  Notation d1 := (ed_over (dp_c D)).
  Notation d2 := (ed_under (dp_c D)).
  Notation L := (ed_L (dp_c D)).
  Notation On := (ed_on P a d1 d2).
  Let HD : dlib D := rfc_of_lib D C HDC.
  Let HP := d_prime D HD.
  Let HO := d_odd D HD.
  Let HC := d_complete D HD.
  Lemma M0 : rfc_match D C. Proof. exact (rfc_of_match D C HDC). Qed.
  Lemma times_eq k Q T : rfc_times C k Q T <-> ed_mul P a d1 d2 Q (Z.to_nat k) T.
  Proof. unfold rfc_times. rewrite (rm_p _ _ M0), (rm_a _ _ M0), (rm_d1 _ _ M0), (rm_d2 _ _ M0). tauto. Qed.
  Lemma sum_eq Q R T : rfc_sum C Q R T <-> ed_add P a d1 d2 Q R T.
  Proof. unfold rfc_sum. rewrite (rm_p _ _ M0), (rm_a _ _ M0), (rm_d1 _ _ M0), (rm_d2 _ _ M0). tauto. Qed.
  Lemma on_eq Q : rfc_on C Q <-> On Q.
  Proof. unfold rfc_on. rewrite (rm_p _ _ M0), (rm_a _ _ M0), (rm_d1 _ _ M0), (rm_d2 _ _ M0). tauto. Qed.
  Lemma base_eq : rc_B C = BP D. Proof. exact (rm_B _ _ M0). Qed.
  Lemma equation_eq PA PR s k : rfc_equation C PA PR s k <-> deq D PA PR s k.
  Proof.
    unfold rfc_equation, deq. rewrite base_eq, (rm_p _ _ M0). split; intros (SB & kA & T & A1 & A2 & A3 & A4); exists SB, kA, T.
    - apply times_eq in A1. apply times_eq in A2. apply sum_eq in A3. tauto.
    - split; [now apply times_eq|]. split; [now apply times_eq|]. split; [now apply sum_eq|exact A4].
  Qed.
  Lemma plen2 : (plen D * 2 = 2 * rc_b C)%nat. Proof. rewrite (rm_b _ _ M0). lia. Qed.
  Lemma dom_eq fl ctx : eddsa_dom D fl ctx = rfc_domain C fl ctx.
  Proof.
    unfold eddsa_dom, rfc_domain. destruct HDC as [[-> ->]|[-> ->]].
    - change (plen dp_25519 =? 32)%nat with true. cbn [rc_plain rfc_Ed25519 negb orb]. destruct ctx as [|z ctx]; [destruct (fl =? 0); reflexivity|].
      assert (X : (0 <? Z.of_nat (length (z :: ctx))) = true) by (apply Z.ltb_lt; cbn [length]; lia). rewrite X. destruct (fl =? 0); reflexivity.
    - change (plen dp_448 =? 32)%nat with false. cbn [rc_plain rfc_Ed448 negb orb]. reflexivity.
  Qed.
  Lemma k_eq eA eR fl ctx M : dk D hash eA eR fl ctx M = rfc_k C hash eA eR fl ctx M.
  Proof. unfold dk, rfc_k. now rewrite dom_eq, plen2, (rm_L _ _ M0). Qed.

  (** the key *)
  Lemma key_spec sk : let K := eddsa_privkey_reload D hash sk in
    words_ok (ek_s K) /\ length (ek_s K) = n /\ vval (ek_s K) = rfc_s C hash sk /\
    ek_prefix K = firstn (rc_b C) (skipn (rc_b C) (hash sk (2 * rc_b C)%nat)) /\
    exists PA, ed_mul P a d1 d2 (BP D) (Z.to_nat (rfc_s C hash sk)) PA /\ On PA /\ aff D (ek_A K) PA.
  Proof.
    unfold eddsa_privkey_reload. cbv zeta. cbn [ek_s ek_prefix ek_A]. rewrite plen2. unfold rfc_s. set (h := hash sk (2 * rc_b C)%nat).
    assert (Bh : bytes_ok h) by apply HH. assert (Lh : length h = (2 * rc_b C)%nat) by apply HH. clearbody h.
    assert (Q : bytes_ok (firstn (plen D) (eddsa_clamp D h)) /\ length (firstn (plen D) (eddsa_clamp D h)) = plen D /\ le_val (firstn (plen D) (eddsa_clamp D h)) = rfc_scalar C h /\
                skipn (plen D) (eddsa_clamp D h) = skipn (plen D) h).
    { assert (UB : forall i v l, bytes_ok l -> byte_ok v -> bytes_ok (upd i v l)) by (intros; now apply upd_bytes).
      assert (U2 : forall i v (l : list Z), length (upd i v l) = length l) by (intros; apply upd_len).
      assert (Bf : bytes_ok (firstn (plen D) h)) by now apply Forall_firstn. rewrite <- (rm_b _ _ M0).
      destruct HDC as [[-> ->]|[-> ->]].
      - change (plen dp_25519) with 32%nat in *. change (rc_b rfc_Ed25519) with 32%nat in *.
        unfold eddsa_clamp. change (cond_p25519 dp_25519) with true. cbv iota zeta.
        assert (Ls : length (firstn 32 h) = 32%nat) by (rewrite firstn_length; lia).
        assert (N0 : nthZ 0 h = nthZ 0 (firstn 32 h)) by (unfold nthZ; rewrite <- (firstn_skipn 32 h) at 1; apply app_nth1; lia).
        rewrite !firstn_upd_in by lia. rewrite !skipn_upd by lia.
        assert (N31 : nthZ 31 (upd 0 (Z.land (nthZ 0 h) 248) h) = nthZ 31 (upd 0 (Z.land (nthZ 0 (firstn 32 h)) 248) (firstn 32 h))).
        { rewrite !nthZ_upd_neq by lia. unfold nthZ. rewrite <- (firstn_skipn 32 h) at 1. apply app_nth1. lia. }
        rewrite N31, N0. set (x := firstn 32 h) in *. pose proof (nthZ_bytes x 0 Bf) as B0. pose proof (nthZ_bytes x 31 Bf) as B31.
        split; [|split; [now rewrite !U2|split; [|reflexivity]]].
        + apply UB; [apply UB; [exact Bf|]|].
          * rewrite (land248 _ B0). unfold byte_ok in *. pose proof (Z.div_mod (nthZ 0 x) 8 ltac:(lia)). pose proof (Z.mod_pos_bound (nthZ 0 x) 8 ltac:(lia)). pose proof (Z.div_pos (nthZ 0 x) 8 ltac:(lia) ltac:(lia)). lia.
          * rewrite nthZ_upd_neq by lia. rewrite Z.lor_comm, (top25519 _ B31). unfold byte_ok. pose proof (Z.mod_pos_bound (nthZ 31 x) 64 ltac:(lia)). lia.
        + unfold rfc_scalar. change (rc_b rfc_Ed25519) with 32%nat. fold x. clearbody x. exact (clamp_25519_val x Bf Ls).
      - change (plen dp_448) with 57%nat in *. change (rc_b rfc_Ed448) with 57%nat in *.
        unfold eddsa_clamp. change (cond_p25519 dp_448) with false. change (cond_p448 dp_448) with true. cbv iota zeta.
        assert (Ls : length (firstn 57 h) = 57%nat) by (rewrite firstn_length; lia).
        assert (N0 : nthZ 0 h = nthZ 0 (firstn 57 h)) by (unfold nthZ; rewrite <- (firstn_skipn 57 h) at 1; apply app_nth1; lia).
        rewrite !firstn_upd_in by lia. rewrite !skipn_upd by lia.
        assert (N55 : nthZ 55 (upd 0 (Z.land (nthZ 0 h) 252) h) = nthZ 55 (upd 0 (Z.land (nthZ 0 (firstn 57 h)) 252) (firstn 57 h))).
        { rewrite !nthZ_upd_neq by lia. unfold nthZ. rewrite <- (firstn_skipn 57 h) at 1. apply app_nth1. lia. }
        rewrite N55, N0. set (x := firstn 57 h) in *. pose proof (nthZ_bytes x 0 Bf) as B0. pose proof (nthZ_bytes x 55 Bf) as B55.
        split; [|split; [now rewrite !U2|split; [|reflexivity]]].
        + apply UB; [apply UB; [apply UB; [exact Bf|]|]|].
          * rewrite (land252 _ B0). unfold byte_ok in *. pose proof (Z.div_mod (nthZ 0 x) 4 ltac:(lia)). pose proof (Z.mod_pos_bound (nthZ 0 x) 4 ltac:(lia)). pose proof (Z.div_pos (nthZ 0 x) 4 ltac:(lia) ltac:(lia)). lia.
          * rewrite nthZ_upd_neq by lia. rewrite (top448 _ B55). unfold byte_ok. pose proof (Z.mod_pos_bound (nthZ 55 x) 128 ltac:(lia)). lia.
          * unfold byte_ok. lia.
        + unfold rfc_scalar. change (rc_b rfc_Ed448) with 57%nat. fold x. clearbody x. destruct (exists_last (l := x)) as (u & t & E); [intros ->; discriminate|]. subst x.
          rewrite app_length in Ls. cbn [length] in Ls. apply clamp_448_val; [exact Bf|lia]. }
    destruct Q as (B1 & L1 & V1 & S1). destruct (DecLSB_spec n _ B1) as (W & Ln & V).
    assert (V' : vval (vlong_DecLSB n (firstn (plen D) (eddsa_clamp D h))) = rfc_scalar C h).
    { rewrite V, V1. apply Z.mod_small. rewrite <- V1. pose proof (le_val_bound _ B1) as U. split; [apply U|]. eapply Z.lt_le_trans; [apply U|]. apply Z.pow_le_mono_r; [lia|].
      rewrite L1. destruct (d_sizes D HD) as [(_ & -> & _ & _ & ->)|(_ & -> & _ & _ & ->)]; lia. }
    split; [exact W|]. split; [exact Ln|]. split; [exact V'|]. split; [rewrite S1, (rm_b _ _ M0); reflexivity|].
    destruct (scale_base D HD _ W) as (PA & E1 & E2 & E3). rewrite V' in E1. exists PA. tauto.
  Qed.
  Lemma enc_eq q Q : aff D q Q -> On Q -> ~ eqm P (fst Q) 0 -> ~ eqm P (snd Q) 0 -> eddsa_point_enc D q = rfc_enc C Q.
  Proof.
    intros A CQ N1 N2. pose proof (aff_held D HD q Q A CQ N1 N2) as Hh. rewrite (held_enc D HD q _ Hh). unfold denc, rfc_enc, canE. cbn [fst snd]. now rewrite (rm_b _ _ M0), (rm_p _ _ M0).
  Qed.
  Lemma mul_det Q k M1 M2 : On Q -> ed_mul P a d1 d2 Q k M1 -> ed_mul P a d1 d2 Q k M2 -> ept_eq P M1 M2.
  Proof. intros CQ E1 E2. apply (canE_ept P HP HO). rewrite (ed_mul_smul P a d1 d2 HP HO HC _ _ _ CQ E1), (ed_mul_smul P a d1 d2 HP HO HC _ _ _ CQ E2). reflexivity. Qed.
  Lemma sign_spec sk fl ctx M PA PR : rfc_times C (rfc_s C hash sk) (rc_B C) PA -> rfc_times C (rfc_r C hash sk fl ctx M) (rc_B C) PR -> generic C PA -> generic C PR ->
    let sg := RFC8032_Sign D hash (eddsa_privkey_reload D hash sk) fl ctx M in
    aff D (fst sg) PR /\ On PR /\ On PA /\ aff D (ek_A (eddsa_privkey_reload D hash sk)) PA /\
    words_ok (snd sg) /\ length (snd sg) = n /\ vval (snd sg) = rfc_S C hash PA PR sk fl ctx M.
  Proof.
    intros EA ER GA GR. unfold generic in GA, GR. rewrite (rm_p _ _ M0) in GA, GR. apply times_eq in EA. apply times_eq in ER. rewrite base_eq in EA, ER.
    destruct (key_spec sk) as (Ws & Ls & Vs & Pf & PA' & EA' & CA' & AA). cbv zeta. set (K := eddsa_privkey_reload D hash sk) in *. clearbody K.
    destruct (base_ok D HD) as [CB _].
    pose proof (mul_det _ _ _ _ CB EA' EA) as QA. assert (AA2 : aff D (ek_A K) PA) by now apply (aff_pt D HD _ PA'). assert (CA : On PA) by now apply (ed_on_eq P a d1 d2 PA').
    unfold RFC8032_Sign. cbv zeta. cbn [fst snd]. rewrite Pf, dom_eq, plen2.
    set (hr := hash (rfc_domain C fl ctx ++ firstn (rc_b C) (skipn (rc_b C) (hash sk (2 * rc_b C)%nat)) ++ M) (2 * rc_b C)%nat).
    destruct (mod_L_spec D HD hr) as (Wr & Lr & Vr); [apply HH|unfold hr; rewrite (proj2 (HH _ _)), (rm_b _ _ M0); lia|].
    assert (Er : rfc_r C hash sk fl ctx M = le_val hr mod vval L) by (unfold rfc_r; rewrite (rm_L _ _ M0); reflexivity).
    rewrite Er, <- Vr in ER. set (r := eddsa_mod_L D hr) in *. clearbody r.
    destruct (scale_base D HD r Wr) as (PR' & ER' & CR' & AR). pose proof (mul_det _ _ _ _ CB ER' ER) as QR.
    set (R := eddsa_canon_pubkey D (ecEd_point_scale_accumulate c (ecEd_xytz_inf c) (dp_B D) r)) in *. clearbody R.
    assert (AR2 : aff D R PR) by now apply (aff_pt D HD _ PR'). assert (CR : On PR) by now apply (ed_on_eq P a d1 d2 PR').
    rewrite (enc_eq R PR AR2 CR (proj1 GR) (proj2 GR)), (enc_eq _ PA AA2 CA (proj1 GA) (proj2 GA)).
    set (hk := hash (rfc_domain C fl ctx ++ rfc_enc C PR ++ rfc_enc C PA ++ M) (2 * rc_b C)%nat).
    destruct (mod_L_spec D HD hk) as (Wk & Lk & Vk); [apply HH|unfold hk; rewrite (proj2 (HH _ _)), (rm_b _ _ M0); lia|].
    assert (Ek : rfc_k C hash (rfc_enc C PA) (rfc_enc C PR) fl ctx M = le_val hk mod vval L) by (unfold rfc_k; rewrite (rm_L _ _ M0); reflexivity).
    destruct (sign_scalar D HD r (eddsa_mod_L D hk) (ek_s K) (rfc_r C hash sk fl ctx M) (rfc_k C hash (rfc_enc C PA) (rfc_enc C PR) fl ctx M) (rfc_s C hash sk) Wr Lr) as (W & Ln & V); auto.
    - rewrite Vr, Er. symmetry. apply Zmod_mod.
    - rewrite Vk, Ek. symmetry. apply Zmod_mod.
    - split; [exact AR2|]. split; [exact CR|]. split; [exact CA|]. split; [exact AA2|]. split; [exact W|]. split; [exact Ln|]. rewrite V. unfold rfc_S. now rewrite (rm_L _ _ M0).
  Qed.
  Lemma sig_spec sk fl ctx M PA PR : rfc_times C (rfc_s C hash sk) (rc_B C) PA -> rfc_times C (rfc_r C hash sk fl ctx M) (rc_B C) PR -> generic C PA -> generic C PR ->
    EdDSA_Encode_Signature D (RFC8032_Sign D hash (eddsa_privkey_reload D hash sk) fl ctx M) = rfc_signature C hash PA PR sk fl ctx M.
  Proof.
    intros EA ER GA GR. pose proof (sign_spec sk fl ctx M PA PR EA ER GA GR) as Q. cbv zeta in Q. destruct Q as (AR & CR & CA & AA & W & _ & V). unfold generic in GR. rewrite (rm_p _ _ M0) in GR.
    unfold EdDSA_Encode_Signature, rfc_signature. rewrite (enc_eq _ PR AR CR (proj1 GR) (proj2 GR)). rewrite (EncLSB_spec _ _ W), V, (rm_b _ _ M0). reflexivity.
  Qed.

  (** decoding *)
  Notation tb := (8 * Z.of_nat (rc_b C) - 1).
  Lemma tb_facts : tb = 8 * Z.of_nat (plen D) - 1 /\ 0 <= Z.of_nat (dp_bits D) <= tb.
  Proof. rewrite (rm_b _ _ M0). split; [reflexivity|]. destruct (d_sizes D HD) as [(_ & -> & _ & -> & _)|(_ & -> & _ & -> & _)]; lia. Qed.
  Lemma y_mod e : e mod 2 ^ tb < P -> e mod 2 ^ Z.of_nat (dp_bits D) = e mod 2 ^ tb.
  Proof.
    intros CY. destruct tb_facts as [_ BT]. pose proof (d_bits D HD) as DB. set (t := tb) in *. clearbody t.
    assert (T0 : 0 < 2 ^ t) by (apply Z.pow_pos_nonneg; lia). pose proof (Z.mod_pos_bound e (2 ^ t) T0) as M.
    rewrite (Zmod_div_mod (2 ^ Z.of_nat (dp_bits D)) (2 ^ t) e); [|apply Z.pow_pos_nonneg; lia|exact T0|].
    - apply Z.mod_small. set (y := e mod 2 ^ t) in *. clearbody y. lia.
    - exists (2 ^ (t - Z.of_nat (dp_bits D))). rewrite <- Z.pow_add_r by lia. f_equal. lia.
  Qed.
  Lemma dec_rfc enc q : bytes_ok enc -> length enc = rc_b C -> canonical_y C enc -> eddsa_point_dec D enc = Some q ->
    exists Q, rfc_decodes C enc Q /\ aff D q Q /\ On Q /\ eddsa_point_enc D q = enc.
  Proof.
    intros B Ln CY E. unfold canonical_y in CY. rewrite (rm_p _ _ M0) in CY. destruct tb_facts as [ET BT]. rewrite (rm_b _ _ M0) in Ln.
    pose proof (dec_sound D HD enc q B Ln E) as Q. rewrite ET in CY. destruct (dec_reenc D HD enc q B Ln CY Q) as (E1 & A1 & C1 & X1). cbv zeta in *.
    rewrite <- ET in *. set (y := le_val enc mod 2 ^ tb) in *. assert (By : 0 <= y). { unfold y. apply Z.mod_pos_bound. apply Z.pow_pos_nonneg; lia. }
    pose proof (rep_b D _ _ (proj1 A1)) as Bx. set (x := vval (ex q)) in *. pose proof (d_P1 D HD) as P1.
    assert (EQ : ept_eq P (x, y) (x mod P, y)). { split; cbn [fst snd]; [symmetry; apply mod_eqm; first [exact HP|exact HO]|reflexivity]. }
    exists (x mod P, y). split; [|split; [exact (aff_pt D HD q _ _ EQ A1)|split; [exact (ed_on_eq P a d1 d2 _ _ EQ C1)|exact E1]]].
    unfold rfc_decodes. cbn [fst snd]. rewrite (rm_p _ _ M0). fold y. split; [apply on_eq; exact (ed_on_eq P a d1 d2 _ _ EQ C1)|].
    split; [apply Z.mod_pos_bound; lia|]. split; [split; [exact By|exact CY]|]. split; [reflexivity|].
    assert (x < P \/ x = P) as [X|X] by lia; [left; rewrite (Z.mod_small x P) by lia; exact X1|right; rewrite X; apply Z_mod_same_full].
  Qed.
  Lemma decodes_unique enc Q1 Q2 : rfc_decodes C enc Q1 -> rfc_decodes C enc Q2 -> fst Q1 <> 0 -> Q1 = Q2.
  Proof.
    destruct Q1 as [x1 y1], Q2 as [x2 y2]. unfold rfc_decodes. cbn [fst snd]. rewrite (rm_p _ _ M0). intros (O1 & X1 & _ & Y1 & S1) (O2 & X2 & _ & Y2 & S2) N.
    apply on_eq in O1. apply on_eq in O2. rewrite <- Y2 in Y1. subst y2. pose proof (d_P1 D HD) as P1.
    destruct S1 as [S1|]; [|now elim N].
    assert (N1 : ~ eqm P x1 0). { intros Z0. apply eqm_mod in Z0; [|lia]. rewrite Z.mod_small, Z.mod_0_l in Z0 by lia. now elim N. }
    assert (N2 : x2 <> 0).
    { intros ->. apply N1. apply (uU_zero D HD x1 y1 O1). apply (proj2 (uU_zero D HD 0 y1 O2)). reflexivity. }
    destruct S2 as [S2|]; [|now elim N2]. rewrite <- S2 in S1.
    assert (E : eqm P x1 x2). { destruct (same_y D HD x1 x2 y1 O1 O2) as [|E]; [assumption|]. apply (same_parity D HD); [lia|lia|exact S1|exact E]. }
    apply eqm_mod in E; [|lia]. rewrite !Z.mod_small in E by lia. now rewrite E.
  Qed.
  Lemma decodes_canonical enc Q : rfc_decodes C enc Q -> canonical_y C enc.
  Proof. intros (_ & _ & Y1 & Y2 & _). unfold canonical_y. rewrite <- Y2. apply Y1. Qed.
  Lemma dec_rfc_complete enc Q : bytes_ok enc -> length enc = rc_b C -> rfc_decodes C enc Q -> fst Q <> 0 ->
    exists q, eddsa_point_dec D enc = Some q /\ aff D q Q /\ On Q /\ eddsa_point_enc D q = enc.
  Proof.
    intros B Ln DQ N. pose proof (decodes_canonical _ _ DQ) as CY. pose proof (d_P1 D HD) as P1.
    destruct (dec_complete D HD enc (fst Q) B) as (q & Eq).
    - rewrite <- (rm_b _ _ M0). exact Ln.
    - unfold canonical_y in CY. rewrite (rm_p _ _ M0) in CY. rewrite (y_mod _ CY). destruct DQ as (O1 & _ & _ & Y2 & _). rewrite <- Y2. apply on_eq in O1. destruct Q; exact O1.
    - destruct DQ as (_ & X1 & _). rewrite (rm_p _ _ M0) in X1. intros Z0. apply eqm_mod in Z0; [|lia]. rewrite Z.mod_small, Z.mod_0_l in Z0 by lia. now elim N.
    - exists q. destruct (dec_rfc enc q B Ln CY Eq) as (Q' & D' & A' & O' & E'). rewrite <- (decodes_unique enc Q Q' DQ D' N) in *. tauto.
  Qed.
  Lemma enc_shape Q : length (rfc_enc C Q) = rc_b C /\ bytes_ok (rfc_enc C Q).
  Proof. split; [apply le_bytes_length|apply le_bytes_ok]. Qed.
  Lemma decodes_enc Q : On Q -> rfc_decodes C (rfc_enc C Q) (canE P Q).
  Proof.
    intros OQ. destruct tb_facts as [ET BT]. pose proof (d_P1 D HD) as P1. pose proof (d_bits D HD) as DB.
    assert (By : 0 <= snd Q mod P < P) by (apply Z.mod_pos_bound; lia). set (y := snd Q mod P) in *.
    assert (Hp : (fst Q mod P) mod 2 = 0 \/ (fst Q mod P) mod 2 = 1) by (pose proof (Z.mod_pos_bound (fst Q mod P) 2 ltac:(lia)); lia). set (par := (fst Q mod P) mod 2) in *.
    destruct (enc_split D HD y par ltac:(lia) Hp) as (S1 & S2 & S3). cbv zeta in *. rewrite <- ET in *. rewrite <- (rm_b _ _ M0) in S1.
    assert (V : le_val (rfc_enc C Q) = y + 2 ^ tb * par). { unfold rfc_enc. rewrite le_val_le_bytes, (rm_p _ _ M0). fold y par. exact S1. }
    destruct (canE_ok P a d1 d2 HP HO Q OQ) as [V1 _].
    unfold rfc_decodes. rewrite V, S3, (rm_p _ _ M0). split; [apply on_eq; exact V1|]. unfold canE. cbn [fst snd]. split; [apply Z.mod_pos_bound; lia|]. split; [exact By|]. fold y par. split; [|left; reflexivity].
    assert (2 ^ Z.of_nat (dp_bits D) <= 2 ^ tb) by (apply Z.pow_le_mono_r; lia).
    replace (y + 2 ^ tb * par) with (y + par * 2 ^ tb) by ring. rewrite Z_mod_plus_full. symmetry. apply Z.mod_small. lia.
  Qed.
  Lemma decode_sig sig : bytes_ok sig -> length sig = (2 * rc_b C)%nat -> le_val (skipn (rc_b C) sig) < rc_L C ->
    exists s, words_ok s /\ vval s = le_val (skipn (rc_b C) sig) /\
      EdDSA_Decode_Signature D sig = match eddsa_point_dec D (firstn (rc_b C) sig) with None => None | Some q => Some (q, s) end.
  Proof.
    intros B Ln Hs. rewrite (rm_b _ _ M0) in *. rewrite (rm_L _ _ M0) in Hs. unfold EdDSA_Decode_Signature. rewrite (proj2 (Nat.eqb_eq (plen D * 2) (length sig)) ltac:(lia)). cbn [negb].
    set (ts := skipn (plen D) sig) in *. assert (Lt : length ts = plen D) by (unfold ts; rewrite skipn_length; lia). assert (Bt : bytes_ok ts) by now apply Forall_skipn.
    rewrite (firstn_all2 ts) by lia. clearbody ts. destruct (L_facts D HD) as (WL & _ & L1 & L2 & _). destruct (DecLSB_spec n ts Bt) as (W & _ & V).
    assert (V' : vval (vlong_DecLSB n ts) = le_val ts).
    { rewrite V. apply Z.mod_small. pose proof (le_val_bound ts Bt) as U. split; [apply U|]. eapply Z.lt_trans; [exact Hs|exact L2]. }
    exists (vlong_DecLSB n ts). split; [exact W|]. split; [exact V'|]. destruct (eddsa_point_dec D (firstn (plen D) sig)) as [q|]; [|reflexivity]. cbv zeta.
    rewrite (vlong_cmpv_shifted_spec _ _ 0 W WL), V'. change (2 ^ Z.of_nat 0) with 1. rewrite Z.mul_1_r. unfold cmpcode.
    assert (X1 : (le_val ts =? vval L) = false) by (apply Z.eqb_neq; clear -Hs; lia). assert (X2 : (vval L <? le_val ts) = false) by (apply Z.ltb_ge; clear -Hs; lia). rewrite X1, X2. reflexivity.
  Qed.
  Lemma decode_sig_range sig r : bytes_ok sig -> EdDSA_Decode_Signature D sig = Some r -> length sig = (2 * rc_b C)%nat /\ le_val (skipn (rc_b C) sig) < rc_L C.
  Proof.
    intros B. unfold EdDSA_Decode_Signature. rewrite (rm_b _ _ M0), (rm_L _ _ M0). destruct (plen D * 2 =? length sig)%nat eqn:E; [|discriminate]. apply Nat.eqb_eq in E. cbn [negb].
    destruct (eddsa_point_dec D (firstn (plen D) sig)) as [q|]; [|discriminate]. cbv zeta.
    set (ts := skipn (plen D) sig) in *. assert (Lt : length ts = plen D) by (unfold ts; rewrite skipn_length; lia). assert (Bt : bytes_ok ts) by now apply Forall_skipn.
    rewrite (firstn_all2 ts) by lia. clearbody ts. destruct (L_facts D HD) as (WL & _ & L1 & L2 & _). destruct (DecLSB_spec n ts Bt) as (W & _ & V).
    assert (V' : vval (vlong_DecLSB n ts) = le_val ts).
    { rewrite V. apply Z.mod_small. pose proof (le_val_bound ts Bt) as U. split; [apply U|]. eapply Z.lt_le_trans; [apply U|]. apply Z.pow_le_mono_r; [lia|].
      rewrite Lt. destruct (d_sizes D HD) as [(_ & -> & _ & _ & ->)|(_ & -> & _ & _ & ->)]; lia. }
    rewrite (vlong_cmpv_shifted_spec _ _ 0 W WL), V'. change (2 ^ Z.of_nat 0) with 1. rewrite Z.mul_1_r. unfold cmpcode.
    destruct (le_val ts =? vval L) eqn:E1; [discriminate|]. destruct (vval L <? le_val ts) eqn:E2; [discriminate|]. intros _. apply Z.eqb_neq in E1. apply Z.ltb_ge in E2. split; lia.
  Qed.
  Lemma load_fst A sig ctx M : fst (EdDSA_Verify D hash (eddsa_load D A sig) ctx M) =
    match EdDSA_Decode_Signature D sig with None => false | Some (q, s) => RFC8032_Verify D hash A q s 0 ctx M end.
  Proof. unfold eddsa_load, EdDSA_Verify. destruct (EdDSA_Decode_Signature D sig) as [[q s]|]; reflexivity. Qed.
  Lemma verify_sound pk sig ctx M A : bytes_ok pk -> length pk = rc_b C -> bytes_ok sig -> canonical_y C pk -> canonical_y C (firstn (rc_b C) sig) ->
    eddsa_point_dec D pk = Some A -> fst (EdDSA_Verify D hash (eddsa_load D A sig) ctx M) = true ->
    length sig = (2 * rc_b C)%nat /\ le_val (skipn (rc_b C) sig) < rc_L C /\
    exists PA PR, rfc_decodes C pk PA /\ rfc_decodes C (firstn (rc_b C) sig) PR /\
      rfc_equation C PA PR (le_val (skipn (rc_b C) sig)) (rfc_k C hash pk (firstn (rc_b C) sig) 0 ctx M).
  Proof.
    intros B1 L1 B2 C1 C2 EA. rewrite load_fst. destruct (EdDSA_Decode_Signature D sig) as [[q s]|] eqn:ES; [|discriminate]. intros V.
    destruct (decode_sig_range sig _ B2 ES) as [L2 R2]. split; [exact L2|]. split; [exact R2|].
    destruct (decode_sig sig B2 L2 R2) as (s' & W & Vs & E'). rewrite E' in ES. destruct (eddsa_point_dec D (firstn (rc_b C) sig)) as [q'|] eqn:EQ; [|discriminate].
    assert (q' = q /\ s' = s) as [-> ->] by (split; congruence).
    destruct (dec_rfc pk A B1 L1 C1 EA) as (PA & DA & AA & OA & RA).
    destruct (dec_rfc (firstn (rc_b C) sig) q) as (PR & DR & AR & OR & RR); [now apply Forall_firstn|rewrite firstn_length; lia|exact C2|exact EQ|].
    destruct (verify_spec D HD hash HH A q s PA PR 0 ctx M AA OA AR OR W) as [VS _]. cbv zeta in VS. specialize (VS V). rewrite RA, RR, k_eq, Vs in VS.
    exists PA, PR. split; [exact DA|]. split; [exact DR|]. now apply equation_eq.
  Qed.
  Lemma verify_complete pk sig ctx M PA PR : bytes_ok pk -> length pk = rc_b C -> bytes_ok sig -> length sig = (2 * rc_b C)%nat ->
    rfc_decodes C pk PA -> fst PA <> 0 -> rfc_decodes C (firstn (rc_b C) sig) PR -> fst PR <> 0 -> le_val (skipn (rc_b C) sig) < rc_L C ->
    rfc_equation C PA PR (le_val (skipn (rc_b C) sig)) (rfc_k C hash pk (firstn (rc_b C) sig) 0 ctx M) ->
    (forall SB, rfc_times C (le_val (skipn (rc_b C) sig)) (rc_B C) SB -> generic C SB) ->
    exists A, eddsa_point_dec D pk = Some A /\ fst (EdDSA_Verify D hash (eddsa_load D A sig) ctx M) = true.
  Proof.
    intros B1 L1 B2 L2 DA NA DR NR HS EQ G. destruct (dec_rfc_complete pk PA B1 L1 DA NA) as (A & EA & AA & OA & RA).
    destruct (dec_rfc_complete (firstn (rc_b C) sig) PR) as (q & ER & AR & OR & RR); [now apply Forall_firstn|rewrite firstn_length; lia|exact DR|exact NR|].
    exists A. split; [exact EA|]. rewrite load_fst. destruct (decode_sig sig B2 L2 HS) as (s & W & Vs & ->). rewrite ER.
    destruct (verify_spec D HD hash HH A q s PA PR 0 ctx M AA OA AR OR W) as [_ VC]. cbv zeta in VC. rewrite RA, RR, k_eq, Vs in VC. apply VC.
    - now apply equation_eq.
    - intros SB E. rewrite <- (rm_p _ _ M0). apply G. apply times_eq. rewrite base_eq. exact E.
  Qed.

  (** a base point of prime order L *)
  Hypothesis HL : rfc_order C.
  Notation vop := (eop P a d1 d2). Notation ok := (evalid P a d1 d2).
  Notation MUL := (mulE P a d1 d2).
  Notation B' := (canE P (BP D)).
  Lemma B_ok : ok B'. Proof. apply (canE_ok P a d1 d2 HP HO). apply (base_ok D HD). Qed.
  Lemma LB : MUL (Z.to_nat (rc_L C)) B' = (0, 1).
  Proof.
    destruct HL as (_ & O' & E1 & E2). apply times_eq in E1. rewrite base_eq in E1. rewrite <- (ed_mul_smul P a d1 d2 HP HO HC _ _ _ (proj1 (base_ok D HD)) E1).
    rewrite (rm_p _ _ M0) in E2. pose proof (d_P1 D HD). destruct E2 as [X Y]. apply eqm_mod in X; [|lia]. apply eqm_mod in Y; [|lia]. unfold canE. rewrite X, Y. cbn [fst snd]. now rewrite Z.mod_0_l, Z.mod_1_l by lia.
  Qed.
  Lemma MUL_id T : ok T -> MUL 1 T = T.
  Proof. intros V. change (MUL 1 T) with (vop T (0, 1)). now apply (eop_id P a d1 d2 HP HO HC). Qed.
  Lemma B_nid : B' <> (0, 1).
  Proof.
    intros E. apply (f_equal fst) in E. unfold canE in E. cbn [fst] in E. revert E. unfold BP. cbn [fst].
    pose proof (base_x D C HDC) as X. apply Z.eqb_neq in X. exact X.
  Qed.
  Lemma MUL_L q : MUL (q * Z.to_nat (rc_L C)) B' = (0, 1).
  Proof. rewrite <- (mulE_mul P a d1 d2 HP HO HC) by apply B_ok. rewrite LB. apply (mulE_O P a d1 d2 HP HO HC). Qed.
  Lemma MUL_modL k : 0 <= k -> MUL (Z.to_nat k) B' = MUL (Z.to_nat (k mod rc_L C)) B'.
  Proof.
    intros K. destruct HL as (PL & _). pose proof (prime_ge_2 _ PL) as L2. pose proof (Z.div_mod k (rc_L C) ltac:(lia)) as E. pose proof (Z.mod_pos_bound k (rc_L C) ltac:(lia)) as M. pose proof (Z.div_pos k (rc_L C) K ltac:(lia)) as Q.
    rewrite E at 1. rewrite Z2Nat.inj_add, Z2Nat.inj_mul by nia. rewrite (mulE_add P a d1 d2 HP HO HC) by apply B_ok. rewrite Nat.mul_comm, MUL_L.
    rewrite (eop_comm P a d1 d2 HP HO HC); [|apply (id_valid P a d1 d2 HP HO)|apply (mulE_ok P a d1 d2 HP HO HC); apply B_ok].
    apply (eop_id P a d1 d2 HP HO HC). apply (mulE_ok P a d1 d2 HP HO HC). apply B_ok.
  Qed.
  Lemma MUL_nz k : 0 <= k -> k mod rc_L C <> 0 -> MUL (Z.to_nat k) B' <> (0, 1).
  Proof.
    intros K N E. destruct HL as (PL & _). pose proof (prime_ge_2 _ PL) as L2. set (l := rc_L C) in *.
    assert (RP : rel_prime k l). { apply rel_prime_sym. apply prime_rel_prime; [exact PL|]. intros DV. apply N. apply Z.mod_divide; [lia|exact DV]. }
    destruct (rel_prime_bezout _ _ RP) as [u v EU]. 
    assert (M : (u mod l * k) mod l = 1). { rewrite Zmult_mod_idemp_l. replace (u * k) with (1 + (- v) * l) by lia. rewrite Z_mod_plus_full. apply Z.mod_1_l. lia. }
    pose proof (Z.mod_pos_bound u l ltac:(lia)) as U. set (u' := u mod l) in *. clearbody u'.
    assert (E1 : MUL (Z.to_nat (u' * k)) B' = (0, 1)). { rewrite Z2Nat.inj_mul by lia. rewrite <- (mulE_mul P a d1 d2 HP HO HC) by apply B_ok. rewrite E. apply (mulE_O P a d1 d2 HP HO HC). }
    rewrite MUL_modL in E1 by nia. fold l in E1. rewrite M in E1. apply B_nid. rewrite <- E1. symmetry. apply MUL_id. apply B_ok.
  Qed.
  Lemma times_on k T : rfc_times C k (rc_B C) T -> On T /\ canE P T = MUL (Z.to_nat k) B'.
  Proof.
    intros E. apply times_eq in E. rewrite base_eq in E. destruct (base_ok D HD) as [CB _]. split; [exact (ed_mul_on P a d1 d2 HP HO HC _ _ _ CB E)|exact (ed_mul_smul P a d1 d2 HP HO HC _ _ _ CB E)].
  Qed.
  Lemma times_generic k T : 0 <= k -> k mod rc_L C <> 0 -> rfc_times C k (rc_B C) T -> generic C T.
  Proof.
    intros K N E. destruct (times_on k T E) as [_ E']. pose proof (d_P1 D HD) as P1. destruct (L_facts D HD) as (_ & _ & L1 & _ & _ & _ & _ & m & Em). rewrite <- (rm_L _ _ M0) in Em, L1.
    assert (V : ok (MUL (Z.to_nat k) B')) by (apply (mulE_ok P a d1 d2 HP HO HC); apply B_ok).
    destruct (odd_order P a d1 d2 HP HO HC (Z.to_nat m) (MUL (Z.to_nat k) B') V) as [N1 N2].
    - replace (2 * Z.to_nat m + 1)%nat with (Z.to_nat (rc_L C)) by (rewrite Em; clear -Em L1; lia).
      rewrite (mulE_mul P a d1 d2 HP HO HC) by apply B_ok. rewrite Nat.mul_comm. apply MUL_L.
    - now apply MUL_nz.
    - rewrite <- E' in N1, N2. unfold generic. rewrite (rm_p _ _ M0). unfold canE in N1, N2. cbn [fst snd] in *.
      assert (X : forall z, eqm P z 0 -> eqm P (z mod P) 0). { intros z Z0. apply eqm_mod in Z0; [|lia]. rewrite Z.mod_0_l in Z0 by lia. rewrite Z0. reflexivity. }
      split; intros Z0; [apply N1|apply N2]; apply X; exact Z0.
  Qed.
  Lemma equation_holds sk PA PR s k ctx M : rfc_times C (rfc_s C hash sk) (rc_B C) PA -> rfc_times C (rfc_r C hash sk 0 ctx M) (rc_B C) PR -> 0 <= rfc_s C hash sk -> 0 <= rfc_r C hash sk 0 ctx M -> 0 <= k ->
    s = (rfc_r C hash sk 0 ctx M + k * rfc_s C hash sk) mod rc_L C -> rfc_equation C (canE P PA) (canE P PR) s k.
  Proof.
    intros EA ER Ss Rr K ES. destruct (times_on _ _ EA) as [OA VA]. destruct (times_on _ _ ER) as [OR VR]. destruct (base_ok D HD) as [CB _].
    destruct (canE_ok P a d1 d2 HP HO _ OA) as [OA' CA']. destruct (canE_ok P a d1 d2 HP HO _ OR) as [OR' CR'].
    apply equation_eq. unfold deq. destruct (ed_mul_ex P a d1 d2 HP HO HC (BP D) (Z.to_nat s) CB) as (SB & E1). destruct (ed_mul_ex P a d1 d2 HP HO HC (canE P PA) (Z.to_nat k) OA') as (kA & E2).
    pose proof (ed_mul_on P a d1 d2 HP HO HC _ _ _ OA' E2) as OK. exists SB, kA, (vop (canE P PR) kA). split; [exact E1|]. split; [exact E2|].
    assert (E3 : ed_add P a d1 d2 (canE P PR) kA (vop (canE P PR) kA)) by now apply (eop_add P a d1 d2 HP HO HC). split; [exact E3|].
    apply (canE_ept P HP HO). rewrite (ed_mul_smul P a d1 d2 HP HO HC _ _ _ CB E1), (add_canE P a d1 d2 HP HO HC _ _ _ OR' OK E3), (ed_mul_smul P a d1 d2 HP HO HC _ _ _ OA' E2).
    rewrite (canE_id P a d1 d2 (canE P PR)), (canE_id P a d1 d2 (canE P PA)) by (split; assumption). rewrite VA, VR. rewrite (mulE_mul P a d1 d2 HP HO HC) by apply B_ok. rewrite <- (mulE_add P a d1 d2 HP HO HC) by apply B_ok.
    rewrite ES, <- MUL_modL by nia. f_equal. rewrite Z2Nat.inj_add, Z2Nat.inj_mul by nia. reflexivity.
  Qed.
  Lemma mod_nn x y : 0 < y -> 0 <= x mod y. Proof. intros Q. apply Z.mod_pos_bound. exact Q. Qed.
  Lemma s_nn sk : 0 <= rfc_s C hash sk.
  Proof.
    unfold rfc_s, rfc_scalar. destruct (exps_nn D C HDC) as [N1 N2].
    assert (0 < 2 ^ rc_n C) by now apply Z.pow_pos_nonneg. assert (0 < 2 ^ rc_c C) by now apply Z.pow_pos_nonneg.
    pose proof (Z.mod_pos_bound (le_val (firstn (rc_b C) (hash sk (2 * rc_b C)%nat))) (2 ^ rc_n C) ltac:(lia)). pose proof (Z.div_pos (le_val (firstn (rc_b C) (hash sk (2 * rc_b C)%nat)) mod 2 ^ rc_n C) (2 ^ rc_c C) ltac:(lia) ltac:(lia)). nia.
  Qed.
  Lemma sign_verify sk ctx M PA PR : rfc_times C (rfc_s C hash sk) (rc_B C) PA -> rfc_times C (rfc_r C hash sk 0 ctx M) (rc_B C) PR ->
    rfc_s C hash sk mod rc_L C <> 0 -> rfc_r C hash sk 0 ctx M <> 0 -> rfc_S C hash PA PR sk 0 ctx M <> 0 ->
    let K := eddsa_privkey_reload D hash sk in
    exists A, eddsa_point_dec D (eddsa_point_enc D (ek_A K)) = Some A /\
      fst (EdDSA_Verify D hash (eddsa_load D A (EdDSA_Encode_Signature D (EdDSA_Sign D hash K ctx M))) ctx M) = true.
  Proof.
    intros EA ER NA NR NS. cbv zeta. pose proof (s_nn sk) as S0. destruct HL as (PL & _). pose proof (prime_ge_2 _ PL) as L2.
    assert (BR : 0 <= rfc_r C hash sk 0 ctx M < rc_L C) by (apply Z.mod_pos_bound; lia). assert (BS : 0 <= rfc_S C hash PA PR sk 0 ctx M < rc_L C) by (apply Z.mod_pos_bound; lia).
    assert (GA : generic C PA) by (apply (times_generic _ _ S0 NA EA)).
    assert (GR : generic C PR). { apply (times_generic _ _ (proj1 BR)); [rewrite Z.mod_small by exact BR; exact NR|exact ER]. }
    unfold EdDSA_Sign. rewrite (sig_spec sk 0 ctx M PA PR EA ER GA GR).
    pose proof (sign_spec sk 0 ctx M PA PR EA ER GA GR) as Q. cbv zeta in Q. destruct Q as (_ & OR & OA & AA & _).
    assert (GA' := GA). assert (GR' := GR). unfold generic in GA', GR'. rewrite (rm_p _ _ M0) in GA', GR'. rewrite (enc_eq _ PA AA OA (proj1 GA') (proj2 GA')).
    destruct (enc_shape PA) as [LA WA]. destruct (enc_shape PR) as [LR WR].
    assert (F1 : firstn (rc_b C) (rfc_signature C hash PA PR sk 0 ctx M) = rfc_enc C PR) by (unfold rfc_signature; rewrite firstn_app, LR, Nat.sub_diag, firstn_all2 by lia; cbn [firstn]; apply app_nil_r).
    assert (F2 : le_val (skipn (rc_b C) (rfc_signature C hash PA PR sk 0 ctx M)) = rfc_S C hash PA PR sk 0 ctx M).
    { unfold rfc_signature. rewrite skipn_app, LR, Nat.sub_diag, skipn_all2 by lia. cbn [app skipn]. rewrite le_val_le_bytes. apply Z.mod_small. destruct (L_facts D HD) as (_ & _ & _ & _ & _ & _ & X & _).
      rewrite <- (rm_L _ _ M0), <- (rm_b _ _ M0) in X. split; [apply BS|eapply Z.lt_trans; [apply BS|exact X]]. }
    assert (NZ : forall z, ~ eqm P z 0 -> z mod P <> 0). { intros z Nz Ez. apply Nz. apply eqm_mod; [pose proof (d_P1 D HD); lia|]. rewrite Ez. symmetry. apply Z.mod_0_l. pose proof (d_P1 D HD); lia. }
    apply (verify_complete _ _ ctx M (canE P PA) (canE P PR)).
    - exact WA.
    - exact LA.
    - unfold rfc_signature. apply Forall_app. split; [exact WR|apply le_bytes_ok].
    - unfold rfc_signature. rewrite app_length, LR, le_bytes_length. lia.
    - now apply decodes_enc.
    - apply NZ. apply GA'.
    - rewrite F1. now apply decodes_enc.
    - apply NZ. apply GR'.
    - rewrite F2. apply BS.
    - rewrite F1, F2. apply (equation_holds sk PA PR _ _ ctx M EA ER S0 (proj1 BR)); [apply mod_nn; lia|]. unfold rfc_S. reflexivity.
    - intros SB E. rewrite F2 in E. apply (times_generic _ _ (proj1 BS)); [rewrite Z.mod_small by exact BS; exact NS|exact E].
  Qed.
  (** a signature made for one digest value and accepted for another *)
  Lemma MUL_inj x y : 0 <= x -> 0 <= y -> MUL (Z.to_nat x) B' = MUL (Z.to_nat y) B' -> x mod rc_L C = y mod rc_L C.
  Proof.
    intros X Y E. destruct HL as (PL & _). pose proof (prime_ge_2 _ PL) as L2. set (l := rc_L C) in *.
    assert (E1 : MUL (Z.to_nat (x + (l - 1) * y)) B' = (0, 1)).
    { rewrite Z2Nat.inj_add by nia. rewrite (mulE_add P a d1 d2 HP HO HC) by apply B_ok. rewrite E, <- (mulE_add P a d1 d2 HP HO HC) by apply B_ok. rewrite <- Z2Nat.inj_add by nia.
      replace (y + (l - 1) * y) with (y * l) by ring. rewrite Z2Nat.inj_mul by lia. apply MUL_L. }
    destruct (Z.eq_dec ((x + (l - 1) * y) mod l) 0) as [Q|Q]; [|exfalso; refine (MUL_nz _ _ Q E1); clear -X Y L2; nia].
    apply Z.mod_divide in Q; [|lia]. destruct Q as [j Ej]. replace x with (y + (j - y) * l) by lia. apply Z_mod_plus_full.
  Qed.
  Lemma other_digest sk ctx M M' PA PR A : rfc_times C (rfc_s C hash sk) (rc_B C) PA -> rfc_times C (rfc_r C hash sk 0 ctx M) (rc_B C) PR ->
    rfc_s C hash sk mod rc_L C <> 0 -> rfc_r C hash sk 0 ctx M <> 0 -> eddsa_point_dec D (rfc_enc C PA) = Some A ->
    fst (EdDSA_Verify D hash (eddsa_load D A (rfc_signature C hash PA PR sk 0 ctx M)) ctx M') = true ->
    (rfc_r C hash sk 0 ctx M + rfc_k C hash (rfc_enc C PA) (rfc_enc C PR) 0 ctx M * rfc_s C hash sk) mod rc_L C =
    (rfc_r C hash sk 0 ctx M + rfc_k C hash (rfc_enc C PA) (rfc_enc C PR) 0 ctx M' * rfc_s C hash sk) mod rc_L C.
  Proof.
    intros EA ER NA NR EDA V. pose proof (s_nn sk) as S0. destruct HL as (PL & _). pose proof (prime_ge_2 _ PL) as L2.
    assert (BR : 0 <= rfc_r C hash sk 0 ctx M < rc_L C) by (apply Z.mod_pos_bound; lia). assert (BS : 0 <= rfc_S C hash PA PR sk 0 ctx M < rc_L C) by (apply Z.mod_pos_bound; lia).
    destruct (times_on _ _ EA) as [OA VA]. destruct (times_on _ _ ER) as [OR VR].
    assert (GA : generic C PA) by (apply (times_generic _ _ S0 NA EA)).
    assert (GR : generic C PR). { apply (times_generic _ _ (proj1 BR)); [rewrite Z.mod_small by exact BR; exact NR|exact ER]. }
    unfold generic in GA, GR. rewrite (rm_p _ _ M0) in GA, GR.
    assert (NZ : forall z, ~ eqm P z 0 -> z mod P <> 0). { intros z Nz Ez. apply Nz. apply eqm_mod; [pose proof (d_P1 D HD); lia|]. rewrite Ez. symmetry. apply Z.mod_0_l. pose proof (d_P1 D HD); lia. }
    destruct (enc_shape PA) as [LA WA]. destruct (enc_shape PR) as [LR WR].
    assert (F1 : firstn (rc_b C) (rfc_signature C hash PA PR sk 0 ctx M) = rfc_enc C PR) by (unfold rfc_signature; rewrite firstn_app, LR, Nat.sub_diag, firstn_all2 by lia; cbn [firstn]; apply app_nil_r).
    assert (F2 : le_val (skipn (rc_b C) (rfc_signature C hash PA PR sk 0 ctx M)) = rfc_S C hash PA PR sk 0 ctx M).
    { unfold rfc_signature. rewrite skipn_app, LR, Nat.sub_diag, skipn_all2 by lia. cbn [app skipn]. rewrite le_val_le_bytes. apply Z.mod_small. destruct (L_facts D HD) as (_ & _ & _ & _ & _ & _ & X & _).
      rewrite <- (rm_L _ _ M0), <- (rm_b _ _ M0) in X. split; [apply BS|eapply Z.lt_trans; [apply BS|exact X]]. }
    pose proof (decodes_enc PA OA) as DA. pose proof (decodes_enc PR OR) as DR.
    destruct (verify_sound (rfc_enc C PA) (rfc_signature C hash PA PR sk 0 ctx M) ctx M' A) as (_ & _ & PA' & PR' & DA' & DR' & EQ).
    - exact WA.
    - exact LA.
    - unfold rfc_signature. apply Forall_app. split; [exact WR|apply le_bytes_ok].
    - exact (decodes_canonical _ _ DA).
    - rewrite F1. exact (decodes_canonical _ _ DR).
    - exact EDA.
    - exact V.
    - rewrite F1 in DR', EQ. rewrite F2 in EQ.
      rewrite <- (decodes_unique _ _ _ DA DA' (NZ _ (proj1 GA))) in EQ. rewrite <- (decodes_unique _ _ _ DR DR' (NZ _ (proj1 GR))) in EQ.
      set (k' := rfc_k C hash (rfc_enc C PA) (rfc_enc C PR) 0 ctx M') in *. assert (K' : 0 <= k') by (apply mod_nn; lia). clearbody k'.
      apply equation_eq in EQ. destruct EQ as (SB & kA & T & E1 & E2 & E3 & E4). destruct (base_ok D HD) as [CB _].
      destruct (canE_ok P a d1 d2 HP HO _ OA) as [OA' CA']. destruct (canE_ok P a d1 d2 HP HO _ OR) as [OR' CR'].
      pose proof (ed_mul_on P a d1 d2 HP HO HC _ _ _ OA' E2) as OK.
      assert (E5 : canE P SB = canE P T). { pose proof (d_P1 D HD). destruct E4 as [X Y]. apply eqm_mod in X; [|lia]. apply eqm_mod in Y; [|lia]. unfold canE. now rewrite X, Y. }
      rewrite (ed_mul_smul P a d1 d2 HP HO HC _ _ _ CB E1), (add_canE P a d1 d2 HP HO HC _ _ _ OR' OK E3), (ed_mul_smul P a d1 d2 HP HO HC _ _ _ OA' E2) in E5.
      rewrite (canE_id P a d1 d2 (canE P PR)), (canE_id P a d1 d2 (canE P PA)) in E5 by (split; assumption). rewrite VA, VR in E5.
      rewrite (mulE_mul P a d1 d2 HP HO HC) in E5 by apply B_ok. rewrite <- (mulE_add P a d1 d2 HP HO HC) in E5 by apply B_ok.
      rewrite <- Z2Nat.inj_mul, <- Z2Nat.inj_add in E5 by nia. apply MUL_inj in E5; [|lia|nia]. rewrite <- E5. unfold rfc_S. now rewrite Zmod_mod.
  Qed.
End Proofs.
