(** C56: the user-identification hash Z of SM2 signatures.
    Specification ([z_octets], GM/T 0003.2 5.5): ENTL || ID || a || b || xG || yG || xA || yA, ENTL being the number of bits
    of ID in two octets, field elements in [len] big-endian octets. *)
From Coq Require Import Znumtheory.
From Verif Require Import Base Blocks Vlong VlongLemmas EcMod EcSpec EcGroupLemmas EcpXyz EcLawLemmas EcpScaleLemmas EcExpLemmas EcMulLemmas Der DerLemmas PropEcp
  Ecc EccSpec EccCodecSpec EccLemmas EccSigLemmas EccRunLemmas PropEcc PropEccSig Sm2Z.

Definition z_octets (len : nat) (id : list Z) (a b xG yG xA yA : Z) : list Z :=
  be_bytes 2 (8 * Z.of_nat (length id)) ++ id ++ be_bytes len a ++ be_bytes len b ++ be_bytes len xG ++ be_bytes len yG ++ be_bytes len xA ++ be_bytes len yA.

(** the parameters of the domain are reduced: a is a small integer, standing for p + a if negative *)
Record z_domain (D : ec_domain) (a b xG yG : Z) : Prop := {
  zd_pw : words_ok (cv_p (ed_c D)); zd_pl : (length (cv_p (ed_c D)) <= cv_w (ed_c D))%nat;
  zd_a : a = aA D mod pP D; zd_as : - pP D < aA D < pP D; zd_a31 : - 2 ^ 31 <= aA D < 2 ^ 31;
  zd_b : words_ok (cv_b (ed_c D)) /\ val_le 32 (cv_b (ed_c D)) = b;
  zd_x : words_ok (px (ed_G D)) /\ val_le 32 (px (ed_G D)) = xG;
  zd_y : words_ok (py (ed_G D)) /\ val_le 32 (py (ed_G D)) = yG }.

Lemma setZ_a_spec D a b xG yG : z_domain D a b xG yG -> words_ok (setZ_a D) /\ val_le 32 (setZ_a D) = a.
Proof.
  intros [PW PL EA AS A31 _ _ _]. unfold setZ_a. cbv zeta. split; [apply vlong_adds_words|].
  pose proof (vval_bound _ PW) as PB.
  assert (BP : pP D < 2 ^ (32 * Z.of_nat (cv_w (ed_c D)))).
  { eapply Z.lt_le_trans; [apply PB|]. apply Z.pow_le_mono_r; lia. }
  fold (vval (vlong_adds (cv_w (ed_c D)) (if 0 <=? cv_a (ed_c D) then map (fun _ => 0) (seq 0 (cv_w (ed_c D))) else vlong_cpy (cv_w (ed_c D)) (cv_p (ed_c D))) (cv_a (ed_c D)) 0)).
  change (2 ^ 31) with 2147483648 in A31.
  destruct (Z.leb_spec 0 (cv_a (ed_c D))) as [G|G].
  - assert (Z0 : forall s n, vval (map (fun _ : nat => 0) (seq s n)) = 0 /\ words_ok (map (fun _ : nat => 0) (seq s n))).
    { intros s n. revert s. induction n as [|n IH]; intros s; cbn [seq map]; [split; [reflexivity|constructor]|].
      destruct (IH (S s)) as [E1 E2]. split; [unfold vval in *; cbn [val_le]; lia|apply Forall_cons; [unfold word_ok; lia|exact E2]]. }
    destruct (Z0 0%nat (cv_w (ed_c D))) as [E1 E2]. rewrite vlong_adds_val; [|exact E2|change (2 ^ 62) with 4611686018427387904; lia].
    rewrite E1, EA, Z.mul_1_r, Z.add_0_l. rewrite !Z.mod_small by lia. reflexivity.
  - pose proof (vlong_cpy_words (cv_w (ed_c D)) _ PW) as C1. pose proof (vlong_cpy_val (cv_w (ed_c D)) _ PW) as C3.
    rewrite vlong_adds_val; [|exact C1|change (2 ^ 62) with 4611686018427387904; lia].
    rewrite C3, EA, Z.mul_1_r. rewrite (Z.mod_small (vval (cv_p (ed_c D)))) by (split; [apply PB|exact BP]).
    change (vval (cv_p (ed_c D))) with (pP D). change (cv_a (ed_c D)) with (aA D) in *.
    rewrite Z.mod_small by lia. rewrite <- (Z.mod_add _ 1) by lia. rewrite Z.mul_1_l, (Z.add_comm (aA D)). symmetry. apply Z.mod_small. lia.
Qed.

(** A public key whose registers hold xA, yA gives the hash the standard asks for, for every ID of less than 8192 octets. *)
Theorem C56_z : forall (D : ec_domain) hash (Q : ecp_xyz) (id : list Z) (a b xG yG : Z),
  z_domain D a b xG yG -> words_ok (px Q) -> words_ok (py Q) -> (Z.of_nat (length id) < 8192) ->
  sm2sig_setZ D hash Q id = hash (z_octets (ed_plen D) id a b xG yG (val_le 32 (px Q)) (val_le 32 (py Q))).
Proof.
  intros D hash Q id a b xG yG ZD WX WY L. destruct (setZ_a_spec _ _ _ _ _ ZD) as (WA & EA). destruct ZD as [_ _ _ _ _ (WB & EB) (WG & EG) (WH & EH)].
  unfold sm2sig_setZ, setZ_updates, z_octets. cbv zeta. rewrite (Z.mod_small (Z.of_nat (length id))) by lia. rewrite Nat2Z.id, firstn_all.
  rewrite (I2OSP_spec _ _ WA), (I2OSP_spec _ _ WB), (I2OSP_spec _ _ WG), (I2OSP_spec _ _ WH), (I2OSP_spec _ _ WX), (I2OSP_spec _ _ WY).
  change (val_le 32) with vval in *. rewrite EA, EB, EG, EH. cbn [concat]. rewrite app_nil_r.
  assert (E : setZ_entl (Z.of_nat (length id)) = be_bytes 2 (8 * Z.of_nat (length id))).
  { unfold setZ_entl. rewrite Z.shiftr_div_pow2 by lia. rewrite (Z.mul_comm 8). unfold be_bytes, u8. cbn [to_le rev app]. reflexivity. }
  rewrite E. reflexivity.
Qed.
Print Assumptions C56_z.

(** the same, for the key of a context: a private key d (from the generator or the decoder) whose public point has
    x-coordinate distinct from 0 *)
Lemma canon_vals D g q x y : domain_ok D g -> on (ed_c D) (Aff x y) -> 0 < x < pP D -> 0 <= y < pP D ->
  holds_point (ed_c D) q (Aff x y) -> val_le 32 (pz q) = 1 -> val_le 32 (px q) = x /\ val_le 32 (py q) = y.
Proof.
  intros DO C BX BY ((W1 & L1 & B1) & (W2 & L2 & B2) & _ & (_ & EX & EY)) Z1.
  change (vval (pz q)) with (val_le 32 (pz q)) in EX, EY. rewrite Z1, Z.mul_1_r in EX, EY.
  assert (NY : ~ eqm (pP D) y 0).
  { intros Z0. apply (NoTwo D g DO x). cbn [on on_curve] in C. rewrite <- C, Z0. apply eqm_eq. reflexivity. }
  assert (K : forall v z, 0 <= z < pP D -> ~ eqm (pP D) z 0 -> 0 <= v <= pP D -> eqm (pP D) v z -> v = z).
  { intros v z Bz Nz Bv E. destruct (Z.eq_dec v (pP D)) as [->|N].
    - exfalso. apply Nz. rewrite <- E. apply eqm_mod; [lia|]. now rewrite Z_mod_same_full, Zmod_0_l.
    - apply (proj1 (eqm_mod (pP D) v z ltac:(lia))) in E. rewrite !Z.mod_small in E by lia. exact E. }
  split; apply K; auto.
  - lia.
  - intros Z0. apply (proj1 (eqm_mod (pP D) x 0 ltac:(lia))) in Z0. rewrite Zmod_0_l, Z.mod_small in Z0 by lia. lia.
  - split; [apply (vval_bound _ W1)|exact B1].
  - split; [apply (vval_bound _ W2)|exact B2].
Qed.
Theorem C56_key_partial : forall (D : ec_domain) (g : point) hash (d id : list Z) (a b xG yG x y : Z),
  domain_ok D g -> z_domain D a b xG yG -> is_reg D d -> 1 <= val_le 32 d < nN D ->
  ec_mul (pP D) (aA D) g (Z.to_nat (val_le 32 d)) (Aff x y) -> ~ eqm (pP D) x 0 -> Z.of_nat (length id) < 8192 ->
  sm2sig_setZ D hash (ecc_pubkey D d) id = hash (z_octets (ed_plen D) id a b xG yG (x mod pP D) (y mod pP D)).
Proof.
  intros D g hash d id a b xG yG x y DO ZD RD BD EM NX L. pose proof (P1 D g DO) as p1.
  destruct (pubkey_spec D g DO d RD BD) as (Q & EQ & CQ & NQ & HQ & Z1).
  assert (PE : pt_eq (pP D) (Aff x y) (Aff (x mod pP D) (y mod pP D))).
  { split; apply eqm_mod; try (clear - p1; lia); symmetry; apply Zmod_mod. }
  assert (H : holds_point (ed_c D) (ecc_pubkey D d) (Aff x y) /\ on (ed_c D) (Aff x y)).
  { pose proof (ec_mul_on _ _ _ (Hp D g DO) (H2 D g DO) (NoTwo D g DO) g _ _ (do_Gc _ _ DO) EM) as C. split; [|exact C].
    apply (holds_pt (ed_c D) _ Q); [|exact HQ].
    pose proof (ec_mul_can _ _ _ (Hp D g DO) (H2 D g DO) (NoTwo D g DO) g _ _ (do_Gc _ _ DO) EM) as K1.
    pose proof (ec_mul_can _ _ _ (Hp D g DO) (H2 D g DO) (NoTwo D g DO) g _ _ (do_Gc _ _ DO) EQ) as K2. rewrite <- K1 in K2.
    eapply pt_eq_trans; [exact (canW_eq _ _ _ (Hp D g DO) (H2 D g DO) (NoTwo D g DO) Q)|]. rewrite K2.
    apply pt_eq_sym. exact (canW_eq _ _ _ (Hp D g DO) (H2 D g DO) (NoTwo D g DO) (Aff x y)). }
  destruct H as [H C].
  pose proof (Z.mod_pos_bound x (pP D) ltac:(clear - p1; lia)) as BX. pose proof (Z.mod_pos_bound y (pP D) ltac:(clear - p1; lia)) as BY.
  assert (NZ : x mod pP D <> 0). { intros E. apply NX. apply eqm_mod; [clear - p1; lia|]. rewrite E. symmetry. apply Zmod_0_l. }
  destruct (canon_vals D g (ecc_pubkey D d) (x mod pP D) (y mod pP D) DO (on_curve_eq _ _ _ _ _ PE C) ltac:(clear - BX NZ; lia) BY (holds_pt _ _ _ _ PE H) Z1) as [VX VY].
  destruct H as ((W1 & _) & (W2 & _) & _).
  rewrite (C56_z D hash _ id a b xG yG ZD W1 W2 L), VX, VY. reflexivity.
Qed.
Print Assumptions C56_key_partial.

(** Z depends on the values of the coordinates only: the signer, who computed the public key, and a verifier, who decoded it,
    agree (see C36 for the values that are decoded). *)
Lemma setZ_same D hash Q Q' id : words_ok (px Q) -> words_ok (py Q) -> words_ok (px Q') -> words_ok (py Q') ->
  val_le 32 (px Q') = val_le 32 (px Q) -> val_le 32 (py Q') = val_le 32 (py Q) -> sm2sig_setZ D hash Q' id = sm2sig_setZ D hash Q id.
Proof.
  intros A B C E EX EY. unfold sm2sig_setZ, setZ_updates. cbv zeta.
  rewrite (I2OSP_spec (px Q) _ A), (I2OSP_spec (py Q) _ B), (I2OSP_spec (px Q') _ C), (I2OSP_spec (py Q') _ E). change (val_le 32) with vval in EX, EY. rewrite EX, EY. reflexivity.
Qed.
(** Signing and verifying with the same ID of any length: accepted (nonces with x-coordinate 0 excluded: see C38). *)
Theorem C56_sign_verify_partial : forall (D : ec_domain) (g : point) hash (id : list Z) (x x' y : ecc_ctx) (Q : point) (msg : list Z) (rnd : list (list Z)) (xk yk : Z),
  domain_ok D g -> 2 < nN D -> has_private D g x Q -> has_public D x Q -> has_public D y Q ->
  val_le 32 (px (e_Q y)) = val_le 32 (px (e_Q x)) -> val_le 32 (py (e_Q y)) = val_le 32 (py (e_Q x)) ->
  octet_hash hash -> Forall bytes_ok rnd ->
  SM2SIG_Sign D hash (sm2sig_setZ D hash (e_Q x) id) x msg rnd = Some x' ->
  ec_mul (pP D) (aA D) g (Z.to_nat (val_le 32 (e_k x'))) (Aff xk yk) -> ~ eqm (pP D) xk 0 ->
  snd (SM2SIG_Verify D hash (sm2sig_setZ D hash (e_Q y) id) (load_signature y (e_r x') (e_s x')) msg) = true.
Proof.
  intros D g hash id x x' y Q msg rnd xk yk DO HN PR PX PY EX EY OH F ES EK NX.
  pose proof PX as (_ & _ & (WX1 & _) & (WX2 & _) & _). pose proof PY as (_ & _ & (WY1 & _) & (WY2 & _) & _).
  rewrite (setZ_same D hash (e_Q x) (e_Q y) id WX1 WX2 WY1 WY2 EX EY).
  exact (C38_sign_verify_partial D g hash _ x x' y Q msg rnd xk yk DO HN PR PY OH F ES EK NX).
Qed.
Print Assumptions C56_sign_verify_partial.

(* ---------------- what fails ---------------- *)
(** The length of an ID is taken modulo 65536: an ID of 65536 octets or more has the Z of a prefix of it, so distinct
    signers share their Z; in particular, any ID of 65536 octets has the Z of the empty one. *)
Theorem C56_long_id_refuted : forall (D : ec_domain) hash (Q : ecp_xyz) (id : list Z),
  sm2sig_setZ D hash Q id = sm2sig_setZ D hash Q (firstn (Z.to_nat (Z.of_nat (length id) mod 2 ^ 16)) id).
Proof.
  intros D hash Q id. unfold sm2sig_setZ, setZ_updates. cbv zeta.
  assert (B : 0 <= Z.of_nat (length id) mod 2 ^ 16 < 2 ^ 16) by (apply Z.mod_pos_bound; lia).
  assert (LE : Z.of_nat (length id) mod 2 ^ 16 <= Z.of_nat (length id)) by (apply Z.mod_le; lia).
  set (n := Z.of_nat (length id) mod 2 ^ 16) in *. clearbody n.
  assert (L : Z.of_nat (length (firstn (Z.to_nat n) id)) = n) by (rewrite firstn_length; clear - B LE; lia).
  rewrite L, (Z.mod_small n _ B), firstn_firstn, Nat.min_id. reflexivity.
Qed.
Print Assumptions C56_long_id_refuted.
Theorem C56_id_collision_refuted : forall (D : ec_domain) hash (Q : ecp_xyz) (id id' : list Z),
  Z.of_nat (length id) = 65536 -> Z.of_nat (length id') = 65536 -> sm2sig_setZ D hash Q id = sm2sig_setZ D hash Q id'.
Proof.
  intros D hash Q id id' L L'. rewrite (C56_long_id_refuted D hash Q id), (C56_long_id_refuted D hash Q id'), L, L'.
  change (Z.to_nat (65536 mod 2 ^ 16)) with 0%nat. reflexivity.
Qed.
Print Assumptions C56_id_collision_refuted.
(** An ID of 8192 to 65535 octets has a length that ENTL cannot hold; it is not refused: ENTL is that of an ID shorter by
    a multiple of 8192. *)
Theorem C56_entl_wraps_refuted : forall (D : ec_domain) hash (Q : ecp_xyz) (id : list Z) (k n : Z),
  Z.of_nat (length id) = 8192 * k + n -> 0 <= n < 8192 -> 1 <= k < 8 ->
  exists rest, sm2sig_setZ D hash Q id = hash (be_bytes 2 (8 * n) ++ id ++ rest).
Proof.
  intros D hash Q id k n L Hn Hk. unfold sm2sig_setZ, setZ_updates. cbv zeta.
  assert (B : Z.of_nat (length id) mod 2 ^ 16 = Z.of_nat (length id)) by (apply Z.mod_small; lia). rewrite B, Nat2Z.id, firstn_all.
  assert (E : setZ_entl (Z.of_nat (length id)) = be_bytes 2 (8 * n)).
  { unfold setZ_entl, u8. rewrite Z.shiftr_div_pow2 by lia. unfold be_bytes. cbn [to_le rev app]. change (2 ^ 8) with 256. rewrite L.
    replace ((8192 * k + n) * 8) with (8 * n + (256 * k) * 256) by ring. rewrite Z.div_add, Z_mod_plus_full by lia.
    replace (8 * n / 256 + 256 * k) with (8 * n / 256 + k * 256) by ring. rewrite Z_mod_plus_full. reflexivity. }
  rewrite E. eexists. cbn [concat]. reflexivity.
Qed.
Print Assumptions C56_entl_wraps_refuted.
(** The public-key decoder does not reduce the coordinates (C36_x_not_reduced_refuted): registers that hold x and x + p,
    the same point, give hashes of different octets. *)
Theorem C56_unreduced_key_refuted : forall (D : ec_domain) (Q Q' : ecp_xyz) (id : list Z) (p : Z),
  words_ok (px Q) -> words_ok (px Q') -> 0 < p -> val_le 32 (px Q') = val_le 32 (px Q) + p -> val_le 32 (px Q') < 2 ^ (8 * Z.of_nat (ed_plen D)) ->
  concat (setZ_updates D Q id) <> concat (setZ_updates D Q' id).
Proof.
  intros D Q Q' id p WQ WQ' Hp EX LT E. unfold setZ_updates in E. cbv zeta in E. cbn [concat] in E.
  do 6 apply app_inv_head in E. rewrite (I2OSP_spec _ _ WQ), (I2OSP_spec _ _ WQ') in E.
  assert (E2 : be_bytes (ed_plen D) (vval (px Q)) = be_bytes (ed_plen D) (vval (px Q'))).
  { apply (f_equal (firstn (ed_plen D))) in E. rewrite !firstn_app_exact in E by (now rewrite be_bytes_length). exact E. }
  apply (f_equal be_val) in E2. rewrite !be_val_be_bytes in E2. change (val_le 32) with vval in EX, LT.
  pose proof (vval_bound _ WQ) as B. rewrite !Z.mod_small in E2 by lia. lia.
Qed.
Print Assumptions C56_unreduced_key_refuted.

(* ---------------- the hypotheses are met ---------------- *)
(** by the curve of the standard (GM/T 0003.5) *)
Example C56_sm2_domain : z_domain dom_SM2
  0xFFFFFFFEFFFFFFFFFFFFFFFFFFFFFFFFFFFFFFFF00000000FFFFFFFFFFFFFFFC 0x28E9FA9E9D9F5E344D5A9E4BCF6509A7F39789F515AB8F92DDBCBD414D940E93
  0x32C4AE2C1F1981195F9904466A39C9948FE30BBFF2660BE1715A4589334C74C7 0xBC3736A2F4F6779C59BDCEE36B692153D0A9877CC62A474002DF32E52139F0A0.
Proof.
  constructor; cbn [dom_SM2 ed_c ed_G curveSM2 cv_p cv_b cv_w cv_a G_SM2 px py].
  - repeat (apply Forall_cons; [unfold word_ok; split; vm_compute; congruence|]); apply Forall_nil.
  - cbn; lia.
  - vm_compute; reflexivity.
  - split; vm_compute; reflexivity.
  - split; vm_compute; congruence.
  - split; [repeat (apply Forall_cons; [unfold word_ok; split; vm_compute; congruence|]); apply Forall_nil|vm_compute; reflexivity].
  - split; [repeat (apply Forall_cons; [unfold word_ok; split; vm_compute; congruence|]); apply Forall_nil|vm_compute; reflexivity].
  - split; [repeat (apply Forall_cons; [unfold word_ok; split; vm_compute; congruence|]); apply Forall_nil|vm_compute; reflexivity].
Qed.
(** by the small curve, with the key d = 3 *)
Example C56_demo : z_domain demoD 28 25 9 13 /\ sm2sig_setZ demoD idh (e_Q demo_x) [0x41; 0x42] = [0; 16; 0x41; 0x42; 28; 25; 9; 13; 17; 12] /\
  z_octets 1 [0x41; 0x42] 28 25 9 13 17 12 = [0; 16; 0x41; 0x42; 28; 25; 9; 13; 17; 12].
Proof.
  split; [|split; vm_compute; reflexivity].
  constructor; cbn [demoD ed_c ed_G demoC cv_p cv_b cv_w cv_a demoG px py].
  - repeat (apply Forall_cons; [unfold word_ok; split; vm_compute; congruence|]); apply Forall_nil.
  - cbn; lia.
  - vm_compute; reflexivity.
  - split; vm_compute; reflexivity.
  - split; vm_compute; congruence.
  - split; [repeat (apply Forall_cons; [unfold word_ok; split; vm_compute; congruence|]); apply Forall_nil|vm_compute; reflexivity].
  - split; [repeat (apply Forall_cons; [unfold word_ok; split; vm_compute; congruence|]); apply Forall_nil|vm_compute; reflexivity].
  - split; [repeat (apply Forall_cons; [unfold word_ok; split; vm_compute; congruence|]); apply Forall_nil|vm_compute; reflexivity].
Qed.
Example C56_key_example : sm2sig_setZ demoD idh (ecc_pubkey demoD [3; 0; 0]) [0x41; 0x42] = idh [0; 16; 0x41; 0x42; 28; 25; 9; 13; 17; 12].
Proof.
  destruct (demo_mulx 3 17 12) as (x & y & EM & Ex & Ey); [vm_compute; reflexivity|]. apply eqm_mod in Ex, Ey; try lia.
  rewrite (C56_key_partial demoD (Aff 9 13) idh [3; 0; 0] [0x41; 0x42] 28 25 9 13 x y demo_ok (proj1 C56_demo) (reg3' 3 ltac:(lia)) ltac:(split; vm_compute; congruence) EM).
  - change (pP demoD) with 31. rewrite Ex, Ey. vm_compute. reflexivity.
  - change (pP demoD) with 31. intros E. apply eqm_mod in E; [|lia]. rewrite Ex in E. vm_compute in E. discriminate E.
  - cbn. lia.
Qed.
