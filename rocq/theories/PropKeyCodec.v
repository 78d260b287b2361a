(** C55: private-key octets of ECDSA / SM2 / ECDH-KEM, of EdDSA and of XECDH: what is encoded, and that decoding it gives the
    same key again. *)
From Coq Require Import Znumtheory.
From Verif Require Import Base Blocks Vlong VlongLemmas EcMod EcSpec EcGroupLemmas EcpXyz EcLawLemmas EcpScaleLemmas EcExpLemmas EcMulLemmas Der DerLemmas PropEcp
  Ecc EccSpec EccLemmas EccSigLemmas EccRunLemmas PropEcc PropEccSig EcEd EdDsa EcMt MtSpec PropXecdh KeyCodec.

(* ---------------- ECDSA, SM2, ECDH-KEM ---------------- *)
(** The octets are d, big-endian, in plen octets (SEC 1 C.4); any other length is refused. *)
Theorem C55_ecc_encode : forall (D : ec_domain) (d : list Z) (l : nat), words_ok d ->
  ECC_Encode_PrivateKey D d l = if Nat.eqb l (ed_plen D) then Some (be_bytes (ed_plen D) (val_le 32 d)) else None.
Proof. intros D d l W. unfold ECC_Encode_PrivateKey. rewrite (I2OSP_spec _ _ W). now destruct (Nat.eqb l (ed_plen D)). Qed.
Print Assumptions C55_ecc_encode.
(** A private key in [1, n-1], encoded, is decoded to the same registers, with the public key d G. *)
Theorem C55_ecc_round_trip : forall (D : ec_domain) (g : point) (d enc : list Z) (l : nat),
  domain_ok D g -> is_reg D d -> 1 <= val_le 32 d < nN D -> ECC_Encode_PrivateKey D d l = Some enc ->
  ECC_Decode_PrivateKey D enc = Some (d, ecc_pubkey D d).
Proof.
  intros D g d enc l DO (W & L) B E. rewrite (C55_ecc_encode D d l W) in E. destruct (Nat.eqb l (ed_plen D)); [|discriminate]. injection E as <-.
  unfold ECC_Decode_PrivateKey. apply (dec_spec D g DO _ _ _ (be_bytes_ok _ _)).
  pose proof (do_pb _ _ DO) as PB. pose proof (do_np _ _ DO) as NP.
  assert (V : be_val (be_bytes (ed_plen D) (val_le 32 d)) = val_le 32 d).
  { rewrite be_val_be_bytes. apply Z.mod_small. clear - B PB NP. lia. }
  split; [apply be_bytes_length|]. split; [rewrite V; exact B|]. split; [|reflexivity].
  destruct (os_val D g DO (be_bytes (ed_plen D) (val_le 32 d)) (be_bytes_ok _ _) ltac:(now rewrite be_bytes_length)) as ((W' & L') & V' & _).
  apply (val_le_inj 32); auto; [lia|congruence|]. change (val_le 32 (vlong_OS2IP (cv_w (ed_c D)) (be_bytes (ed_plen D) (val_le 32 d)))) with (vval (vlong_OS2IP (cv_w (ed_c D)) (be_bytes (ed_plen D) (val_le 32 d)))).
  rewrite V', V. reflexivity.
Qed.
Print Assumptions C55_ecc_round_trip.
(** Exactly the encodings of the numbers in [1, n-1] are accepted, and they are encoded to themselves. *)
Theorem C55_ecc_decode : forall (D : ec_domain) (g : point) (enc : list Z), domain_ok D g -> bytes_ok enc ->
  (length enc = ed_plen D /\ 1 <= be_val enc < nN D <-> ECC_Decode_PrivateKey D enc <> None) /\
  forall d Q, ECC_Decode_PrivateKey D enc = Some (d, Q) -> is_reg D d /\ val_le 32 d = be_val enc /\ Q = ecc_pubkey D d /\ ECC_Encode_PrivateKey D d (ed_plen D) = Some enc.
Proof.
  intros D g enc DO B. split.
  - split.
    + intros (L & BD) N. pose proof (proj2 (dec_spec D g DO enc _ _ B) (conj L (conj BD (conj eq_refl eq_refl)))) as E. unfold ECC_Decode_PrivateKey in N. congruence.
    + intros N. unfold ECC_Decode_PrivateKey in N. destruct (ecc_dec_privkey D enc) as [[d Q]|] eqn:E; [|congruence].
      apply (dec_spec D g DO enc d Q B) in E. tauto.
  - intros d Q E. apply (dec_spec D g DO enc d Q B) in E. destruct E as (L & BD & -> & ->).
    destruct (os_val D g DO enc B ltac:(lia)) as (R & V & _). split; [exact R|]. split; [exact V|]. split; [reflexivity|].
    rewrite (C55_ecc_encode D _ _ (proj1 R)), Nat.eqb_refl.
    change (val_le 32 (vlong_OS2IP (cv_w (ed_c D)) enc)) with (vval (vlong_OS2IP (cv_w (ed_c D)) enc)). rewrite V, <- L.
    now rewrite be_bytes_be_val.
Qed.
Print Assumptions C55_ecc_decode.
(** A generated key, stored and loaded, is the same key. *)
Theorem C55_ecc_generated : forall (D : ec_domain) (g : point) (rnd : list (list Z)) (d : list Z) (Q : ecp_xyz),
  domain_ok D g -> Forall bytes_ok rnd -> ecc_gen_privkey D rnd = Some (d, Q) ->
  exists enc, ECC_Encode_PrivateKey D d (ed_plen D) = Some enc /\ ECC_Decode_PrivateKey D enc = Some (d, Q).
Proof.
  intros D g rnd d Q DO F E. destruct (gen_spec D g DO rnd F d Q E) as (R & BD & ->).
  pose proof (C55_ecc_encode D d (ed_plen D) (proj1 R)) as EE. rewrite Nat.eqb_refl in EE. eexists. split; [exact EE|].
  exact (C55_ecc_round_trip D g d _ _ DO R BD EE).
Qed.
Print Assumptions C55_ecc_generated.

(* ---------------- EdDSA ---------------- *)
Lemma map_nth_id (l : list Z) : map (fun i => nthZ i l) (seq 0 (length l)) = l.
Proof.
  apply (nth_ext _ _ 0 0); [now rewrite map_length, seq_length|]. intros i Hi. rewrite map_length, seq_length in Hi.
  change (nth i (map (fun i => nthZ i l) (seq 0 (length l))) 0) with (nthZ i (map (fun i => nthZ i l) (seq 0 (length l)))). rewrite nthZ_map_seq by exact Hi. reflexivity.
Qed.
(** All octet strings of the right length are keys; the stored key is the string itself, and gives the same key again. *)
Theorem C55_eddsa : forall (D : eddsa_params) hash (enc : list Z),
  (EdDSA_Decode_PrivateKey D hash enc <> None <-> length enc = plen D) /\
  forall sk key, EdDSA_Decode_PrivateKey D hash enc = Some (sk, key) ->
    sk = enc /\ key = eddsa_privkey_reload D hash enc /\ (forall l, EdDSA_Encode_PrivateKey D sk l = if Nat.eqb l (plen D) then Some enc else None).
Proof.
  intros D hash enc. unfold EdDSA_Decode_PrivateKey. cbv zeta. rewrite map_nth_id.
  destruct (Nat.eqb_spec (length enc) (plen D)) as [L|L]; cbn [negb]; (split; [split; congruence|]); [|discriminate].
  intros sk key E. assert (S1 : sk = enc) by congruence. assert (K : key = eddsa_privkey_reload D hash enc) by congruence. subst sk key. split; [reflexivity|]. split; [reflexivity|].
  intros l. unfold EdDSA_Encode_PrivateKey. destruct (Nat.eqb_spec l (plen D)) as [->|]; [|reflexivity]. cbn [negb]. rewrite <- L, map_nth_id. reflexivity.
Qed.
Print Assumptions C55_eddsa.

(* ---------------- XECDH ---------------- *)
Lemma scalar_idem c n : rfc_scalar c (rfc_scalar c n) = rfc_scalar c n.
Proof.
  unfold rfc_scalar. destruct (mt_a c =? 486662).
  - unfold rfc_scalar25519. set (m := (n / 8) mod 2 ^ 251). pose proof (Z.mod_pos_bound (n / 8) (2 ^ 251) ltac:(lia)) as B. fold m in B. clearbody m. clear n.
    replace (2 ^ 254 + 8 * m) with ((2 ^ 251 + m) * 8) at 1 by (change (2 ^ 254) with (8 * 2 ^ 251); ring). rewrite Z.div_mul by lia.
    replace (2 ^ 251 + m) with (m + 1 * 2 ^ 251) by ring. rewrite Z_mod_plus_full, Z.mod_small by exact B. reflexivity.
  - unfold rfc_scalar448. set (m := (n / 4) mod 2 ^ 445). pose proof (Z.mod_pos_bound (n / 4) (2 ^ 445) ltac:(lia)) as B. fold m in B. clearbody m. clear n.
    replace (2 ^ 447 + 4 * m) with ((2 ^ 445 + m) * 4) at 1 by (change (2 ^ 447) with (4 * 2 ^ 445); ring). rewrite Z.div_mul by lia.
    replace (2 ^ 445 + m) with (m + 1 * 2 ^ 445) by ring. rewrite Z_mod_plus_full, Z.mod_small by exact B. reflexivity.
Qed.
Lemma scalar_bound c n : mt_lib c -> 0 <= rfc_scalar c n < 2 ^ (8 * Z.of_nat (mt_sslen c)).
Proof.
  intros [->|E]; [|subst c]; unfold rfc_scalar; cbn [mt_a Curve25519 Curve448 Z.eqb Pos.eqb mt_sslen].
  - pose proof (scalar25519_bound n) as B. change (8 * Z.of_nat 32) with 256. split; [apply B|]. eapply Z.lt_trans; [apply B|]. apply Z.pow_lt_mono_r; lia.
  - pose proof (scalar448_bound n) as B. change (8 * Z.of_nat 56) with 448. exact B.
Qed.
Lemma gen_len c sk : mt_lib c -> octets (mt_sslen c) sk -> length (gen_scl_k c sk) = mt_w c.
Proof.
  intros LC O1. assert (B : bytes_ok (clamp c sk)) by (destruct LC as [->|E]; [|subst c]; [exact (proj1 (clamp25519_val sk O1))|exact (proj1 (clamp448_val sk O1))]).
  exact (proj1 (proj2 (DecLSB_spec (mt_w c) _ B))).
Qed.
(** A loaded key is stored as its scalar, clamped as RFC 7748 says, in little-endian octets; loading these gives the same
    scalar and public key, though not the octets first loaded unless these had been clamped. *)
Theorem C55_xecdh : forall (c : mt_curve) (sk k K : list Z) (l : nat), mt_lib c -> octets (mt_sslen c) sk ->
  XECDH_Decode_PrivateKey c sk = Some (k, K) ->
  XECDH_Encode_PrivateKey c k l = (if Nat.eqb l (mt_sslen c) then Some (le_bytes (mt_sslen c) (rfc_scalar c (le_val sk))) else None) /\
  XECDH_Decode_PrivateKey c (le_bytes (mt_sslen c) (rfc_scalar c (le_val sk))) = Some (k, K).
Proof.
  intros c sk k K l LC OS E. destruct (C51_private_key c sk LC OS) as (W & V & _).
  unfold XECDH_Decode_PrivateKey in *. rewrite (proj1 OS), Nat.eqb_refl in E. cbn [negb] in E.
  assert (EK : XECDH_Keygen c sk = (k, K)) by congruence. clear E. unfold XECDH_Keygen in EK. cbv zeta in EK.
  assert (K1 : k = gen_scl_k c sk) by congruence. assert (K2 : K = ecMt_point_scale c (gen_scl_k c sk) (mt_u c :: repeat 0 (mt_w c - 1))) by congruence. clear EK. subst k K.
  split.
  - unfold XECDH_Encode_PrivateKey. destruct (Nat.eqb_spec l (mt_sslen c)) as [->|]; [|reflexivity]. cbn [negb].
    rewrite (EncLSB_spec _ _ W). change (vval (gen_scl_k c sk)) with (val_le 32 (gen_scl_k c sk)). rewrite V. reflexivity.
  - assert (O2 : octets (mt_sslen c) (le_bytes (mt_sslen c) (rfc_scalar c (le_val sk)))) by (split; [apply to_le_length|apply le_bytes_ok]).
    rewrite (proj1 O2), Nat.eqb_refl. cbn [negb]. unfold XECDH_Keygen. cbv zeta.
    destruct (C51_private_key c _ LC O2) as (W2 & V2 & _). rewrite le_val_le_bytes, (Z.mod_small _ _ (scalar_bound c (le_val sk) LC)), scalar_idem in V2.
    assert (EQ : gen_scl_k c (le_bytes (mt_sslen c) (rfc_scalar c (le_val sk))) = gen_scl_k c sk).
    { apply (val_le_inj 32); [lia|exact W2|exact W|now rewrite !gen_len by assumption|exact (eq_trans V2 (eq_sym V))]. }
    rewrite EQ. reflexivity.
Qed.
Print Assumptions C55_xecdh.
Theorem C55_xecdh_lengths : forall (c : mt_curve) (sk : list Z), XECDH_Decode_PrivateKey c sk <> None <-> length sk = mt_sslen c.
Proof. intros c sk. unfold XECDH_Decode_PrivateKey. destruct (Nat.eqb_spec (length sk) (mt_sslen c)); cbn [negb]; split; congruence. Qed.
Print Assumptions C55_xecdh_lengths.

(* ---------------- the hypotheses are met ---------------- *)
Example C55_demo : ECC_Encode_PrivateKey demoD [3; 0; 0] 1 = Some [3] /\ ECC_Encode_PrivateKey demoD [3; 0; 0] 2 = None /\
  ECC_Decode_PrivateKey demoD [3] = Some ([3; 0; 0], ecc_pubkey demoD [3; 0; 0]) /\ ECC_Decode_PrivateKey demoD [23] = None /\ ECC_Decode_PrivateKey demoD [0] = None.
Proof.
  split; [vm_compute; reflexivity|]. split; [vm_compute; reflexivity|]. split; [|split; vm_compute; reflexivity].
  apply (C55_ecc_round_trip demoD (Aff 9 13) [3; 0; 0] [3] 1 demo_ok (reg3' 3 ltac:(lia))); [split; vm_compute; congruence|vm_compute; reflexivity].
Qed.
Example C55_xecdh_demo : octets (mt_sslen Curve25519) (repeat 255 32) /\
  exists k K, XECDH_Decode_PrivateKey Curve25519 (repeat 255 32) = Some (k, K) /\ XECDH_Encode_PrivateKey Curve25519 k 32 = Some (248 :: repeat 255 30 ++ [127]).
Proof.
  assert (O1 : octets (mt_sslen Curve25519) (repeat 255 32)) by (split; [reflexivity|]; apply Forall_forall; intros x H; apply repeat_spec in H; subst; unfold byte_ok; lia).
  split; [exact O1|]. eexists _, _. split; [unfold XECDH_Decode_PrivateKey; rewrite (proj1 O1), Nat.eqb_refl; cbn [negb]; unfold XECDH_Keygen; reflexivity|]. vm_compute. reflexivity.
Qed.
