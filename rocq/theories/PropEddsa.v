(** C39 (EdDSA after RFC 8032) and the EdDSA part of C40 (verdicts). *)
From Coq Require Import Znumtheory Setoid.
From Verif Require Import MdLemmas Base Vlong VlongLemmas VlongDivLemmas VlongMulLemmas EcMod EcModLemmas EcFieldLemmas EcExpLemmas EcCurveLemmas EcSpec EcGroupLemmas EcpXyz ScaleLemmas EcpScaleLemmas Fermat EdSpec EdCert EdGroupLemmas EcEd EdLemmas EdScaleLemmas EdCompleteLemmas CurvePrimes PolyLemmas Der DerLemmas OctetLemmas EcMt PropEd EddsaSpec EdDsa EdDsaLemmas EdDsaDecLemmas EdDsaPointLemmas EdMulLemmas EdDsaSigLemmas OrderPrimes EdOrder EdDsaRfcLemmas.

(** The library's two parameter sets against the numbers of RFC 8032: [rfc_of]. *)
Theorem C39_parameters : forall D C, rfc_of D C ->
  rc_p C = vval (ed_p (dp_c D)) /\ rc_a C = ed_a (dp_c D) /\ rc_d1 C = ed_over (dp_c D) /\ rc_d2 C = ed_under (dp_c D) /\
  rc_B C = (vval (ex (dp_B D)), vval (ey (dp_B D))) /\ rc_L C = vval (ed_L (dp_c D)) /\ rc_b C = plen D.
Proof. intros D C H. destruct (rfc_of_match D C H). tauto. Qed.

(** The key: the secret scalar is the clamped digest and the public key the encoding of [s]B. *)
Theorem C39_key : forall D C hash sk PA, rfc_of D C -> octet_hash hash ->
  rfc_times C (rfc_s C hash sk) (rc_B C) PA -> generic C PA ->
  let K := eddsa_privkey_reload D hash sk in
  vval (ek_s K) = rfc_s C hash sk /\ EdDSA_Encode_PublicKey D (ek_A K) = rfc_enc C PA.
Proof.
  intros D C hash sk PA HDC HH EA GA. cbv zeta. destruct (key_spec D C HDC hash HH sk) as (_ & _ & V & _ & PA' & E' & O' & A'). split; [exact V|].
  apply (times_eq D C HDC) in EA. rewrite (base_eq D C HDC) in EA. pose proof (rfc_of_lib D C HDC) as HD. destruct (base_ok D HD) as [CB _].
  pose proof (mul_det D C HDC _ _ _ _ CB E' EA) as Q. unfold generic in GA. rewrite (rm_p _ _ (M0 D C HDC)) in GA.
  apply (enc_eq D C HDC); [now apply (aff_pt D HD _ PA')|now apply (ed_on_eq _ _ _ _ PA')|apply GA|apply GA].
Qed.

(** Signing: octet for octet the signature of RFC 8032, plain and with context (F = 0) and prehashed (F = 1). *)
Theorem C39_sign : forall D C hash sk ctx M PA PR, rfc_of D C -> octet_hash hash ->
  rfc_times C (rfc_s C hash sk) (rc_B C) PA -> rfc_times C (rfc_r C hash sk 0 ctx M) (rc_B C) PR -> generic C PA -> generic C PR ->
  EdDSA_Encode_Signature D (EdDSA_Sign D hash (eddsa_privkey_reload D hash sk) ctx M) = rfc_signature C hash PA PR sk 0 ctx M.
Proof. intros. now apply sig_spec. Qed.
Theorem C39_sign_prehashed : forall D C hash sk ctx M PA PR, rfc_of D C -> octet_hash hash ->
  rfc_times C (rfc_s C hash sk) (rc_B C) PA -> rfc_times C (rfc_r C hash sk 1 ctx (hash M 64%nat)) (rc_B C) PR -> generic C PA -> generic C PR ->
  EdDSA_Encode_Signature D (EdDSA_IncSign D hash (eddsa_privkey_reload D hash sk) ctx M) = rfc_signature C hash PA PR sk 1 ctx (hash M 64%nat).
Proof. intros. now apply sig_spec. Qed.

(** Decoding an encoded point with y below p: what is decoded is the point RFC 8032 decodes; every point of the
    curve but the two with x = 0 is decoded; re-encoding gives the octets back. *)
Theorem C39_decode : forall D C enc, rfc_of D C -> bytes_ok enc -> length enc = rc_b C -> canonical_y C enc ->
  (forall q, EdDSA_Decode_PublicKey D enc = Some q -> exists Q, rfc_decodes C enc Q /\ ed_holds (dp_c D) q Q /\ EdDSA_Encode_PublicKey D q = enc) /\
  (forall Q, rfc_decodes C enc Q -> fst Q <> 0 -> exists q, EdDSA_Decode_PublicKey D enc = Some q).
Proof.
  intros D C enc HDC B Ln CY. pose proof (rfc_of_lib D C HDC) as HD. assert (E : forall o, EdDSA_Decode_PublicKey D enc = o <-> eddsa_point_dec D enc = o).
  { intros o. unfold EdDSA_Decode_PublicKey. rewrite <- (rm_b _ _ (M0 D C HDC)), (proj2 (Nat.eqb_eq _ _)) by now symmetry. reflexivity. }
  split.
  - intros q Eq. apply E in Eq. destruct (dec_rfc D C HDC enc q B Ln CY Eq) as (Q & D1 & A1 & O1 & E1). exists Q. split; [exact D1|]. split; [now apply (aff_holds D HD)|exact E1].
  - intros Q DQ N. destruct (dec_rfc_complete D C HDC enc Q B Ln DQ N) as (q & Eq & _). exists q. now apply E.
Qed.
Theorem C39_decode_length : forall D C enc, rfc_of D C -> length enc <> rc_b C -> EdDSA_Decode_PublicKey D enc = None.
Proof.
  intros D C enc HDC N. unfold EdDSA_Decode_PublicKey. rewrite <- (rm_b _ _ (M0 D C HDC)), (proj2 (Nat.eqb_neq _ _)) by (intros X; apply N; now symmetry). reflexivity.
Qed.

(** Verification. *)
Theorem C39_verify_sound : forall D C hash pk A sig ctx M, rfc_of D C -> octet_hash hash -> bytes_ok pk -> bytes_ok sig ->
  canonical_y C pk -> canonical_y C (firstn (rc_b C) sig) ->
  EdDSA_Decode_PublicKey D pk = Some A -> fst (EdDSA_Verify D hash (eddsa_load D A sig) ctx M) = true ->
  length sig = (2 * rc_b C)%nat /\ le_val (skipn (rc_b C) sig) < rc_L C /\
  exists PA PR, rfc_decodes C pk PA /\ rfc_decodes C (firstn (rc_b C) sig) PR /\
    rfc_equation C PA PR (le_val (skipn (rc_b C) sig)) (rfc_k C hash pk (firstn (rc_b C) sig) 0 ctx M).
Proof.
  intros D C hash pk A sig ctx M HDC HH B1 B2 C1 C2 EA V. unfold EdDSA_Decode_PublicKey in EA. destruct (plen D =? length pk)%nat eqn:E; [|discriminate]. apply Nat.eqb_eq in E. cbn [negb] in EA.
  apply (verify_sound D C HDC hash HH pk sig ctx M A); auto. now rewrite (rm_b _ _ (M0 D C HDC)).
Qed.
Theorem C39_verify_complete : forall D C hash pk sig ctx M PA PR, rfc_of D C -> octet_hash hash -> bytes_ok pk -> length pk = rc_b C ->
  bytes_ok sig -> length sig = (2 * rc_b C)%nat ->
  rfc_decodes C pk PA -> fst PA <> 0 -> rfc_decodes C (firstn (rc_b C) sig) PR -> fst PR <> 0 -> le_val (skipn (rc_b C) sig) < rc_L C ->
  rfc_equation C PA PR (le_val (skipn (rc_b C) sig)) (rfc_k C hash pk (firstn (rc_b C) sig) 0 ctx M) ->
  (forall SB, rfc_times C (le_val (skipn (rc_b C) sig)) (rc_B C) SB -> generic C SB) ->
  exists A, EdDSA_Decode_PublicKey D pk = Some A /\ fst (EdDSA_Verify D hash (eddsa_load D A sig) ctx M) = true.
Proof.
  intros D C hash pk sig ctx M PA PR HDC HH B1 L1 B2 L2 D1 N1 D2 N2 HS EQ G.
  destruct (verify_complete D C HDC hash HH pk sig ctx M PA PR B1 L1 B2 L2 D1 N1 D2 N2 HS EQ G) as (A & EA & V). exists A. split; [|exact V].
  unfold EdDSA_Decode_PublicKey. rewrite <- (rm_b _ _ (M0 D C HDC)), (proj2 (Nat.eqb_eq _ _)) by now symmetry. exact EA.
Qed.
(** The second half of a signature must be below L, and the length right. *)
Theorem C39_S_range : forall D C hash A sig ctx M, rfc_of D C -> bytes_ok sig ->
  rc_L C <= le_val (skipn (rc_b C) sig) \/ length sig <> (2 * rc_b C)%nat ->
  EdDSA_Decode_Signature D sig = None /\ fst (EdDSA_Verify D hash (eddsa_load D A sig) ctx M) = false.
Proof.
  intros D C hash A sig ctx M HDC B H. rewrite (load_fst D hash). destruct (EdDSA_Decode_Signature D sig) as [r|] eqn:E; [|split; reflexivity].
  destruct (decode_sig_range D C HDC sig r B E) as [E1 E2]. lia.
Qed.

(** The base point of Ed25519 has the prime order L. *)
Theorem C39_order_25519 : rfc_order rfc_Ed25519.
Proof.
  split; [exact prime_L25519|]. assert (HDC : rfc_of dp_25519 rfc_Ed25519) by (left; split; reflexivity). pose proof (rfc_of_lib _ _ HDC) as HD. pose proof (M0 _ _ HDC) as M.
  pose proof (d_complete dp_25519 HD) as HC. pose proof (d_prime dp_25519 HD) as HP. pose proof (d_odd dp_25519 HD) as HO. destruct (base_ok dp_25519 HD) as [CB _].
  rewrite <- (base_eq _ _ HDC) in CB. rewrite <- (rm_p _ _ M), <- (rm_a _ _ M), <- (rm_d1 _ _ M), <- (rm_d2 _ _ M) in *. clear M HD HDC.
  unfold rfc_times. destruct (ed_mul_ex _ _ _ _ HP HO HC (rc_B rfc_Ed25519) (Z.to_nat (rc_L rfc_Ed25519)) CB) as (Z0 & E). exists Z0. split; [exact E|].
  apply (canE_ept _ HP HO). rewrite (ed_mul_smul _ _ _ _ HP HO HC _ _ _ CB E).
  assert (VB : evalid (rc_p rfc_Ed25519) (rc_a rfc_Ed25519) (rc_d1 rfc_Ed25519) (rc_d2 rfc_Ed25519) (rc_B rfc_Ed25519)).
  { split; [exact CB|]. split; (split; [apply Z.leb_le|apply Z.ltb_lt]; vm_compute; reflexivity). }
  rewrite (canE_id _ _ _ _ _ VB). transitivity (0, 1); [|symmetry; apply (canE_id _ 0 0 0 _ (id_valid _ 0 0 0 HP HO))].
  clear E. cbv [rc_p rc_a rc_d1 rc_d2 rc_L rc_B rfc_Ed25519] in *.
  exact (chain_ok (2 ^ 255 - 19) (-1) (-121665) 121666 HP HO HC red25519 red25519_ok B25519 VB chain25519 (2 ^ 252 + 27742317777372353535851937790883648493) (0, 1) chain25519_ok).
Qed.

(** What is signed verifies.  The base point's order is proved above for Ed25519 and is a hypothesis for Ed448. *)
Theorem C39_sign_verify : forall D C hash sk ctx M PA PR, rfc_of D C -> octet_hash hash -> rfc_order C ->
  rfc_times C (rfc_s C hash sk) (rc_B C) PA -> rfc_times C (rfc_r C hash sk 0 ctx M) (rc_B C) PR ->
  rfc_s C hash sk mod rc_L C <> 0 -> rfc_r C hash sk 0 ctx M <> 0 -> rfc_S C hash PA PR sk 0 ctx M <> 0 ->
  let K := eddsa_privkey_reload D hash sk in
  exists A, EdDSA_Decode_PublicKey D (EdDSA_Encode_PublicKey D (ek_A K)) = Some A /\
    fst (EdDSA_Verify D hash (eddsa_load D A (EdDSA_Encode_Signature D (EdDSA_Sign D hash K ctx M))) ctx M) = true.
Proof.
  intros D C hash sk ctx M PA PR HDC HH HL EA ER NA NR NS. cbv zeta. destruct (sign_verify D C HDC hash HH HL sk ctx M PA PR EA ER NA NR NS) as (A & EQ & V). exists A. split; [|exact V].
  destruct (C39_key D C hash sk PA HDC HH EA) as [_ EK]; [exact (times_generic D C HDC HL _ _ (s_nn D C HDC hash sk) NA EA)|].
  unfold EdDSA_Decode_PublicKey. rewrite EK, (proj1 (enc_shape C PA)), <- (rm_b _ _ (M0 D C HDC)), Nat.eqb_refl. cbn [negb]. rewrite <- EK. exact EQ.
Qed.

(** Ed25519 without hypotheses on the key: the clamped scalar is never a multiple of L. *)
Lemma clamped_not_multiple z : 0 <= z < 2 ^ 254 -> (2 ^ 254 + 8 * (z / 8)) mod (2 ^ 252 + 27742317777372353535851937790883648493) <> 0.
Proof.
  intros B E. set (l := 2 ^ 252 + 27742317777372353535851937790883648493) in *. assert (EL : l = 8 * (l / 8) + 5) by (vm_compute; reflexivity). assert (L1 : 2 ^ 252 < l) by (vm_compute; reflexivity).
  pose proof (Z.div_pos z 8 ltac:(lia) ltac:(lia)) as D1. pose proof (Z.div_mod z 8 ltac:(lia)) as D2. pose proof (Z.mod_pos_bound z 8 ltac:(lia)) as D3.
  apply Z.mod_divide in E; [|lia]. destruct E as [j Ej]. set (q := z / 8) in *. set (m := l / 8) in *. clearbody q m l.
  assert (J : 1 <= j < 8). { clear EL. change (2 ^ 254) with (4 * 2 ^ 252) in *. assert (0 < 2 ^ 252) by lia. set (w := 2 ^ 252) in *. clearbody w. nia. }
  assert (C : j = 1 \/ j = 2 \/ j = 3 \/ j = 4 \/ j = 5 \/ j = 6 \/ j = 7) by (clear -J; lia). clear D2 D3 B J L1.
  change (2 ^ 254) with (8 * 2 ^ 251) in Ej. set (w := 2 ^ 251) in Ej. clearbody w. destruct C as [->|[->|[->|[->|[->|[->| ->]]]]]]; lia.
Qed.
Lemma s25519_nz hash sk : rfc_s rfc_Ed25519 hash sk mod rc_L rfc_Ed25519 <> 0.
Proof. apply (clamped_not_multiple (le_val (firstn 32 (hash sk 64%nat)) mod 2 ^ 254)). apply Z.mod_pos_bound. reflexivity. Qed.

Theorem C39_ed25519 : forall hash sk ctx M PA PR, octet_hash hash ->
  rfc_times rfc_Ed25519 (rfc_s rfc_Ed25519 hash sk) (rc_B rfc_Ed25519) PA -> rfc_times rfc_Ed25519 (rfc_r rfc_Ed25519 hash sk 0 ctx M) (rc_B rfc_Ed25519) PR ->
  let K := eddsa_privkey_reload dp_25519 hash sk in
  EdDSA_Encode_PublicKey dp_25519 (ek_A K) = rfc_enc rfc_Ed25519 PA /\
  (rfc_r rfc_Ed25519 hash sk 0 ctx M <> 0 ->
     EdDSA_Encode_Signature dp_25519 (EdDSA_Sign dp_25519 hash K ctx M) = rfc_signature rfc_Ed25519 hash PA PR sk 0 ctx M) /\
  (rfc_r rfc_Ed25519 hash sk 0 ctx M <> 0 -> rfc_S rfc_Ed25519 hash PA PR sk 0 ctx M <> 0 ->
     exists A, EdDSA_Decode_PublicKey dp_25519 (rfc_enc rfc_Ed25519 PA) = Some A /\
       fst (EdDSA_Verify dp_25519 hash (eddsa_load dp_25519 A (rfc_signature rfc_Ed25519 hash PA PR sk 0 ctx M)) ctx M) = true).
Proof.
  intros hash sk ctx M PA PR HH EA ER. cbv zeta. assert (HDC : rfc_of dp_25519 rfc_Ed25519) by (left; split; reflexivity). pose proof C39_order_25519 as HL. pose proof (s25519_nz hash sk) as NA.
  pose proof (times_generic _ _ HDC HL _ _ (s_nn _ _ HDC hash sk) NA EA) as GA. destruct (C39_key _ _ hash sk PA HDC HH EA GA) as [_ EK]. split; [exact EK|].
  pose proof (prime_ge_2 _ (proj1 HL)) as L2. assert (BR : 0 <= rfc_r rfc_Ed25519 hash sk 0 ctx M < rc_L rfc_Ed25519) by (apply Z.mod_pos_bound; clear -L2; lia).
  assert (SG : rfc_r rfc_Ed25519 hash sk 0 ctx M <> 0 -> EdDSA_Encode_Signature dp_25519 (EdDSA_Sign dp_25519 hash (eddsa_privkey_reload dp_25519 hash sk) ctx M) = rfc_signature rfc_Ed25519 hash PA PR sk 0 ctx M).
  { intros NR. apply (C39_sign _ _ hash sk ctx M PA PR HDC HH EA ER GA). apply (times_generic _ _ HDC HL _ _ (proj1 BR)); [rewrite Z.mod_small by exact BR; exact NR|exact ER]. }
  split; [exact SG|]. intros NR NS. destruct (C39_sign_verify _ _ hash sk ctx M PA PR HDC HH HL EA ER NA NR NS) as (A & E1 & E2). exists A. rewrite EK in E1. rewrite (SG NR) in E2. tauto.
Qed.

(** Strictness fails: an encoding with y = p + 1 (not below p) is decoded. *)
Theorem C39_decode_strict_refuted : ~ (forall enc, bytes_ok enc -> length enc = rc_b rfc_Ed25519 -> (exists q, EdDSA_Decode_PublicKey dp_25519 enc = Some q) -> canonical_y rfc_Ed25519 enc).
Proof.
  intros H. assert (HDC : rfc_of dp_25519 rfc_Ed25519) by (left; split; reflexivity). pose proof (rfc_of_lib _ _ HDC) as HD. set (enc := le_bytes 32 (2 ^ 255 - 18)).
  assert (B : bytes_ok enc) by apply le_bytes_ok. assert (Ln : length enc = 32%nat) by apply le_bytes_length.
  assert (V : le_val enc = 2 ^ 255 - 18) by (vm_compute; reflexivity). clearbody enc. specialize (H enc B Ln).
  assert (X : exists q, EdDSA_Decode_PublicKey dp_25519 enc = Some q).
  { unfold EdDSA_Decode_PublicKey. change (plen dp_25519) with 32%nat. rewrite Ln. cbn [Nat.eqb negb]. rewrite dec_form. change (cond_p25519 dp_25519) with true. cbv iota.
    destruct (dec_y_spec dp_25519 HD enc B Ln) as (W & LL & VY). destruct (dec_par_spec dp_25519 HD enc B Ln) as [VP _]. rewrite V in VP, VY.
    set (y := dec_y dp_25519 enc) in *. clearbody y. change (8 * Z.of_nat (plen dp_25519) - 1) with 255 in VP. change (Z.of_nat (dp_bits dp_25519)) with 255 in VY.
    assert (P0 : dec_par dp_25519 enc = 0) by (rewrite VP; reflexivity). assert (Y0 : vval y = 2 ^ 255 - 18) by (rewrite VY; reflexivity).
    destruct (getx_25519_ok dp_25519 HD y (vval y) eq_refl W LL) as [_ G]; [rewrite Y0; apply Z.leb_le; vm_compute; reflexivity|reflexivity|].
    destruct G as (x & Gx); [rewrite Y0; apply eqm_by; [vm_compute; reflexivity|intros X0; revert X0; apply Z.eqb_neq; vm_compute; reflexivity]|]. rewrite Gx, P0. change (0 =? 1) with false. rewrite andb_false_r. eexists. reflexivity. }
  specialize (H X). unfold canonical_y in H. rewrite V in H. revert H. apply Z.le_ngt. apply Z.leb_le. vm_compute. reflexivity.
Qed.

Lemma decode_pk_dec D C enc A : rfc_of D C -> length enc = rc_b C -> EdDSA_Decode_PublicKey D enc = Some A -> eddsa_point_dec D enc = Some A.
Proof. intros HDC Ln. unfold EdDSA_Decode_PublicKey. rewrite <- (rm_b _ _ (M0 D C HDC)), Ln, Nat.eqb_refl. intros E. exact E. Qed.
(** A hash for the examples: the last octet of the message decides the digest. *)
Definition toy_hash (m : list Z) (k : nat) : list Z := repeat (if last m 0 =? 1 then 1 else 2) k.
Lemma toy_hash_ok : octet_hash toy_hash.
Proof.
  intros m k. unfold toy_hash. split; [|apply repeat_length]. apply Forall_forall. intros z Hz. apply repeat_spec in Hz. subst z. destruct (last m 0 =? 1); split; reflexivity || discriminate.
Qed.
Lemma toy_hash_end l z k : toy_hash (l ++ [z]) k = repeat (if z =? 1 then 1 else 2) k.
Proof. unfold toy_hash. now rewrite last_last. Qed.
Notation toy2 := (le_val (repeat 2 64) mod rc_L rfc_Ed25519).
Notation toy1 := (le_val (repeat 1 64) mod rc_L rfc_Ed25519).
Notation toys := (rfc_scalar rfc_Ed25519 (repeat 2 64)).
Lemma toy_r sk : rfc_r rfc_Ed25519 toy_hash sk 0 [] [0] = toy2.
Proof. unfold rfc_r. rewrite !app_assoc, toy_hash_end. reflexivity. Qed.
Lemma toy_k eA eR M : rfc_k rfc_Ed25519 toy_hash eA eR 0 [] [M] = le_val (repeat (if M =? 1 then 1 else 2) 64) mod rc_L rfc_Ed25519.
Proof. unfold rfc_k. rewrite !app_assoc, toy_hash_end. reflexivity. Qed.
Lemma toy_k0 eA eR : rfc_k rfc_Ed25519 toy_hash eA eR 0 [] [0] = toy2. Proof. exact (toy_k eA eR 0). Qed.
Lemma toy_k1 eA eR : rfc_k rfc_Ed25519 toy_hash eA eR 0 [] [1] = toy1. Proof. exact (toy_k eA eR 1). Qed.
Lemma toy_s : rfc_s rfc_Ed25519 toy_hash [] = toys.
Proof. reflexivity. Qed.
Lemma toy_numbers : (toy2 =? 0) = false /\ ((toy2 + toy2 * toys) mod rc_L rfc_Ed25519 =? 0) = false /\
  ((toy2 + toy2 * toys) mod rc_L rfc_Ed25519 =? (toy2 + toy1 * toys) mod rc_L rfc_Ed25519) = false.
Proof. vm_compute. split; [|split]; reflexivity. Qed.
Lemma toy_points : exists PA PR, rfc_times rfc_Ed25519 (rfc_s rfc_Ed25519 toy_hash []) (rc_B rfc_Ed25519) PA /\ rfc_times rfc_Ed25519 (rfc_r rfc_Ed25519 toy_hash [] 0 [] [0]) (rc_B rfc_Ed25519) PR /\
  rfc_r rfc_Ed25519 toy_hash [] 0 [] [0] <> 0 /\ rfc_S rfc_Ed25519 toy_hash PA PR [] 0 [] [0] <> 0.
Proof.
  assert (HDC : rfc_of dp_25519 rfc_Ed25519) by (left; split; reflexivity). pose proof (rfc_of_lib _ _ HDC) as HD. destruct (base_ok dp_25519 HD) as [CB _].
  destruct (ed_mul_ex _ _ _ _ (d_prime _ HD) (d_odd _ HD) (d_complete _ HD) _ (Z.to_nat (rfc_s rfc_Ed25519 toy_hash [])) CB) as (PA & EA).
  destruct (ed_mul_ex _ _ _ _ (d_prime _ HD) (d_odd _ HD) (d_complete _ HD) _ (Z.to_nat (rfc_r rfc_Ed25519 toy_hash [] 0 [] [0])) CB) as (PR & ER). rewrite <- (base_eq _ _ HDC) in EA, ER.
  exists PA, PR. split; [now apply (times_eq _ _ HDC)|]. split; [now apply (times_eq _ _ HDC)|]. unfold rfc_S. rewrite toy_r, toy_s, toy_k0.
  destruct toy_numbers as (N1 & N2 & _). apply Z.eqb_neq in N1, N2. split; [exact N1|exact N2].
Qed.
(** The hypotheses of C39_key, C39_sign, C39_sign_verify, C39_ed25519, C39_verify_complete, C39_verify_sound and C39_decode are met together. *)
Example C39_example : exists PA PR A, 
  rfc_times rfc_Ed25519 (rfc_s rfc_Ed25519 toy_hash []) (rc_B rfc_Ed25519) PA /\ generic rfc_Ed25519 PA /\ generic rfc_Ed25519 PR /\ canonical_y rfc_Ed25519 (rfc_enc rfc_Ed25519 PA) /\
  EdDSA_Decode_PublicKey dp_25519 (rfc_enc rfc_Ed25519 PA) = Some A /\
  fst (EdDSA_Verify dp_25519 toy_hash (eddsa_load dp_25519 A (rfc_signature rfc_Ed25519 toy_hash PA PR [] 0 [] [0])) [] [0]) = true.
Proof.
  destruct toy_points as (PA & PR & EA & ER & NR & NS). destruct (C39_ed25519 toy_hash [] [] [0] PA PR toy_hash_ok EA ER) as (_ & _ & V). destruct (V NR NS) as (A & E1 & E2). exists PA, PR, A.
  assert (HDC : rfc_of dp_25519 rfc_Ed25519) by (left; split; reflexivity). pose proof C39_order_25519 as HL. pose proof (prime_ge_2 _ (proj1 HL)) as L2.
  split; [exact EA|]. split; [exact (times_generic _ _ HDC HL _ _ (s_nn _ _ HDC toy_hash []) (s25519_nz toy_hash []) EA)|].
  assert (BR : 0 <= rfc_r rfc_Ed25519 toy_hash [] 0 [] [0] < rc_L rfc_Ed25519) by (apply Z.mod_pos_bound; clear -L2; lia).
  split; [apply (times_generic _ _ HDC HL _ _ (proj1 BR)); [rewrite Z.mod_small by exact BR; exact NR|exact ER]|].
  split; [exact (decodes_canonical _ _ _ (decodes_enc _ _ HDC PA (proj1 (times_on _ _ HDC _ _ EA))))|]. split; [exact E1|exact E2].
Qed.
(** A signature with S = L: rejected (hypothesis of C39_S_range). *)
Example C39_S_range_example : rc_L rfc_Ed25519 <= le_val (skipn (rc_b rfc_Ed25519) (repeat 0 32 ++ le_bytes 32 (rc_L rfc_Ed25519))).
Proof. apply Z.leb_le. vm_compute. reflexivity. Qed.

(** C40: an accepting context accepts every later message, whatever the signature says. *)
Theorem C40_eddsa_sticky : forall D hash x ctx M ctx' M', fst (EdDSA_Verify D hash x ctx M) = true ->
  fst (EdDSA_Verify D hash (snd (EdDSA_Verify D hash x ctx M)) ctx' M') = true.
Proof.
  intros D hash x ctx M ctx' M'. unfold EdDSA_Verify at 1 3. destruct (dx_status x =? 1) eqn:E1; [intros _; cbn [snd]; unfold EdDSA_Verify; now rewrite E1|].
  destruct (dx_status x =? -1); [discriminate|]. cbn [fst snd]. intros ->. reflexivity.
Qed.
Theorem C40_eddsa_verdict_refuted : ~ (forall hash x ctx M ctx' M', octet_hash hash -> fst (EdDSA_Verify dp_25519 hash x ctx M) = true ->
  fst (EdDSA_Verify dp_25519 hash (snd (EdDSA_Verify dp_25519 hash x ctx M)) ctx' M') = fst (EdDSA_Verify dp_25519 hash x ctx' M')).
Proof.
  intros H. destruct toy_points as (PA & PR & EA & ER & NR & NS). destruct (C39_ed25519 toy_hash [] [] [0] PA PR toy_hash_ok EA ER) as (_ & _ & V). destruct (V NR NS) as (A & E1 & E2).
  assert (HDC : rfc_of dp_25519 rfc_Ed25519) by (left; split; reflexivity). specialize (H toy_hash _ [] [0] [] [1] toy_hash_ok E2). rewrite C40_eddsa_sticky in H by exact E2. symmetry in H.
  assert (E1' : eddsa_point_dec dp_25519 (rfc_enc rfc_Ed25519 PA) = Some A).
  { exact (decode_pk_dec _ _ _ _ HDC (proj1 (enc_shape rfc_Ed25519 PA)) E1). }
  pose proof (other_digest _ _ HDC toy_hash toy_hash_ok C39_order_25519 [] [] [0] [1] PA PR A EA ER (s25519_nz toy_hash []) NR E1' H) as Q.
  rewrite toy_r, toy_s, toy_k0, toy_k1 in Q. destruct toy_numbers as (_ & _ & N). apply Z.eqb_neq in N. exact (N Q).
Qed.

Print Assumptions C39_parameters. Print Assumptions C39_key. Print Assumptions C39_sign. Print Assumptions C39_sign_prehashed. Print Assumptions C39_decode. Print Assumptions C39_decode_length.
Print Assumptions C39_verify_sound. Print Assumptions C39_verify_complete. Print Assumptions C39_S_range. Print Assumptions C39_order_25519. Print Assumptions C39_sign_verify. Print Assumptions C39_ed25519.
Print Assumptions C39_decode_strict_refuted. Print Assumptions C40_eddsa_sticky. Print Assumptions C40_eddsa_verdict_refuted.
