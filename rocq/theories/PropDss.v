(** C54: the octets of ECDSA and SM2 signatures.
    Specification: [der_dss r s] is the DER encoding of Ecdsa-Sig-Value ::= SEQUENCE { r INTEGER, s INTEGER } (SEC 1 C.5,
    GM/T 0009), from the DER of RsaDerSpec.v.  [UB]: octets outside of the signature are read. *)
From Coq Require Import Znumtheory.
From Verif Require Import Base Blocks Vlong VlongLemmas EcMod EcSpec EcGroupLemmas EcpXyz EcLawLemmas EcpScaleLemmas EcMulLemmas Der DerLemmas DerLemmas2 PropEcp
  Ecc EccSpec EccLemmas EccSigLemmas EccRunLemmas PropEcc PropEccSig RsaDerSpec RsaDer RsaDerLemmas RsaDerLemmas2 RsaDerLemmas3 DssCodec.

Definition der_dss (r s : Z) : list Z := der_seq (der_int r ++ der_int s).

(** the encoding is shorter than 2^56 octets *)
Lemma der_len_len n : 0 <= n < 2 ^ 56 -> (length (der_len n) <= 8)%nat.
Proof.
  intros H. unfold der_len. destruct (_ <? _) eqn:E; [cbn; lia|]. apply Z.ltb_ge in E. cbv zeta. cbn [length]. rewrite be_bytes_length.
  assert (Z.log2 n < 56) by (apply Z.log2_lt_pow2; lia). pose proof (Z.log2_nonneg n).
  assert (Z.log2 n / 8 < 7) by (apply Z.div_lt_upper_bound; lia). assert (0 <= Z.log2 n / 8) by (apply Z.div_pos; lia). lia.
Qed.
Lemma der_int_reg w : reg w -> Z.of_nat (length (der_int (val_le 32 w))) < 2 ^ 36.
Proof.
  intros R. rewrite der_int_length. pose proof R as (W & L).
  assert (B : Z.of_nat (length (int_contents (val_le 32 w))) <= 2 ^ 34 + 1).
  { rewrite (proj2 (int_octets_small w R)). destruct (int_octets_spec w W) as (H1 & H2 & H3). pose proof (vval_bound w W) as VB.
    destruct H3 as [->|H3]; [lia|].
    destruct (Z_le_gt_dec (Z.of_nat (int_octets w)) (2 ^ 34 + 1)) as [?|G]; auto. exfalso.
    assert (2 ^ (32 * Z.of_nat (length w)) <= 2 ^ (8 * (Z.of_nat (int_octets w) - 1) - 1)) by (apply Z.pow_le_mono_r; lia). lia. }
  pose proof (der_len_len (Z.of_nat (length (int_contents (val_le 32 w)))) ltac:(lia)). lia.
Qed.
Lemma der_dss_len r s : Z.of_nat (length (der_int r)) < 2 ^ 40 -> Z.of_nat (length (der_int s)) < 2 ^ 40 -> Z.of_nat (length (der_dss r s)) < 2 ^ 56.
Proof.
  intros A B. unfold der_dss, der_seq, der_tlv. cbn [length]. rewrite app_length.
  assert (L : Z.of_nat (length (der_int r ++ der_int s)) < 2 ^ 41) by (rewrite app_length; lia).
  pose proof (der_len_len (Z.of_nat (length (der_int r ++ der_int s))) ltac:(lia)). lia.
Qed.
Lemma reg_len w : reg w -> Z.of_nat (length (der_int (val_le 32 w))) < 2 ^ 40.
Proof. intros H. pose proof (der_int_reg w H). lia. Qed.

(* ---------------- encoding ---------------- *)
(** The announced length is that of the DER encoding; a buffer of at least that length has the encoding at its start and
    the rest as it was; a smaller one gives NULL.  Registers r, s of any width. *)
Theorem C54_encode : forall x : ecc_ctx, reg (e_r x) -> reg (e_s x) ->
  let D := der_dss (val_le 32 (e_r x)) (val_le 32 (e_s x)) in
  Encode_Signature_len x = Ret (Some (length D)) /\
  forall buf : list Z,
    ((length D <= length buf)%nat -> Encode_Signature x buf = Ret (Some (D ++ skipn (length D) buf))) /\
    ((length buf < length D)%nat -> Encode_Signature x buf = Ret None).
Proof.
  intros x Hr Hs D. pose proof (der_dss_len _ _ (reg_len _ Hr) (reg_len _ Hs)) as HL.
  destruct (pub_writes (e_r x) (e_s x) Hr Hs HL) as (W0 & W1).
  change (der_RSAPublicKey (val_le 32 (e_r x)) (val_le 32 (e_s x))) with D in *. clearbody D.
  change (ber_tlv_encode_RSAPublicKey (e_r x) (e_s x)) with (ber_tlv_ecc_encode_dss_signature x) in *.
  split; [unfold Encode_Signature_len; rewrite W0; reflexivity|]. intros buf. unfold Encode_Signature. rewrite W0. cbn [bind].
  split; intros L.
  - destruct (Nat.ltb_spec (length buf) (length D)); [lia|]. rewrite W1. destruct (Nat.ltb_spec (length buf) (length D)); [lia|reflexivity].
  - destruct (Nat.ltb_spec (length buf) (length D)); [reflexivity|lia].
Qed.
Print Assumptions C54_encode.

(* ---------------- decoding ---------------- *)
(** integers of any size with encodings of fewer than 2^40 octets, whatever follows: r and s modulo the register width *)
Lemma decode_spec wd x r s rest : 0 <= r -> 0 <= s -> Z.of_nat (length (der_int r)) < 2 ^ 40 -> Z.of_nat (length (der_int s)) < 2 ^ 40 ->
  exists rw sw, Decode_Signature wd x (der_dss r s ++ rest) = Ret (true, load_signature x rw sw) /\
    (words_ok rw /\ length rw = wd /\ val_le 32 rw = r mod 2 ^ (32 * Z.of_nat wd)) /\
    (words_ok sw /\ length sw = wd /\ val_le 32 sw = s mod 2 ^ (32 * Z.of_nat wd)).
Proof.
  intros Hr Hs Lr Ls. pose proof (der_int_len r) as Cr. pose proof (der_int_len s) as Cs.
  destruct (int_contents_uint r Hr) as (Br & _ & Vr & _). destruct (int_contents_uint s Hs) as (Bs & _ & Vs & _).
  destruct (OS2IP_spec wd _ Br) as (R1 & R2 & R3). destruct (OS2IP_spec wd _ Bs) as (S1 & S2 & S3). rewrite Vr in R3. rewrite Vs in S3.
  exists (vlong_OS2IP wd (int_contents r)), (vlong_OS2IP wd (int_contents s)).
  split; [|split; (split; [assumption|split; [assumption|assumption]])].
  unfold Decode_Signature, ber_tlv_ecc_decode_dss_signature, der_dss.
  rewrite get_hdr_seq by (rewrite app_length; lia). cbv beta iota. rewrite <- app_assoc, der_int_contents, get_hdr_int by lia. cbv beta iota.
  rewrite firstn_app_exact, skipn_app_exact by reflexivity. cbv zeta. rewrite der_int_contents, get_hdr_int by lia. cbv beta iota.
  rewrite firstn_app_exact by reflexivity. reflexivity.
Qed.
(** A DER signature is decoded to its integers if they fit into the registers, and the context has no verdict yet. *)
Theorem C54_decode : forall (wd : nat) (x : ecc_ctx) (r s : Z) (rest : list Z), Z.of_nat wd < 2 ^ 32 ->
  0 <= r < 2 ^ (32 * Z.of_nat wd) -> 0 <= s < 2 ^ (32 * Z.of_nat wd) ->
  exists rw sw, Decode_Signature wd x (der_dss r s ++ rest) = Ret (true, load_signature x rw sw) /\
    (words_ok rw /\ length rw = wd /\ val_le 32 rw = r) /\ (words_ok sw /\ length sw = wd /\ val_le 32 sw = s).
Proof.
  intros wd x r s rest HW Hr Hs.
  assert (E : forall v, 0 <= v < 2 ^ (32 * Z.of_nat wd) -> exists w, reg w /\ v = val_le 32 w).
  { intros v Hv. destruct (OS2IP_spec wd (be_bytes (4 * wd) v) (be_bytes_ok _ _)) as (W1 & W2 & W3).
    exists (vlong_OS2IP wd (be_bytes (4 * wd) v)). split; [split; [exact W1|lia]|]. fold (vval (vlong_OS2IP wd (be_bytes (4 * wd) v))). rewrite W3.
    rewrite be_val_be_bytes, Nat2Z.inj_mul. change (Z.of_nat 4) with 4. replace (8 * (4 * Z.of_nat wd)) with (32 * Z.of_nat wd) by ring.
    rewrite Zmod_mod. symmetry. now apply Z.mod_small. }
  destruct (E r Hr) as (r0 & Rr & Er). destruct (E s Hs) as (s0 & Rs & Es).
  destruct (decode_spec wd x r s rest ltac:(lia) ltac:(lia)) as (rw & sw & D & (A1 & A2 & A3) & (B1 & B2 & B3)).
  { rewrite Er. now apply reg_len. } { rewrite Es. now apply reg_len. }
  rewrite Z.mod_small in A3, B3 by assumption. exists rw, sw. auto 10.
Qed.
Print Assumptions C54_decode.

Lemma reg_unique a b : words_ok a -> words_ok b -> length a = length b -> val_le 32 a = val_le 32 b -> a = b.
Proof. intros. apply (val_le_inj 32); auto; lia. Qed.
(** encoding, then decoding in any context *)
Lemma roundtrip wd x y buf sig : Z.of_nat wd < 2 ^ 32 -> words_ok (e_r x) /\ length (e_r x) = wd -> words_ok (e_s x) /\ length (e_s x) = wd ->
  Encode_Signature x buf = Ret (Some sig) -> Decode_Signature wd y sig = Ret (true, load_signature y (e_r x) (e_s x)).
Proof.
  intros HW (R1 & R2) (S1 & S2) E.
  assert (Rr : reg (e_r x)) by (split; [exact R1|lia]). assert (Rs : reg (e_s x)) by (split; [exact S1|lia]).
  destruct (C54_encode x Rr Rs) as (_ & W). destruct (W buf) as (W1 & W2).
  destruct (Nat.lt_ge_cases (length buf) (length (der_dss (val_le 32 (e_r x)) (val_le 32 (e_s x))))) as [L|L]; [rewrite W2 in E by exact L; discriminate|].
  rewrite W1 in E by exact L. apply Ret_inj in E. injection E as <-.
  pose proof (vval_bound _ R1) as B1. pose proof (vval_bound _ S1) as B2. rewrite R2 in B1. rewrite S2 in B2.
  destruct (C54_decode wd y (val_le 32 (e_r x)) (val_le 32 (e_s x)) (skipn (length (der_dss (val_le 32 (e_r x)) (val_le 32 (e_s x)))) buf) HW B1 B2) as (rw & sw & E & (A1 & A2 & A3) & (A4 & A5 & A6)).
  etransitivity; [exact E|]. rewrite (reg_unique rw (e_r x)), (reg_unique sw (e_s x)) by (auto; congruence). reflexivity.
Qed.

(** ECDSA end to end: what is signed and encoded, in a buffer of any sufficient size, is accepted by whoever decodes the
    whole buffer and holds the public key (r in [1, n-1]: see C37). *)
Theorem C54_ecdsa_end_to_end : forall (D : ec_domain) (g : point) hash (x x' y : ecc_ctx) (Q : point) (msg : list Z) (rnd : list (list Z)) (buf sig : list Z),
  domain_ok D g -> Z.of_nat (cv_w (ed_c D)) < 2 ^ 32 -> has_private D g x Q -> has_public D y Q -> octet_hash hash -> Forall bytes_ok rnd ->
  ECDSA_Sign D hash x msg rnd = Some x' -> 1 <= val_le 32 (e_r x') < nN D ->
  Encode_Signature x' buf = Ret (Some sig) ->
  exists y', Decode_Signature (cv_w (ed_c D)) y sig = Ret (true, y') /\ snd (ECDSA_Verify D hash y' msg) = true.
Proof.
  intros D g hash x x' y Q msg rnd buf sig DO HW PR PU OH F ES BR EE. exists (load_signature y (e_r x') (e_s x')). split.
  - destruct PR as ((W & L) & BD & _).
    destruct (sign_inv D g DO _ _ _ _ _ F ES) as (k & R & RK & BK & HR & ERS & _).
    destruct (hash_ok D (hash msg) (OH msg)) as [BH LH].
    pose proof (rs_val D g DO (e_d x) k R _ (conj W L) BK RK ltac:(apply BD) HR BH LH) as V. rewrite <- ERS in V. destruct V as (_ & Rr & Rs & _).
    now apply (roundtrip _ x' y buf).
  - exact (C37_sign_verify_partial D g hash x x' y Q msg rnd DO PR PU OH F ES BR).
Qed.
Print Assumptions C54_ecdsa_end_to_end.

(** SM2 likewise (nonces with x-coordinate 0 excluded: see C38). *)
Theorem C54_sm2_end_to_end : forall (D : ec_domain) (g : point) hash (uinfo : list Z) (x x' y : ecc_ctx) (Q : point) (msg : list Z) (rnd : list (list Z)) (xk yk : Z) (buf sig : list Z),
  domain_ok D g -> Z.of_nat (cv_w (ed_c D)) < 2 ^ 32 -> 2 < nN D -> has_private D g x Q -> has_public D y Q -> octet_hash hash -> Forall bytes_ok rnd ->
  SM2SIG_Sign D hash uinfo x msg rnd = Some x' ->
  ec_mul (pP D) (aA D) g (Z.to_nat (val_le 32 (e_k x'))) (Aff xk yk) -> ~ eqm (pP D) xk 0 ->
  Encode_Signature x' buf = Ret (Some sig) ->
  exists y', Decode_Signature (cv_w (ed_c D)) y sig = Ret (true, y') /\ snd (SM2SIG_Verify D hash uinfo y' msg) = true.
Proof.
  intros D g hash uinfo x x' y Q msg rnd xk yk buf sig DO HW HN PR PU OH F ES EK NX EE. exists (load_signature y (e_r x') (e_s x')). split.
  - destruct PR as ((W & L) & BD & _).
    destruct (sm2_sign_inv D g DO _ _ _ (conj W L) _ _ F ES) as (k & R & RK & BK & HR & ER & ESs & _).
    destruct (hash_ok D (hash (uinfo ++ msg)) (OH _)) as [BH LH].
    destruct (sm2_r_val D g DO R _ _ HR BH LH) as (Rr & Vr). rewrite <- ER in Rr, Vr.
    assert (Br : val_le 32 (e_r x') < nN D). { change (val_le 32 (e_r x')) with (vval (e_r x')). rewrite Vr. apply Z.mod_pos_bound. clear - HN. lia. }
    destruct (sm2_s_val D g DO (e_d x) k (e_r x') (conj W L) RK Rr ltac:(apply BD) ltac:(apply BK) Br HN) as (Rs & _). rewrite <- ESs in Rs.
    now apply (roundtrip _ x' y buf).
  - exact (C38_sign_verify_partial D g hash uinfo x x' y Q msg rnd xk yk DO HN PR PU OH F ES EK NX).
Qed.
Print Assumptions C54_sm2_end_to_end.

(* ---------------- soundness of any octet string ---------------- *)
Lemma decode_regs wd x sig y : bytes_ok sig -> Decode_Signature wd x sig = Ret (true, y) ->
  exists rw sw, y = load_signature x rw sw /\ (words_ok rw /\ length rw = wd) /\ (words_ok sw /\ length sw = wd).
Proof.
  intros B. unfold Decode_Signature, ber_tlv_ecc_decode_dss_signature.
  assert (SUB : forall t p l q, get_hdr t p = Ret (Some (l, q)) -> bytes_ok p -> bytes_ok q).
  { intros t p l q E BP. unfold get_hdr in E. destruct (ber_get_hdr p) as [|[[[tag ln] pp]|]] eqn:H; cbn [bind] in E; try discriminate.
    destruct (tag =? TAG_UNI t); [|discriminate]. apply Ret_inj in E. injection E as _ <-.
    destruct (get_hdr_fits _ _ _ _ H) as (_ & pre & _ & ->). apply Forall_app in BP. apply BP. }
  destruct (get_hdr 16 sig) as [|[[l0 p0]|]] eqn:E0; try discriminate. pose proof (SUB _ _ _ _ E0 B) as B0.
  destruct (get_hdr 2 p0) as [|[[l1 p1]|]] eqn:E1; try discriminate. pose proof (SUB _ _ _ _ E1 B0) as B1. cbv zeta.
  destruct (get_hdr 2 (skipn l1 p1)) as [|[[l2 p2]|]] eqn:E2; try discriminate. pose proof (SUB _ _ _ _ E2 (Forall_skipn _ _ _ B1)) as B2.
  intros E. apply Ret_inj in E. injection E as <-.
  destruct (OS2IP_spec wd (firstn l1 p1)) as (R1 & R2 & _); [now apply Forall_firstn|].
  destruct (OS2IP_spec wd (firstn l2 p2)) as (S1 & S2 & _); [now apply Forall_firstn|].
  eexists _, _. split; [reflexivity|]. split; split; assumption.
Qed.
(** Whatever octets are decoded: acceptance means that some r, s form a valid signature of the message. *)
Theorem C54_ecdsa_sound : forall (D : ec_domain) (g : point) hash (x y : ecc_ctx) (Q : point) (sig msg : list Z),
  domain_ok D g -> has_public D x Q -> octet_hash hash -> bytes_ok sig ->
  Decode_Signature (cv_w (ed_c D)) x sig = Ret (true, y) -> snd (ECDSA_Verify D hash y msg) = true ->
  exists r s, ecdsa_valid (pP D) (aA D) (nN D) g Q (hash_int D hash msg) r s.
Proof.
  intros D g hash x y Q sig msg DO PU OH B E V. destruct (decode_regs _ _ _ _ B E) as (rw & sw & -> & Rr & Rs).
  exists (val_le 32 rw), (val_le 32 sw). exact (C37_verify_sound D g hash x Q rw sw msg DO PU OH Rr Rs V).
Qed.
Print Assumptions C54_ecdsa_sound.

(* ---------------- what fails ---------------- *)
(** Not only the valid pair (r, s) is accepted: INTEGERs are cut to the registers, so (r + a 2^w, s + b 2^w), w the register
    width in bits, is decoded to the same context; and so is anything followed by further octets. *)
Theorem C54_unique_encoding_refuted : forall (wd : nat) (x : ecc_ctx) (r s a b : Z) (rest : list Z), 0 <= r -> 0 <= s -> 0 <= a -> 0 <= b ->
  let r' := r + a * 2 ^ (32 * Z.of_nat wd) in let s' := s + b * 2 ^ (32 * Z.of_nat wd) in
  Z.of_nat (length (der_int r)) < 2 ^ 40 -> Z.of_nat (length (der_int s)) < 2 ^ 40 ->
  Z.of_nat (length (der_int r')) < 2 ^ 40 -> Z.of_nat (length (der_int s')) < 2 ^ 40 ->
  exists y, Decode_Signature wd x (der_dss r s) = Ret (true, y) /\ Decode_Signature wd x (der_dss r' s' ++ rest) = Ret (true, y).
Proof.
  intros wd x r s a b rest Hr Hs Ha Hb r' s' L1 L2 L3 L4. pose proof (Z.pow_pos_nonneg 2 (32 * Z.of_nat wd)) as PP.
  destruct (decode_spec wd x r s [] Hr Hs L1 L2) as (rw & sw & E & (A1 & A2 & A3) & (A4 & A5 & A6)). rewrite app_nil_r in E.
  destruct (decode_spec wd x r' s' rest) as (rw' & sw' & E' & (B1 & B2 & B3) & (B4 & B5 & B6)); [unfold r'; nia|unfold s'; nia|exact L3|exact L4|].
  exists (load_signature x rw sw). split; [exact E|]. rewrite E'.
  unfold r' in B3. unfold s' in B6. rewrite Z.mod_add in B3, B6 by lia.
  rewrite (reg_unique rw' rw), (reg_unique sw' sw) by (auto; congruence). reflexivity.
Qed.
Print Assumptions C54_unique_encoding_refuted.

(** NULL is returned for octets that are not a SEQUENCE, but the context is made ready to verify (status 0) with the previous
    signature in it: a context whose signature had been rejected, or whose public key had not decoded (status -1), answers anew. *)
Theorem C54_failed_decode_refuted : forall (wd : nat) (D : ec_domain) hash (x : ecc_ctx) (msg rest : list Z),
  exists y, Decode_Signature wd x (4 :: 0 :: rest) = Ret (false, y) /\
    snd (ECDSA_Verify D hash y msg) = snd (ECDSA_Verify D hash (load_signature x (e_r x) (e_s x)) msg).
Proof.
  intros wd D hash x msg rest. exists (set_status x 0). split; [|reflexivity].
  unfold Decode_Signature, ber_tlv_ecc_decode_dss_signature, get_hdr, ber_get_hdr.
  change (ber_get_tag (4 :: 0 :: rest)) with (Ret (2 ^ 31 + 4, 0 :: rest)). cbv iota. change (2 ^ 31 + 4 =? TAG_FAIL) with false. cbv iota.
  change (ber_get_len (0 :: rest)) with (Ret (0, rest)). cbv iota. change (0 =? LEN_FAIL) with false. cbv iota.
  destruct (Z.ltb_spec (Z.of_nat (length rest)) 0); [lia|]. cbn [bind]. change (2 ^ 31 + 4 =? TAG_UNI 16) with false. reflexivity.
Qed.
Print Assumptions C54_failed_decode_refuted.
(** Octets outside of the signature are read when it ends where a header is expected. *)
Theorem C54_reads_in_bounds_refuted : forall (wd : nat) (x : ecc_ctx),
  Decode_Signature wd x [] = UB /\ Decode_Signature wd x [0x30] = UB /\ Decode_Signature wd x [0x30; 0] = UB /\ Decode_Signature wd x [0x30; 3; 2; 1; 5] = UB.
Proof. intros. repeat split. Qed.
Print Assumptions C54_reads_in_bounds_refuted.

(* ---------------- the hypotheses are met ---------------- *)
(** the run of PropEccSig.v (d = 3, digest 7, k = 5: r = 19, s = 22), through octets *)
Example C54_example : Encode_Signature (load_signature demo_x [19; 0; 0] [200; 0; 0]) (repeat 9 10) = Ret (Some [0x30; 7; 2; 1; 19; 2; 2; 0; 200; 9]) /\
  Decode_Signature 3 demo_x [0x30; 7; 2; 1; 19; 2; 2; 0; 200; 9] = Ret (true, load_signature demo_x [19; 0; 0] [200; 0; 0]) /\
  Encode_Signature (load_signature demo_x [19; 0; 0] [200; 0; 0]) (repeat 9 8) = Ret None /\
  der_dss 19 200 = [0x30; 7; 2; 1; 19; 2; 2; 0; 200].
Proof. repeat split; vm_compute; reflexivity. Qed.
Lemma encodable D g hash x x' Q msg rnd : domain_ok D g -> Z.of_nat (cv_w (ed_c D)) < 2 ^ 32 -> has_private D g x Q -> octet_hash hash -> Forall bytes_ok rnd ->
  ECDSA_Sign D hash x msg rnd = Some x' -> exists buf sig, Encode_Signature x' buf = Ret (Some sig).
Proof.
  intros DO HW PR OH F ES. destruct PR as ((W & L) & BD & _).
  destruct (sign_inv D g DO _ _ _ _ _ F ES) as (k & R & RK & BK & HR & ERS & _).
  destruct (hash_ok D (hash msg) (OH msg)) as [BH LH].
  pose proof (rs_val D g DO (e_d x) k R _ (conj W L) BK RK ltac:(apply BD) HR BH LH) as V. rewrite <- ERS in V.
  destruct V as (_ & (Rr & Lr) & (Rs & Ls) & _).
  assert (Hr : reg (e_r x')) by (split; [exact Rr|rewrite Lr; exact HW]). assert (Hs : reg (e_s x')) by (split; [exact Rs|rewrite Ls; exact HW]).
  destruct (C54_encode x' Hr Hs) as (_ & W1). set (dd := der_dss (val_le 32 (e_r x')) (val_le 32 (e_s x'))) in W1. clearbody dd.
  exists dd. eexists. apply (W1 dd). apply Nat.le_refl.
Qed.
Example C54_end_to_end_example : exists x' y' Q buf sig, has_private demoD (Aff 9 13) demo_x Q /\ ECDSA_Sign demoD idh demo_x [7] [[5]] = Some x' /\
  Encode_Signature x' buf = Ret (Some sig) /\ Decode_Signature (cv_w (ed_c demoD)) demo_x sig = Ret (true, y') /\ snd (ECDSA_Verify demoD idh y' [7]) = true.
Proof.
  destruct C37_sign_example as (x' & ES & BR). destruct demo_private as (Q & PR & PU).
  assert (F : Forall bytes_ok [[5]]) by (repeat constructor; unfold byte_ok; lia).
  assert (W3 : Z.of_nat (cv_w (ed_c demoD)) < 2 ^ 32) by (vm_compute; reflexivity).
  destruct (encodable demoD (Aff 9 13) idh demo_x x' Q [7] [[5]] demo_ok W3 PR idh_ok F ES) as (buf & sig & EE).
  destruct (C54_ecdsa_end_to_end demoD (Aff 9 13) idh demo_x x' demo_x Q [7] [[5]] buf sig demo_ok W3 PR PU idh_ok F ES BR EE) as (y' & E1 & E2).
  exists x', y', Q, buf, sig. split; [exact PR|]. split; [exact ES|]. split; [exact EE|]. split; [exact E1|exact E2].
Qed.
