(** C41 (RSASSA-PSS) and C42 (RSASSA-PKCS1-v1_5). *)
From Verif Require Import Base Vlong VlongLemmas Der DerLemmas Blocks Hash HashSpec HashLemmas MdLemmas PropHash HashIface MacLemmas
  PkcsSpec Pkcs1 PkcsLemmas PkcsLemmas2 PkcsLemmas3.

(* ------------------------------------------------------------------ *)
(** * C41 *)

(** One verification through the API: Decode_Signature, then either Verify, or
    IncVerify_Init, updates, IncVerify_Final.  Some true = accepted. *)
Definition pss_verdict (hm hg : hash_impl) (x : pkctx hm hg) (sig msg : list Z) : option bool :=
  option_map snd (RSASSA_PSS_Verify hm hg (Decode_Signature hm hg x sig) msg).
Definition pss_inc_verdict (hm hg : hash_impl) (x : pkctx hm hg) (sig : list Z) (chunks : list (list Z)) : option bool :=
  option_map snd (RSASSA_PSS_IncVerify_Final hm hg
    (fold_left (IncVerify_Update hm hg) chunks (IncVerify_Init hm hg (Decode_Signature hm hg x sig)))).

(** The claim is false in the strongest way: every signature is accepted for every message,
    whatever the key, although (second part) there is no key and message for which the
    signature representative 0 is valid. *)
Theorem C41_pss_refuted :
  (forall (hm hg : hash_impl) (x : pkctx hm hg) (sig msg : list Z), pss_verdict hm hg x sig msg = Some true) /\
  (forall (hm hg : hash_impl) (x : pkctx hm hg) (sig : list Z) (chunks : list (list Z)), pss_inc_verdict hm hg x sig chunks = Some true) /\
  (forall (H : list Z -> list Z) (mgf : list Z -> nat -> list Z) (n e : Z) (modBits sLen : nat) (mHash : list Z),
     0 < e -> (forall d, bytes_ok d -> bytes_ok (H d)) -> (forall d k, bytes_ok d -> bytes_ok (mgf d k)) -> bytes_ok mHash ->
     (2 <= modBits)%nat -> ~ pss_signature_ok H mgf n e modBits sLen mHash 0).
Proof.
  split; [|split].
  - intros hm hg x sig msg. unfold pss_verdict, RSASSA_PSS_Verify. cbn [Decode_Signature pk_status Z.eqb].
    destruct (hi_final hm _ _) as [hc mh]. reflexivity.
  - intros hm hg x sig chunks. unfold pss_inc_verdict, RSASSA_PSS_IncVerify_Final.
    assert (E : forall y, pk_status (fold_left (IncVerify_Update hm hg) chunks y) = pk_status y).
    { induction chunks as [|c l IH]; intros y; cbn [fold_left]; [reflexivity|]. now rewrite IH. }
    rewrite E. cbn [IncVerify_Init with_status pk_status Z.eqb]. destruct (hi_final hm _ _) as [hc mh]. reflexivity.
  - intros H mgf n e modBits sLen mHash He BH BM Bm Hb (R & L & salt & Ls & Bs & E).
    rewrite Z.pow_0_l in E by lia. rewrite Z.mod_0_l in E by lia.
    unfold emsa_pss in E. cbv zeta in E. rewrite app_assoc in E. rewrite be_val_app in E. change (be_val [188]) with 188 in E.
    set (D := _ ++ _) in E. assert (0 <= be_val D).
    { apply be_val_bound. apply Forall_app. split.
      - apply clear_top_bytes.
        + pose proof (em_len_range modBits Hb) as X. cbv zeta in X. lia.
        + apply xorb_list_ok.
          * repeat (apply Forall_app; split); auto; [apply repeat0_bytes|]. constructor; [unfold byte_ok; lia|constructor].
          * apply BM, BH. repeat (apply Forall_app; split); auto. apply repeat0_bytes.
      - apply BH. repeat (apply Forall_app; split); auto. apply repeat0_bytes. }
    cbn [length] in E. change (2 ^ (8 * Z.of_nat 1)) with 256 in E. lia.
Qed.
Print Assumptions C41_pss_refuted.

(** Partial: the check itself, lines 104-210 of rsassa-pss-verify.c (the code behind the
    guard that returns too early), is exactly RFC 8017's for every key, signature and digest,
    when modulus_bits is not 1 modulo 8.  What is missing: the API never reaches it. *)
Theorem C41_pss_check_partial : forall (hm hg : hash_impl) (H G : list Z -> list Z) (lim : Z),
  hash_correct hm H lim -> hash_correct hg G lim -> (0 < hi_out hg)%nat ->
  forall (x : pkctx hm hg) (mHash : list Z),
  key_ok hm hg x -> pk_status x = 2 -> (pk_bits x mod 8 <> 1)%nat ->
  bytes_ok mHash -> length mHash = hi_out hm ->
  Z.of_nat (em_len hm hg x) < 2 ^ 32 -> Z.of_nat (8 + hi_out hm + em_len hm hg x) < lim ->
  exists s, pss_body hm hg x mHash = Some s /\ (s = 1 \/ s = -1) /\
    (s = 1 <-> pss_signature_ok H (rfc_mgf1 G (hi_out hg)) (val_le 32 (pk_n x)) (val_le 32 (pk_e x)) (pk_bits x) (pk_slen x)
                 mHash (val_le 32 (pk_w1 x))).
Proof. exact pss_body_spec. Qed.
Print Assumptions C41_pss_check_partial.

(** What is checked is the digest of the message, in one call or in any cutting (the state that the check is given
    differs from the caller's only in the hash context and the status). *)
Definition same_key {hm hg : hash_impl} (x y : pkctx hm hg) : Prop :=
  pk_slen y = pk_slen x /\ pk_bits y = pk_bits x /\ pk_n y = pk_n x /\ pk_e y = pk_e x /\ pk_w y = pk_w x /\ pk_w1 y = pk_w1 x /\ pk_hmgf y = pk_hmgf x.
Theorem C41_pss_digest_partial : forall (hm hg : hash_impl) (H : list Z -> list Z) (lim : Z), hash_correct hm H lim ->
  forall (x : pkctx hm hg) (junk : hi_ctx hm) (chunks : list (list Z)),
  hi_shape hm junk -> Forall bytes_ok chunks -> Z.of_nat (length (concat chunks)) < lim -> pk_status x <> 1 -> pk_status x <> -1 ->
  (pk_hmsg x = junk -> exists y, same_key x y /\ RSASSA_PSS_Verify hm hg x (concat chunks) = PSS_Verify_inner hm hg y (H (concat chunks))) /\
  (pk_hmsg x = fold_left (hi_update hm) chunks (hi_init hm junk) ->
     exists y, same_key x y /\ RSASSA_PSS_IncVerify_Final hm hg x = PSS_Verify_inner hm hg y (H (concat chunks))).
Proof.
  intros hm hg H lim HH x junk chunks Sj Bc Lc S1 S2. pose proof (hc_digest _ _ _ HH (concat chunks) (concat_bytes _ Bc)) as Dg.
  assert (E1 : snd (hi_final hm (hi_update hm (hi_init hm junk) (concat chunks)) (hi_out hm)) = H (concat chunks)).
  { pose proof (run1 hm H lim HH) as R. specialize (R junk [concat chunks] (hi_out hm)). cbn [fold_left concat] in R. rewrite app_nil_r in R.
    rewrite R; auto; [now apply octets_exact|]. constructor; [now apply concat_bytes|constructor]. }
  assert (E2 : snd (hi_final hm (fold_left (hi_update hm) chunks (hi_init hm junk)) (hi_out hm)) = H (concat chunks)).
  { rewrite (run1 hm H lim HH) by auto. now apply octets_exact. }
  split; intros Ej.
  - unfold RSASSA_PSS_Verify. rewrite (proj2 (Z.eqb_neq _ _) S1), (proj2 (Z.eqb_neq _ _) S2), Ej.
    destruct (hi_final hm (hi_update hm (hi_init hm junk) (concat chunks)) (hi_out hm)) as [hc mh]. cbn [snd] in E1. subst mh.
    eexists. split; [|reflexivity]. repeat split.
  - unfold RSASSA_PSS_IncVerify_Final. rewrite (proj2 (Z.eqb_neq _ _) S1), (proj2 (Z.eqb_neq _ _) S2), Ej.
    destruct (hi_final hm (fold_left (hi_update hm) chunks (hi_init hm junk)) (hi_out hm)) as [hc mh]. cbn [snd] in E2. subst mh.
    eexists. split; [|reflexivity]. repeat split.
Qed.
Print Assumptions C41_pss_digest_partial.

(** The signer encodes as EMSA-PSS-ENCODE does, for every message, salt and stale buffer;
    it refuses exactly the keys too small for hash and salt. *)
Theorem C41_pss_encode : forall (hm hg : hash_impl) (H G : list Z -> list Z) (lim : Z),
  hash_correct hm H lim -> hash_correct hg G lim -> (0 < hi_out hg)%nat ->
  forall (x : pkctx hm hg) (junk : hi_ctx hm) (chunks : list (list Z)) (salt ptr : list Z),
  key_ok hm hg x -> hi_shape hm junk -> Forall bytes_ok chunks -> Z.of_nat (length (concat chunks)) < lim ->
  bytes_ok salt -> length salt = pk_slen x -> length ptr = em_len hm hg x ->
  Z.of_nat (em_len hm hg x) < 2 ^ 32 -> Z.of_nat (8 + hi_out hm + em_len hm hg x) < lim ->
  pss_sign_em hm hg x (fold_left (hi_update hm) chunks (hi_init hm junk)) salt ptr =
    if (em_len hm hg x <? hi_out hm + pk_slen x + 2)%nat then None
    else Some (emsa_pss H (rfc_mgf1 G (hi_out hg)) (pk_bits x - 1) (H (concat chunks)) salt).
Proof.
  intros hm hg H G lim HH HG Gp x junk chunks salt ptr K Sj Bc Lc Bs Ls Lp L32 Ll.
  apply (pss_sign_em_spec hm hg H G lim HH HG Gp); auto.
  - now apply concat_bytes.
  - rewrite (run1 hm H lim HH) by auto. apply octets_exact. apply (hc_digest _ _ _ HH). now apply concat_bytes.
  - apply (hc_final _ _ _ HH). apply (fold_shape hm H lim HH). now apply (hc_init _ _ _ HH).
Qed.
Print Assumptions C41_pss_encode.

(** The encoding, as a number, is below 2^emBits, hence below any modulus of emBits+1 bits. *)
Theorem C41_pss_encoding_in_range : forall (hm hg : hash_impl) (H G : list Z -> list Z) (lim : Z),
  hash_correct hm H lim -> hash_correct hg G lim -> (0 < hi_out hg)%nat ->
  forall (bits : nat) (mHash salt : list Z), (2 <= bits)%nat ->
  bytes_ok mHash -> length mHash = hi_out hm -> bytes_ok salt ->
  (length mHash + length salt + 2 <= ceil_div (bits - 1) 8)%nat ->
  0 <= be_val (emsa_pss H (rfc_mgf1 G (hi_out hg)) (bits - 1) mHash salt) < 2 ^ (Z.of_nat bits - 1).
Proof.
  intros hm hg H G lim HH HG Gp bits mHash salt Hb Bm Lm Bs Ll.
  pose proof (em_len_range bits Hb) as R. cbv zeta in R. destruct R as [R1 R2].
  destruct (emsa_pss_ok hm hg H G lim HH HG Gp (bits - 1) mHash salt) as [Q1 Q2]; auto.
  split; [now apply be_val_bound|].
  unfold emsa_pss in *. cbv zeta in *. set (h := H _) in *. set (m := rfc_mgf1 _ _ _ _) in *.
  set (db := xorb_list _ m) in *. set (el := ceil_div (bits - 1) 8) in *.
  destruct db as [|b r] eqn:E.
  { cbn [clear_top app] in *. rewrite app_length in Q2. cbn [length] in Q2.
    assert (length h = length mHash) by (unfold h; rewrite Lm; apply (hc_digest _ _ _ HH); repeat (apply Forall_app; split); auto; apply repeat0_bytes).
    lia. }
  cbn [clear_top app] in *.
  match goal with |- be_val (?a :: ?l) < _ => change (a :: l) with ([a] ++ l); rewrite (be_val_app [a] l) end.
  inversion Q1 as [|? ? Q3 Q4]; subst. pose proof (be_val_bound _ Q4) as B. cbn [length] in Q2.
  set (k := 8 - (8 * Z.of_nat el - Z.of_nat (bits - 1))) in *. match goal with |- be_val [?a] * _ + _ < _ => change (be_val [a]) with (a + 2 ^ 8 * 0) end.
  pose proof (Z.mod_pos_bound b (2 ^ k) ltac:(apply Z.pow_pos_nonneg; lia)).
  set (L := Z.of_nat (length (r ++ h ++ [188]))) in *.
  replace (Z.of_nat bits - 1) with (k + 8 * L) by (unfold k, L; lia). rewrite Z.pow_add_r by lia. nia.
Qed.
Print Assumptions C41_pss_encoding_in_range.

(* ------------------------------------------------------------------ *)
(** * C42 *)
Definition v15_verdict (hm hg : hash_impl) (oid : option (list Z * nat)) (w2 : list Z) (x : pkctx hm hg) (sig msg : list Z) : option bool :=
  option_map snd (RSAEncryptionWithHash_Verify hm hg oid w2 (Decode_Signature hm hg x sig) msg).
Definition v15_inc_verdict (hm hg : hash_impl) (oid : option (list Z * nat)) (w2 : list Z) (x : pkctx hm hg) (sig : list Z) (chunks : list (list Z)) : option bool :=
  option_map snd (RSAEncryptionWithHash_IncVerify_Final hm hg oid w2
    (fold_left (IncVerify_Update hm hg) chunks (IncVerify_Init hm hg (Decode_Signature hm hg x sig)))).

Theorem C42_v15_refuted :
  (forall hm hg oid w2 (x : pkctx hm hg) (sig msg : list Z), v15_verdict hm hg oid w2 x sig msg = Some true) /\
  (forall hm hg oid w2 (x : pkctx hm hg) (sig : list Z) (chunks : list (list Z)), v15_inc_verdict hm hg oid w2 x sig chunks = Some true) /\
  (forall (n e : Z) (modBits : nat) (T : list Z), 0 < e -> bytes_ok T -> ~ v15_signature_ok n e modBits T 0).
Proof.
  split; [|split].
  - intros hm hg oid w2 x sig msg. reflexivity.
  - intros hm hg oid w2 x sig chunks. unfold v15_inc_verdict, RSAEncryptionWithHash_IncVerify_Final.
    assert (E : forall y, pk_status (fold_left (IncVerify_Update hm hg) chunks y) = pk_status y).
    { induction chunks as [|c l IH]; intros y; cbn [fold_left]; [reflexivity|]. now rewrite IH. }
    rewrite E. reflexivity.
  - intros n e modBits T He BT (R & L & E).
    rewrite Z.pow_0_l in E by lia. rewrite Z.mod_0_l in E by lia. unfold emsa_v15 in E. rewrite be_val_app in E.
    change (be_val [0; 1]) with 1 in E. set (D := repeat _ _ ++ _) in E.
    assert (0 <= be_val D).
    { apply be_val_bound. repeat (apply Forall_app; split); auto.
      - apply Forall_forall. intros z Hz. apply repeat_spec in Hz. subst. unfold byte_ok. lia.
      - constructor; [unfold byte_ok; lia|constructor]. }
    assert (0 < 2 ^ (8 * Z.of_nat (length D))) by (apply Z.pow_pos_nonneg; lia). lia.
Qed.
Print Assumptions C42_v15_refuted.

(** Partial: the comparison behind the guard accepts exactly when the recovered encoding is
    00 01 FF..FF 00 DigestInfo digest, for every key, signature, message cutting and DigestInfo prefix. *)
Theorem C42_v15_check_partial : forall (hm hg : hash_impl) (H : list Z -> list Z) (lim : Z), hash_correct hm H lim ->
  forall (x : pkctx hm hg) (junk : hi_ctx hm) (chunks : list (list Z)) (pre w2 : list Z),
  key_ok hm hg x -> pk_status x = 2 -> (pk_bits x mod 8 <> 1)%nat ->
  hi_shape hm junk -> pk_hmsg x = fold_left (hi_update hm) chunks (hi_init hm junk) ->
  Forall bytes_ok chunks -> Z.of_nat (length (concat chunks)) < lim ->
  bytes_ok pre -> bytes_ok w2 -> (em_len hm hg x <= length w2)%nat ->
  exists s, v15_body hm hg (Some (pre, hi_out hm)) w2 x = Some s /\ (s = 1 \/ s = -1) /\
    (s = 1 <-> v15_signature_ok (val_le 32 (pk_n x)) (val_le 32 (pk_e x)) (pk_bits x) (pre ++ H (concat chunks)) (val_le 32 (pk_w1 x))).
Proof.
  intros hm hg H lim HH x junk chunks pre w2 K St M8 Sj Ex Bc Lc Bpre Bw Lw.
  destruct (hc_digest _ _ _ HH (concat chunks) (concat_bytes _ Bc)) as [Dl Db].
  assert (E : snd (hi_final hm (pk_hmsg x) (hi_out hm)) = H (concat chunks)).
  { rewrite Ex, (run1 hm H lim HH) by auto. now apply octets_exact. }
  apply v15_body_spec; auto.
Qed.
Print Assumptions C42_v15_check_partial.
Theorem C42_unknown_hash_rejected : forall (hm hg : hash_impl) (x : pkctx hm hg) (w2 : list Z), v15_body hm hg None w2 x = Some (-1).
Proof. intros. unfold v15_body. cbv zeta. now destruct (sig_above _ _ _). Qed.
Print Assumptions C42_unknown_hash_rejected.

(** The DigestInfo prefixes: each row of the table is the DER of
    SEQUENCE { SEQUENCE { OID, NULL }, OCTET STRING (Digest_Len) } with the right OID. *)
Definition digest_info (oid : list Z) (dl : nat) : list Z :=
  let alg := [0x06; Z.of_nat (length oid)] ++ oid ++ [0x05; 0x00] in
  let body := [0x30; Z.of_nat (length alg)] ++ alg ++ [0x04; Z.of_nat dl] in
  [0x30; Z.of_nat (length body + dl)] ++ body.
(** 1.3.14.3.2.26 and 2.16.840.1.101.3.4.2.k *)
Definition oid_nist (k : Z) : list Z := [2 * 40 + 16; 128 + 840 / 128; 840 mod 128; 1; 101; 3; 4; 2; k].
Theorem C42_prefixes :
  fst oid_sha1 = digest_info [1 * 40 + 3; 14; 3; 2; 26] 20 /\ fst oid_sha256 = digest_info (oid_nist 1) 32 /\
  fst oid_sha384 = digest_info (oid_nist 2) 48 /\ fst oid_sha512 = digest_info (oid_nist 3) 64 /\
  fst oid_sha224 = digest_info (oid_nist 4) 28 /\ fst oid_sha512t224 = digest_info (oid_nist 5) 28 /\
  fst oid_sha512t256 = digest_info (oid_nist 6) 32 /\
  snd oid_sha1 = md_out alg_sha1 /\ snd oid_sha224 = md_out alg_sha224 /\ snd oid_sha256 = md_out alg_sha256 /\
  snd oid_sha384 = md_out alg_sha384 /\ snd oid_sha512 = md_out alg_sha512 /\ snd oid_sha512t224 = md_out alg_sha512t224 /\
  snd oid_sha512t256 = md_out alg_sha512t256.
Proof. repeat split; reflexivity. Qed.
Print Assumptions C42_prefixes.

(** Non-vacuity: a 1024-bit public context with SHA-256 meets the hypotheses, and for it there
    are signatures on both sides of the verdict. *)
Definition ex_ctx (s : Z) : pkctx (md_impl alg_sha256) (md_impl alg_sha256) :=
  Build_pkctx (md_impl alg_sha256) (md_impl alg_sha256) 2 32
    (md_init alg_sha256 (repeat 0 64)) (md_init alg_sha256 (repeat 0 64)) 1024 (repeat (2 ^ 32 - 1) 32) [1] 33 (to_le 32 33 s).
Lemma ex_key_ok s : key_ok _ _ (ex_ctx s).
Proof.
  assert (V : val_le 32 (repeat (2 ^ 32 - 1) 32) = 2 ^ 1024 - 1) by reflexivity.
  constructor; cbn [ex_ctx pk_n pk_e pk_w1 pk_bits pk_w pk_hmsg pk_hmgf].
  - apply Forall_forall. intros z Hz. apply repeat_spec in Hz. subst. unfold word_ok. lia.
  - constructor; [unfold word_ok; lia|constructor].
  - apply words_digits. apply to_le_digits. lia.
  - cbn. lia.
  - reflexivity.
  - lia.
  - rewrite V. split; [|change (Z.of_nat 1024) with 1024; lia]. discriminate.
  - split; [rewrite repeat_length; lia|]. rewrite V. reflexivity.
  - reflexivity.
  - reflexivity.
Qed.
Example C41_nonvacuous : let H := fips_sha256 K_sha256 in let mgf := rfc_mgf1 H 32 in
  forall mHash salt, bytes_ok mHash -> length mHash = 32%nat -> bytes_ok salt -> length salt = 32%nat ->
  exists s, pss_body _ _ (ex_ctx s) mHash = Some 1 /\ pss_body _ _ (ex_ctx 0) mHash = Some (-1).
Proof.
  intros H mgf mHash salt Bm Lm Bs Ls.
  assert (C : forall s, 0 <= s < 2 ^ 1024 -> exists r, pss_body _ _ (ex_ctx s) mHash = Some r /\ (r = 1 \/ r = -1) /\
     (r = 1 <-> pss_signature_ok H mgf (2 ^ 1024 - 1) 1 1024 32 mHash s)).
  { intros s Hs. destruct (C41_pss_check_partial _ _ _ _ _ sha256_correct sha256_correct ltac:(cbn; lia) (ex_ctx s) mHash (ex_key_ok s)) as (r & A & B & E); auto.
    - vm_compute. reflexivity. - vm_compute. reflexivity.
    - exists r. split; [exact A|]. split; [exact B|]. rewrite E. cbn [ex_ctx pk_n pk_e pk_w1 pk_bits pk_slen].
      replace (val_le 32 (to_le 32 33 s)) with s; [reflexivity|]. rewrite val_to_le by lia. symmetry. apply Z.mod_small.
      split; [lia|]. eapply Z.lt_trans; [apply Hs|]. reflexivity. }
  set (s := be_val (emsa_pss H mgf 1023 mHash salt)).
  assert (R : 0 <= s < 2 ^ (Z.of_nat 1024 - 1)).
  { apply (C41_pss_encoding_in_range _ _ _ _ _ sha256_correct sha256_correct ltac:(cbn; lia) 1024 mHash salt); auto; [lia|].
    rewrite Lm, Ls. vm_compute. lia. }
  change (2 ^ (Z.of_nat 1024 - 1)) with (2 ^ 1023) in R. assert (P : 2 ^ 1023 < 2 ^ 1024 - 1) by reflexivity.
  exists s. split.
  - destruct (C s ltac:(lia)) as (r & A & B & E). rewrite A. f_equal. apply E. unfold pss_signature_ok.
    split; [lia|]. split; [rewrite Lm; vm_compute; lia|]. exists salt. split; [auto|]. split; [auto|].
    rewrite Z.pow_1_r, Z.mod_small by lia. reflexivity.
  - destruct (C 0 ltac:(lia)) as (r & A & B & E). rewrite A. f_equal. destruct B as [B|B]; [|auto]. exfalso. apply E in B.
    revert B. apply (proj2 (proj2 C41_pss_refuted)); try lia; auto.
    + intros d Bd. apply (hc_digest _ _ _ sha256_correct d Bd).
    + intros d k Bd. exact (proj1 (rfc_mgf1_ok _ _ _ sha256_correct ltac:(cbn; lia) d k Bd)).
Qed.
Definition ex_ctx15 (chunks : list (list Z)) (s : Z) : pkctx (md_impl alg_sha256) (md_impl alg_sha256) :=
  with_hmsg _ _ (ex_ctx s) (fold_left (md_update alg_sha256) chunks (md_init alg_sha256 (repeat 0 64))).
Example C42_nonvacuous : forall chunks, Forall bytes_ok chunks -> Z.of_nat (length (concat chunks)) < 2 ^ 61 ->
  exists s, v15_body _ _ (Some oid_sha256) (repeat 7 132) (ex_ctx15 chunks s) = Some 1 /\
            v15_body _ _ (Some oid_sha256) (repeat 7 132) (ex_ctx15 chunks 0) = Some (-1).
Proof.
  intros chunks Bc Lc. set (T := fst oid_sha256 ++ fips_sha256 K_sha256 (concat chunks)).
  destruct (hc_digest _ _ _ sha256_correct (concat chunks) (concat_bytes _ Bc)) as [Dl Db].
  assert (BT : bytes_ok T).
  { apply Forall_app. split; [|auto]. cbn [fst oid_sha256]. repeat (constructor; [unfold byte_ok; lia|]). constructor. }
  assert (LT : length T = 51%nat) by (unfold T; rewrite app_length, Dl; reflexivity).
  assert (C : forall s, 0 <= s < 2 ^ 1024 -> exists r, v15_body _ _ (Some oid_sha256) (repeat 7 132) (ex_ctx15 chunks s) = Some r /\ (r = 1 \/ r = -1) /\
     (r = 1 <-> v15_signature_ok (2 ^ 1024 - 1) 1 1024 T s)).
  { intros s Hs. destruct (C42_v15_check_partial (md_impl alg_sha256) (md_impl alg_sha256) _ _ sha256_correct (ex_ctx15 chunks s)
      (md_init alg_sha256 (repeat 0 64)) chunks (fst oid_sha256) (repeat 7 132)) as (r & A & B & E); auto.
    - destruct (ex_key_ok s). constructor; auto. cbn [ex_ctx15 with_hmsg pk_hmsg].
      apply (fold_shape (md_impl alg_sha256) _ _ sha256_correct chunks). reflexivity.
    - reflexivity.
    - cbn [fst oid_sha256]. repeat (constructor; [unfold byte_ok; lia|]). constructor.
    - apply Forall_forall. intros z Hz. apply repeat_spec in Hz. subst. unfold byte_ok. lia.
    - rewrite repeat_length. vm_compute. lia.
    - exists r. split; [exact A|]. split; [exact B|]. rewrite E. cbn [ex_ctx15 with_hmsg ex_ctx pk_n pk_e pk_w1 pk_bits pk_slen].
      replace (val_le 32 (to_le 32 33 s)) with s; [reflexivity|]. rewrite val_to_le by lia. symmetry. apply Z.mod_small.
      split; [lia|]. eapply Z.lt_trans; [apply Hs|]. reflexivity. }
  set (s := be_val (emsa_v15 128 T)).
  assert (R : 0 <= s < 2 ^ 1016).
  { unfold s, emsa_v15. change ([0; 1] ++ ?l) with ([0] ++ [1] ++ l). rewrite be_val_app. change (be_val [0]) with 0. rewrite Z.mul_0_l, Z.add_0_l.
    set (l := [1] ++ _). assert (Bl : bytes_ok l).
    { unfold l. apply Forall_app; split; [constructor; [unfold byte_ok; lia|constructor]|].
      apply Forall_app; split; [apply Forall_forall; intros z Hz; apply repeat_spec in Hz; subst; unfold byte_ok; lia|].
      apply Forall_app; split; [constructor; [unfold byte_ok; lia|constructor]|exact BT]. }
    pose proof (be_val_bound l Bl) as X. replace (length l) with 127%nat in X by (unfold l; rewrite !app_length, repeat_length, LT; reflexivity). exact X. }
  assert (P : 2 ^ 1016 < 2 ^ 1024 - 1) by reflexivity.
  exists s. split.
  - destruct (C s ltac:(lia)) as (r & A & B & E). rewrite A. f_equal. apply E. unfold v15_signature_ok.
    split; [lia|]. split; [rewrite LT; vm_compute; lia|]. rewrite Z.pow_1_r, Z.mod_small by lia. reflexivity.
  - destruct (C 0 ltac:(lia)) as (r & A & B & E). rewrite A. f_equal. destruct B as [B|B]; [|auto]. exfalso. apply E in B.
    revert B. apply (proj2 (proj2 C42_v15_refuted)); [lia|exact BT].
Qed.
