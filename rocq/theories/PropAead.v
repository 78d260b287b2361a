(** C49 (GF(2^128) multiplication of GHASH) and C20 (GCM). *)
From Verif Require Import Base HashSpec Blocks HashLemmas MdLemmas CmacLemmas PropHash PropMac Cipher PropCipher GcmSpec Gcm GaloisLemmas GcmLemmas.

(* ------------------------------------------------------------------ *)
(** * C49 *)

(** For every pair of field elements: the octets stored are the product of the two polynomials
    modulo x^128+x^7+x^2+x+1, in GCM bit order ([gf_mul], GcmSpec.v). *)
Theorem C49_mult : forall Y H X : list Z,
  bytes_ok Y -> bytes_ok H -> bytes_ok X -> length Y = 16%nat -> length H = 16%nat -> length X = 16%nat ->
  galois128_hash1block Y H X = gf_mul (xorb_list Y X) H.
Proof. exact hash1block_spec. Qed.

Lemma clmul_top k q b p : 0 <= q < 2 ^ Z.of_nat k ->
  clmul (S k) (q + (if b : bool then 2 ^ Z.of_nat k else 0)) p = Z.lxor (clmul k q p) (if b then p * 2 ^ Z.of_nat k else 0).
Proof.
  revert q. induction k as [|k IH]; intros q Hq.
  - assert (q = 0) by (change (2 ^ Z.of_nat 0) with 1 in Hq; lia). subst. destruct b; cbn [clmul]; cbn [Z.of_nat]; rewrite ?Z.pow_0_r, ?Z.add_0_l, ?Z.mul_1_r.
    + change (Z.odd 1) with true. cbv iota. now rewrite Z.mul_0_r, Z.lxor_0_r, Z.lxor_0_l.
    + reflexivity.
  - rewrite Nat2Z.inj_succ, Z.pow_succ_r in * by lia.
    change (clmul (S (S k)) ?a p) with (Z.lxor (if Z.odd a then p else 0) (2 * clmul (S k) (a / 2) p)).
    change (clmul (S k) q p) with (Z.lxor (if Z.odd q then p else 0) (2 * clmul k (q / 2) p)).
    assert (Z.odd (q + (if b then 2 * 2 ^ Z.of_nat k else 0)) = Z.odd q) as ->.
    { destruct b; [|now rewrite Z.add_0_r]. rewrite Z.odd_add, Z.odd_mul. cbn. apply xorb_false_r. }
    assert ((q + (if b then 2 * 2 ^ Z.of_nat k else 0)) / 2 = q / 2 + (if b then 2 ^ Z.of_nat k else 0)) as ->.
    { destruct b; [|now rewrite !Z.add_0_r]. rewrite Z.mul_comm, Z.div_add by lia. reflexivity. }
    rewrite IH by (split; [apply Z.div_pos; lia|apply Z.div_lt_upper_bound; lia]).
    rewrite lxor_double, Z.lxor_assoc. do 2 f_equal. destruct b; [|reflexivity]. lia.
Qed.
(** [poly_rem] really is the remainder: it has degree below 128 and differs from the dividend
    by a polynomial multiple of x^128+x^7+x^2+x+1. *)
Theorem C49_remainder : forall (k : nat) (v : Z), 0 <= v < 2 ^ (128 + Z.of_nat k) ->
  0 <= poly_rem k v < 2 ^ 128 /\ exists q, 0 <= q < 2 ^ Z.of_nat k /\ v = Z.lxor (poly_rem k v) (clmul k q gcm_poly).
Proof.
  induction k as [|k IH]; intros v Hv.
  - split; [rewrite Z.add_0_r in Hv; exact Hv|]. exists 0. cbn [clmul poly_rem]. rewrite Z.lxor_0_r. split; [cbn; lia|reflexivity].
  - rewrite poly_rem_S. set (b := Z.testbit v (128 + Z.of_nat k)).
    assert (P : 0 < 2 ^ Z.of_nat k) by (apply Z.pow_pos_nonneg; lia).
    assert (R : 0 <= redstep k v < 2 ^ (128 + Z.of_nat k)).
    { assert (N : 0 <= redstep k v) by (unfold redstep; apply Z.lxor_nonneg; destruct (Z.testbit v _); unfold gcm_poly; split; intros; lia).
      split; [exact N|]. destruct (Z.lt_ge_cases (redstep k v) (2 ^ (128 + Z.of_nat k))) as [|G]; [assumption|exfalso].
      assert (P2 : 0 < 2 ^ (128 + Z.of_nat k)) by (apply Z.pow_pos_nonneg; lia).
      pose proof (Z.bit_log2 (redstep k v) ltac:(lia)) as T.
      assert (L : 128 + Z.of_nat k <= Z.log2 (redstep k v)) by (apply Z.log2_le_pow2; lia).
      set (l := Z.log2 (redstep k v)) in *. unfold redstep in T. rewrite Z.lxor_spec in T.
      destruct (Z.eq_dec l (128 + Z.of_nat k)) as [El|Nl].
      - rewrite El in T. fold b in T. destruct b; cbn [xorb] in T; [|rewrite Z.bits_0 in T; discriminate].
        rewrite Z.mul_pow2_bits in T by lia. replace (128 + Z.of_nat k - Z.of_nat k) with 128 in T by lia. discriminate T.
      - rewrite (testbit_high v (128 + Z.of_nat (S k))) in T by (auto; lia). cbn [xorb] in T.
        destruct (Z.testbit v (128 + Z.of_nat k)); [|rewrite Z.bits_0 in T; discriminate].
        rewrite Z.mul_pow2_bits in T by lia. rewrite (testbit_high gcm_poly 129) in T; [discriminate|unfold gcm_poly; lia|lia|lia]. }
    destruct (IH _ R) as [B (q & Hq & E)]. split; [exact B|].
    exists (q + (if b then 2 ^ Z.of_nat k else 0)). rewrite clmul_top by exact Hq. split.
    + rewrite Nat2Z.inj_succ, Z.pow_succ_r by lia. destruct b; lia.
    + rewrite <- Z.lxor_assoc, <- E. unfold redstep. fold b. rewrite Z.lxor_assoc. destruct b; now rewrite ?Z.lxor_nilpotent, ?Z.lxor_0_r.
Qed.
(** The product before reduction is in the range of [C49_remainder]; and a value: x^127 * x = x^7+x^2+x+1,
    i.e. in GCM order 00..01 times 40..00 is E1 00..00 *)
Example C49_nonvacuous : 0 <= clmul 128 (2 ^ 127) 2 < 2 ^ (128 + Z.of_nat 128) /\
  galois128_hash1block (repeat 0 15 ++ [1]) (0x40 :: repeat 0 15) (repeat 0 16) = 0xE1 :: repeat 0 15 /\
  poly_rem 128 (clmul 128 (2 ^ 127) 2) = 0x87.
Proof. repeat split; vm_compute; congruence. Qed.

(* ------------------------------------------------------------------ *)
(** * C20 *)

(** Encryption is SP 800-38D GCM for any 128-bit block cipher, 96-bit IV, any tag length. *)
Theorem C20_encrypt : forall (E : list Z -> list Z) (iv aad p : list Z) (tlen : nat),
  block_cipher E -> bytes_ok iv -> length iv = 12%nat -> bytes_ok aad -> bytes_ok p ->
  Z.of_nat (length aad) < 2 ^ 61 -> Z.of_nat (length p) < 2 ^ 36 - 31 ->
  GCM_Encrypt (GCM_Init E) iv aad p tlen = Some (gcm_C E iv p, octets tlen (gcm_T E iv aad (gcm_C E iv p))).
Proof. intros. now apply encrypt_spec. Qed.

(** Other IV lengths and longer inputs are refused by both operations. *)
Theorem C20_refused : forall (g : gcm) (iv aad p T : list Z) (tlen : nat),
  length iv <> 12%nat \/ 2 ^ 61 <= Z.of_nat (length aad) \/ 2 ^ 36 - 31 <= Z.of_nat (length p) ->
  GCM_Encrypt g iv aad p tlen = None /\ GCM_Decrypt g iv aad p T = None.
Proof.
  intros g iv aad p T tlen H.
  assert (R : gcm_refuse (length iv) (length aad) (length p) = true).
  { unfold gcm_refuse. destruct (Nat.eqb_spec (length iv) 12); [|reflexivity]. cbn [negb orb].
    apply orb_true_iff. rewrite !Z.leb_le. lia. }
  unfold GCM_Encrypt, GCM_Decrypt. now rewrite R.
Qed.

(** Decryption returns P exactly when encryption of P gives this ciphertext and this tag;
    None means NULL was returned and nothing was written. *)
Theorem C20_decrypt_iff : forall (E : list Z -> list Z) (iv aad c T p : list Z),
  block_cipher E -> bytes_ok iv -> bytes_ok aad -> bytes_ok c -> bytes_ok T -> bytes_ok p ->
  (GCM_Decrypt (GCM_Init E) iv aad c T = Some p <-> GCM_Encrypt (GCM_Init E) iv aad p (length T) = Some (c, T)).
Proof.
  intros E iv aad c T p BF Biv BA Bc BT Bp.
  destruct (Nat.eq_dec (length iv) 12) as [Liv|N].
  2:{ rewrite (proj2 (C20_refused (GCM_Init E) iv aad c T 0 (or_introl N))), (proj1 (C20_refused (GCM_Init E) iv aad p T _ (or_introl N))). split; discriminate. }
  destruct (Z.lt_ge_cases (Z.of_nat (length aad)) (2 ^ 61)) as [HA|HA].
  2:{ rewrite (proj2 (C20_refused (GCM_Init E) iv aad c T 0 (or_intror (or_introl HA)))), (proj1 (C20_refused (GCM_Init E) iv aad p T _ (or_intror (or_introl HA)))). split; discriminate. }
  assert (S1 : blk16 (inc32 (gcm_J0 iv))) by auto using inc32_shape, J0_shape.
  destruct (Z.lt_ge_cases (Z.of_nat (length c)) (2 ^ 36 - 31)) as [HC|HC].
  - destruct (decrypt_spec E BF iv aad c T) as [D1 D2]; auto. split.
    + intros D. destruct (list_eq_dec Z.eq_dec T (octets (length T) (gcm_T E iv aad c))) as [ET|NT]; [|rewrite (D2 NT) in D; discriminate].
      rewrite (D1 ET) in D. assert (EP : p = gctr E (inc32 (gcm_J0 iv)) c) by congruence. subst p.
      rewrite encrypt_spec; auto; [|now rewrite gctr_length by auto]. unfold gcm_C. rewrite gctr_twice by auto. now rewrite <- ET.
    + intros H. destruct (Z.lt_ge_cases (Z.of_nat (length p)) (2 ^ 36 - 31)) as [HP|HP].
      2:{ rewrite (proj1 (C20_refused (GCM_Init E) iv aad p T _ (or_intror (or_intror HP)))) in H. discriminate. }
      rewrite encrypt_spec in H by auto. assert (H1 : gcm_C E iv p = c) by congruence. assert (H2 : octets (length T) (gcm_T E iv aad (gcm_C E iv p)) = T) by congruence. rewrite H1 in H2.
      assert (EC : gctr E (inc32 (gcm_J0 iv)) c = p) by (rewrite <- H1; unfold gcm_C; now rewrite gctr_twice). rewrite <- EC.
      apply D1. symmetry. exact H2.
  - rewrite (proj2 (C20_refused (GCM_Init E) iv aad c T 0 (or_intror (or_intror HC)))). split; [discriminate|]. intros H.
    destruct (Z.lt_ge_cases (Z.of_nat (length p)) (2 ^ 36 - 31)) as [HP|HP].
    + rewrite encrypt_spec in H by auto. assert (H1 : gcm_C E iv p = c) by congruence. pose proof (gctr_length E (inc32 (gcm_J0 iv)) p BF S1) as G. unfold gcm_C in H1. rewrite H1 in G. lia.
    + rewrite (proj1 (C20_refused (GCM_Init E) iv aad p T _ (or_intror (or_intror HP)))) in H. discriminate.
Qed.

(** Hence the round trip, and rejection of every other tag. *)
Theorem C20_roundtrip : forall (E : list Z -> list Z) (iv aad p c T : list Z) (tlen : nat),
  block_cipher E -> bytes_ok iv -> bytes_ok aad -> bytes_ok p ->
  GCM_Encrypt (GCM_Init E) iv aad p tlen = Some (c, T) ->
  GCM_Decrypt (GCM_Init E) iv aad c T = Some p /\
  (forall T', bytes_ok T' -> length T' = length T -> T' <> T -> GCM_Decrypt (GCM_Init E) iv aad c T' = None).
Proof.
  intros E iv aad p c T tlen BF Biv BA Bp H.
  assert (D := H). unfold GCM_Encrypt in D. destruct (gcm_refuse (length iv) (length aad) (length p)) eqn:R; [discriminate|]. clear D.
  unfold gcm_refuse in R. rewrite !orb_false_iff, negb_false_iff, Nat.eqb_eq, !Z.leb_gt in R. destruct R as [[Liv HA] HP].
  rewrite encrypt_spec in H by auto. inversion H as [[H1 H2]]. subst c T.
  assert (S1 : blk16 (inc32 (gcm_J0 iv))) by auto using inc32_shape, J0_shape.
  assert (BC : bytes_ok (gcm_C E iv p)) by (apply gctr_bytes; auto).
  assert (LC : length (gcm_C E iv p) = length p) by (apply gctr_length; auto).
  assert (ST : blk16 (gcm_T E iv aad (gcm_C E iv p))) by (apply T_shape; auto).
  assert (BO : bytes_ok (octets tlen (gcm_T E iv aad (gcm_C E iv p)))).
  { unfold octets. apply Forall_firstn, Forall_app. split; [apply ST|apply repeat0_bytes]. }
  assert (LO : length (octets tlen (gcm_T E iv aad (gcm_C E iv p))) = tlen).
  { unfold octets. rewrite firstn_length, app_length, repeat_length. lia. }
  split.
  - destruct (decrypt_spec E BF iv aad (gcm_C E iv p) (octets tlen (gcm_T E iv aad (gcm_C E iv p)))) as [D1 _]; auto; [lia|].
    rewrite D1; [|now rewrite LO]. f_equal. now apply gctr_twice.
  - intros T' BT' LT' NT'. destruct (decrypt_spec E BF iv aad (gcm_C E iv p) T') as [_ D2]; auto; [lia|].
    apply D2. rewrite LT', LO. exact NT'.
Qed.


(** Concretely: the AES model of C47 is such a block cipher, for every key; a GCM specification
    test case (AES-128, zero key and IV, one zero block) is reproduced by the model. *)
Theorem C20_aes : forall key, bytes_ok key ->
  (length key = 16%nat -> block_cipher (AES128_Cipher (AES128_KeyExpansion key))) /\
  (length key = 24%nat -> block_cipher (AES192_Cipher (AES192_KeyExpansion key))) /\
  (length key = 32%nat -> block_cipher (AES256_Cipher (AES256_KeyExpansion key))).
Proof.
  destruct C47_aes as (A & B & C). intros key HK. repeat match goal with |- _ /\ _ => split end; intros LK b [Bb Lb].
  - destruct (A key b (conj LK HK) (conj Lb Bb)) as [[X Y] _]. split; auto.
  - destruct (B key b (conj LK HK) (conj Lb Bb)) as [[X Y] _]. split; auto.
  - destruct (C key b (conj LK HK) (conj Lb Bb)) as [[X Y] _]. split; auto.
Qed.
Example C20_nonvacuous :
  let E := AES128_Cipher (AES128_KeyExpansion (repeat 0 16)) in
  GCM_Encrypt (GCM_Init E) (repeat 0 12) [] (repeat 0 16) 16
    = Some (be_bytes 16 0x0388dace60b6a392f328c2b971b2fe78, be_bytes 16 0xab6e47d42cec13bdf53a67b21257bddf).
Proof. cbv zeta. vm_compute; reflexivity. Qed.
(** and with a toy cipher, both ways: *)
Example C20_nonvacuous_decrypt :
  let E := fun b => map (Z.lxor 0x5c) (rev b) in
  match GCM_Encrypt (GCM_Init E) (repeat 1 12) [7] [1; 2; 3] 16 with
  | Some (c, t) => GCM_Decrypt (GCM_Init E) (repeat 1 12) [7] c t = Some [1; 2; 3] /\ GCM_Decrypt (GCM_Init E) (repeat 1 12) [7] c (upd 15 (Z.lxor 1 (nthZ 15 t)) t) = None
  | None => False
  end.
Proof. vm_compute. split; reflexivity. Qed.
Print Assumptions C49_mult.
Print Assumptions C49_remainder.
Print Assumptions C20_encrypt.
Print Assumptions C20_refused.
Print Assumptions C20_decrypt_iff.
Print Assumptions C20_roundtrip.
Print Assumptions C20_aes.
