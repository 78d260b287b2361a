(** C59: the GHASH multiplication written with carry-less multiply instructions. *)
From Verif Require Import Base HashSpec Blocks HashLemmas CmacLemmas CipherLemmas GcmSpec Gcm GaloisLemmas GcmLemmas GaloisNi GaloisNiLemmas.

Lemma sr64 v : Z.shiftr v 64 = v / 2 ^ 64. Proof. apply Z.shiftr_div_pow2. lia. Qed.
Lemma mul_x86 x y : galois128_mul_x86 x y = bytes_mirror_arm (fold_mul (bytes_mirror_arm x) (bytes_mirror_arm y)).
Proof.
  unfold galois128_mul_x86. cbv zeta. rewrite !mirror_x86_arm. f_equal.
  generalize (bytes_mirror_arm x) (bytes_mirror_arm y). clear x y. intros x y. unfold fold_mul, clmulepi64. cbv zeta.
  change (Z.testbit 0x00 0) with false. change (Z.testbit 0x00 4) with false. change (Z.testbit 0x01 0) with true. change (Z.testbit 0x01 4) with false.
  change (Z.testbit 0x10 0) with false. change (Z.testbit 0x10 4) with true. change (Z.testbit 0x11 0) with true. change (Z.testbit 0x11 4) with true.
  cbv iota. rewrite !sr64. rewrite (Z.lxor_comm (mul64 (x / 2 ^ 64) y)). reflexivity.
Qed.
Lemma mul_arm x y : galois128_mul_arm x y = bytes_mirror_arm (fold_mul (bytes_mirror_arm x) (bytes_mirror_arm y)).
Proof. unfold galois128_mul_arm, fold_mul. cbv zeta. rewrite !sr64. reflexivity. Qed.
Lemma mul64_0 b : mul64 0 b = 0. Proof. unfold mul64. change (0 mod 2 ^ 64) with 0. apply clmul_0_l. Qed.
Lemma mul_ppc x y : galois128_mul_ppc x y = bytes_mirror_arm (fold_mul (bytes_mirror_arm x) (bytes_mirror_arm y)).
Proof.
  unfold galois128_mul_ppc, fold_mul, bytes_mirror_ppc, pmsum. cbv zeta. cbn [fst snd].
  rewrite !mul64_0, !Z.lxor_0_l. rewrite !sr64. reflexivity.
Qed.
Lemma load2_spec b : bytes_ok b -> length b = 16%nat -> load2 b = le_val b.
Proof.
  intros B L. unfold load2. cbv zeta. rewrite Z.lxor_0_l, shl64. rewrite (@firstn_all2 Z 8 (skipn 8 b)) by (rewrite skipn_length; lia).
  pose proof (le_val_bound (skipn 8 b) (Forall_skipn _ _ _ B)) as B1. rewrite skipn_length, L in B1. change (8 * Z.of_nat (16 - 8)) with 64 in B1.
  pose proof (le_val_bound (firstn 8 b) (Forall_firstn _ _ _ B)) as B2. rewrite firstn_length, L in B2. change (8 * Z.of_nat (Nat.min 8 16)) with 64 in B2.
  rewrite (Z.mod_small _ _ B1). rewrite Z.lxor_comm, lxor_low_high by (lia || exact B2).
  rewrite <- (firstn_skipn 8 b) at 3. unfold le_val. rewrite val_le_app by lia. rewrite firstn_length, L. change (8 * Z.of_nat (Nat.min 8 16)) with 64. lia.
Qed.
Lemma to_le_app n m : forall x, to_le 8 (n + m) x = to_le 8 n x ++ to_le 8 m (x / 2 ^ (8 * Z.of_nat n)).
Proof.
  induction n as [|n IH]; intros x; [now rewrite Z.div_1_r|]. cbn [Nat.add to_le app]. f_equal. rewrite IH. f_equal. f_equal.
  rewrite Z.div_div by (try apply Z.pow_pos_nonneg; lia). f_equal. rewrite <- Z.pow_add_r by lia. f_equal. lia.
Qed.
Lemma to_le_mod n : forall x, to_le 8 n (x mod 2 ^ (8 * Z.of_nat n)) = to_le 8 n x.
Proof.
  intros x. apply (nth_ext _ _ 0 0); [now rewrite !to_le_length|]. intros i Hi. rewrite to_le_length in Hi.
  change (nth i ?l 0) with (nthZ i l). rewrite !nth_to_le by lia. apply Z.bits_inj'. intros j Hj.
  destruct (Z.lt_ge_cases j 8); [|now rewrite !Z.mod_pow2_bits_high by lia].
  rewrite !(Z.mod_pow2_bits_low _ 8) by lia. rewrite !Z.div_pow2_bits by lia. apply Z.mod_pow2_bits_low. lia.
Qed.
Lemma store2_spec y : store2 y = le_bytes 16 y.
Proof.
  unfold store2. rewrite sr64. unfold le_bytes. change 16%nat with (8 + 8)%nat. rewrite to_le_app.
  change (8 * Z.of_nat 8) with 64. f_equal; exact (to_le_mod 8 _).
Qed.
Definition opt_blk (X : option (list Z)) : Prop := match X with Some x => bytes_ok x /\ length x = 16%nat | None => True end.
(** the block added to Y: nothing for a NULL pointer *)
Definition addend (X : option (list Z)) : list Z := match X with Some x => x | None => repeat 0 16 end.
Lemma le_val_xorb a b : bytes_ok a -> bytes_ok b -> length a = length b -> le_val (xorb_list a b) = Z.lxor (le_val a) (le_val b).
Proof.
  intros A. revert b. induction A as [|x a Hx A IH]; intros b B L; destruct b as [|y b]; try discriminate; [reflexivity|].
  inversion B as [|? ? By Bb]; subst. cbn [xorb_list length] in *. unfold le_val in *. cbn [val_le]. rewrite IH by (auto; lia).
  unfold byte_ok in *. rewrite !(Z.mul_comm (2 ^ 8)). rewrite <- !lxor_low_high by (try apply lxor_bound; lia).
  rewrite lxor_mul_pow by lia. apply lxor_swap.
Qed.
Lemma product y h : 0 <= y < 2 ^ 128 -> 0 <= h < 2 ^ 128 ->
  le_bytes 16 (bytes_mirror_arm (fold_mul (bytes_mirror_arm y) (bytes_mirror_arm h))) =
  of_gf (poly_rem 128 (clmul 128 (bytes_mirror_arm y) (bytes_mirror_arm h))).
Proof.
  intros Hy Hh. rewrite of_gf_mirror by apply fold_mul_bound. now rewrite fold_mul_spec by apply mirror_arm_bound.
Qed.
Lemma le16_bound b : bytes_ok b -> length b = 16%nat -> 0 <= le_val b < 2 ^ 128.
Proof. intros B L. pose proof (le_val_bound b B) as G. rewrite L in G. exact G. Qed.

(** For every accumulator, hash key and input block (or none), on all three processors: the
    octets stored are the product (Y + X) * H in GF(2^128) of SP 800-38D ([gf_mul]) ... *)
Theorem C59_ghash_product : forall Y H X, bytes_ok Y -> length Y = 16%nat -> bytes_ok H -> length H = 16%nat -> opt_blk X ->
  hash1block_x86 Y H X = gf_mul (xorb_list Y (addend X)) H /\
  hash1block_arm Y H X = gf_mul (xorb_list Y (addend X)) H /\
  hash1block_ppc Y H X = gf_mul (xorb_list Y (addend X)) H.
Proof.
  intros Y H X BY LY BH LH BX.
  assert (BA : bytes_ok (addend X) /\ length (addend X) = 16%nat).
  { destruct X as [x|]; [exact BX|]. split; [|reflexivity]. apply Forall_forall. intros z Hz. apply repeat_spec in Hz. subst. unfold byte_ok. lia. }
  destruct BA as [BA LA].
  assert (BS : bytes_ok (xorb_list Y (addend X))) by now apply xorb_list_ok.
  assert (LS : length (xorb_list Y (addend X)) = 16%nat) by (rewrite xorb_list_length; lia).
  assert (EY : match X with Some X => Z.lxor (le_val Y) (le_val X) | None => le_val Y end = le_val (xorb_list Y (addend X))).
  { rewrite le_val_xorb by (auto; lia). destruct X as [x|]; [reflexivity|]. cbn [addend]. change (le_val (repeat 0 16)) with 0. now rewrite Z.lxor_0_r. }
  assert (EL : match X with Some X => Z.lxor (load2 Y) (load2 X) | None => load2 Y end = le_val (xorb_list Y (addend X))).
  { rewrite <- EY. destruct X as [x|]; rewrite !load2_spec by (auto; apply BX); reflexivity. }
  assert (G : le_bytes 16 (bytes_mirror_arm (fold_mul (bytes_mirror_arm (le_val (xorb_list Y (addend X)))) (bytes_mirror_arm (le_val H)))) = gf_mul (xorb_list Y (addend X)) H).
  { rewrite product by now apply le16_bound. rewrite !mirror_gf by assumption. reflexivity. }
  unfold hash1block_x86, hash1block_arm, hash1block_ppc. cbv zeta. rewrite EY, EL, !store2_spec, (load2_spec H) by assumption.
  rewrite mul_x86, mul_arm, mul_ppc. split; [exact G|split; exact G].
Qed.
Print Assumptions C59_ghash_product.

(** ... which is what the portable code stores. *)
Theorem C59_ghash_equals_portable : forall Y H X, bytes_ok Y -> length Y = 16%nat -> bytes_ok H -> length H = 16%nat ->
  bytes_ok X -> length X = 16%nat ->
  hash1block_x86 Y H (Some X) = galois128_hash1block Y H X /\
  hash1block_arm Y H (Some X) = galois128_hash1block Y H X /\
  hash1block_ppc Y H (Some X) = galois128_hash1block Y H X.
Proof.
  intros Y H X BY LY BH LH BX LX. rewrite hash1block_spec by assumption.
  exact (C59_ghash_product Y H (Some X) BY LY BH LH (conj BX LX)).
Qed.
Print Assumptions C59_ghash_equals_portable.

(** Mirroring the octets is exactly the translation between memory and polynomials. *)
Theorem C59_mirror : forall b, bytes_ok b -> length b = 16%nat ->
  bytes_mirror_x86 (le_val b) = gf_of b /\ bytes_mirror_arm (le_val b) = gf_of b /\ bytes_mirror_ppc (le_val b) = gf_of b.
Proof.
  intros b B L. rewrite mirror_x86_arm. unfold bytes_mirror_ppc. pose proof (mirror_gf b B L) as E. split; [exact E|split; exact E].
Qed.
Print Assumptions C59_mirror.

(** GCM specification test case 2: the products are the published ones. *)
Definition H2 : list Z := be_bytes 16 0x66e94bd4ef8a2c3b884cfa59ca342b2e.
Definition X2 : list Z := be_bytes 16 0x0388dace60b6a392f328c2b971b2fe78.
Example C59_case2 : bytes_ok H2 /\ bytes_ok X2 /\ length H2 = 16%nat /\ length X2 = 16%nat /\
  hash1block_x86 (repeat 0 16) H2 (Some X2) = be_bytes 16 0x5e2ec746917062882c85b0685353deb7 /\
  hash1block_arm X2 H2 None = be_bytes 16 0x5e2ec746917062882c85b0685353deb7 /\
  hash1block_ppc X2 H2 None = be_bytes 16 0x5e2ec746917062882c85b0685353deb7.
Proof.
  split; [apply be_bytes_ok|]. split; [apply be_bytes_ok|]. split; [reflexivity|]. split; [reflexivity|].
  split; [|split]; vm_compute; reflexivity.
Qed.
