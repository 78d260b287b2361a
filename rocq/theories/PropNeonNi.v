(** Property C61: SM4 (sm4.c and sm4-arm.c) is the cipher of GB/T 32907-2016 (Sm4Spec.v), and the
    Keccak-p[1600] permutation of keccak-arm.c.h is the one of FIPS 202 (SpongeSpec.v); the
    Arm and the portable routines can be mixed. *)
From Verif Require Import Base Hash HashSpec Blocks HashLemmas MdLemmas Cipher CipherLemmas CipherLemmas2 PropCipher
  Sponge SpongeSpec KeccakLemmas SpongeLemmas PropSponge Sm4Spec NeonNi NeonNiLemmas.

Opaque sm4_crypt SM4Feistel NI_SM4Feistel sm4_round_keys SM4KeySched NI_SM4KeySched.
(** C61: the portable SM4 is the standard's, in both directions, and decryption undoes
    encryption in the standard. *)
Theorem C61_sm4_is_gbt32907 : forall key b, is_key 16 key -> is_block b ->
  SM4Encrypt (SM4KeySched key) b = sm4_encrypt key b /\
  SM4Decrypt (SM4KeySched key) b = sm4_decrypt key b /\
  sm4_decrypt key (sm4_encrypt key b) = b.
Proof.
  intros key b HK HB. assert (L32 := sm4_keys_length key).
  assert (E : forall b, SM4Encrypt (SM4KeySched key) b = sm4_encrypt key b).
  { intros c. rewrite sm4_keysched_eq. unfold sm4_encrypt, SM4Encrypt. revert L32. generalize (sm4_round_keys key). intros rk L32. exact (sm4_portable_crypt rk L32 false c). }
  assert (D : forall b, SM4Decrypt (SM4KeySched key) b = sm4_decrypt key b).
  { intros c. rewrite sm4_keysched_eq. unfold sm4_decrypt, SM4Decrypt. revert L32. generalize (sm4_round_keys key). intros rk L32. exact (sm4_portable_crypt rk L32 true c). }
  split; [apply E|]. split; [apply D|].
  destruct (C47_sm4 key b HK HB) as (_ & _ & I & _).
  exact (eq_trans (eq_trans (f_equal (sm4_decrypt key) (eq_sym (E b))) (eq_sym (D _))) I).
Qed.
Print Assumptions C61_sm4_is_gbt32907.

Lemma sm4_arm_same rk b : length rk = 32%nat -> is_block b ->
  NI_SM4Encrypt rk b = SM4Encrypt rk b /\ NI_SM4Decrypt rk b = SM4Decrypt rk b.
Proof.
  intros HR [HL _]. split.
  - exact (eq_trans (sm4_arm_crypt rk HR false b HL) (eq_sym (sm4_portable_crypt rk HR false b))).
  - exact (eq_trans (sm4_arm_crypt rk HR true b HL) (eq_sym (sm4_portable_crypt rk HR true b))).
Qed.
Lemma sm4_sched_len key : length (SM4KeySched key) = 32%nat.
Proof. rewrite sm4_keysched_eq. apply sm4_keys_length. Qed.

(** C61: the Arm routines give the same round keys, and the same blocks from any array of
    32 round keys, whoever computed it. *)
Theorem C61_sm4_arm : 
  (forall key, is_key 16 key -> NI_SM4KeySched key = SM4KeySched key) /\
  (forall rk b, length rk = 32%nat -> is_block b ->
    NI_SM4Encrypt rk b = SM4Encrypt rk b /\ NI_SM4Decrypt rk b = SM4Decrypt rk b) /\
  (forall key b, is_key 16 key -> is_block b ->
    NI_SM4Encrypt (NI_SM4KeySched key) b = sm4_encrypt key b /\ NI_SM4Decrypt (NI_SM4KeySched key) b = sm4_decrypt key b) /\
  inverse_ciphers 16 NI_SM4KeySched NI_SM4Encrypt NI_SM4Decrypt.
Proof.
  assert (K : forall key, is_key 16 key -> NI_SM4KeySched key = SM4KeySched key).
  { intros key [HL _]. rewrite sm4_keysched_eq. now apply sm4_arm_keysched. }
  assert (C : forall rk b, length rk = 32%nat -> is_block b ->
    NI_SM4Encrypt rk b = SM4Encrypt rk b /\ NI_SM4Decrypt rk b = SM4Decrypt rk b).
  { exact sm4_arm_same. }
  assert (L32 : forall key, length (SM4KeySched key) = 32%nat) by exact sm4_sched_len.
  split; [exact K|]. split; [exact C|]. split.
  - intros key b HK HB. rewrite (K key HK). destruct (C _ b (L32 key) HB) as [-> ->].
    destruct (C61_sm4_is_gbt32907 key b HK HB) as (-> & -> & _). split; reflexivity.
  - intros key b HK HB. rewrite (K key HK). destruct (C47_sm4 key b HK HB) as (B1 & B2 & I1 & I2).
    rewrite (proj1 (C _ b (L32 key) HB)), (proj2 (C _ b (L32 key) HB)).
    rewrite (proj2 (C _ _ (L32 key) B1)), (proj1 (C _ _ (L32 key) B2)). auto.
Qed.
Print Assumptions C61_sm4_arm.

Lemma kp_loop_ni rounds n : forall a A, (a + n <= 24)%nat -> st25 A ->
  fold_left (kp_round_ni rounds) (seq a n) (A, lf a) = fold_left (kp_round rounds) (seq a n) (A, lf a).
Proof.
  induction n as [|n IH]; intros a A Ha H; cbn [seq fold_left]; [reflexivity|].
  rewrite kp_round_ni_eq by auto. destruct (Nat.le_gt_cases 24 (a + rounds)) as [Hr|Hr].
  - rewrite kp_round_on by (auto; lia). apply IH; [lia|]. apply Rnd_st; [lia|auto].
  - rewrite kp_round_off by lia. apply IH; [lia|auto].
Qed.
(** C61: the Arm permutation, for any number of rounds the library asks for. *)
Theorem C61_keccak_arm : forall nr s, (nr <= 24)%nat -> bytes_ok s ->
  KeccakP1600_Permute_ni nr s = keccak_p nr s /\ KeccakP1600_Permute_ni nr s = KeccakP1600_Permute nr s.
Proof.
  intros nr s Hn HB.
  assert (E : KeccakP1600_Permute_ni nr s = KeccakP1600_Permute nr s).
  { assert (S0 : st25 (le_words 8 25 s)) by (split; [apply le_words_length|now apply (le_words_wd 8 25)]).
    exact (f_equal (fun x : list Z * Z => le_unwords 8 (fst x)) (kp_loop_ni nr 24 0 (le_words 8 25 s) (le_n 24) S0)). }
  split; [|exact E]. rewrite E. now apply KeccakP_eq.
Qed.
Print Assumptions C61_keccak_arm.

Lemma keccak_ni_length nr S : length (KeccakP1600_Permute_ni nr S) = 200%nat.
Proof.
  unfold KeccakP1600_Permute_ni. rewrite le_unwords_length.
  enough (length (fst (fold_left (kp_round_ni nr) (seq 0 24) (le_words 8 25 S, 1))) = 25%nat) by lia.
  assert (L : length (le_words 8 25 S) = 25%nat) by apply le_words_length.
  revert L. generalize (le_words 8 25 S) 1 (seq 0 24). intros A l sq. revert A l.
  induction sq as [|i sq IH]; intros A l L; cbn [fold_left]; [exact L|].
  unfold kp_round_ni at 2. unfold k_iota. destruct (iota_rc l) as [R l']. apply IH.
  assert (Q : length (k_pi (k_rho (theta64 A))) = 25%nat).
  { do 25 (destruct A as [|? A]; [discriminate L|]). destruct A; [|discriminate L]. reflexivity. }
  assert (Q2 : forall B, length B = 25%nat -> length (chi64 B) = 25%nat).
  { intros B LB. do 25 (destruct B as [|? B]; [discriminate LB|]). destruct B; [|discriminate LB]. reflexivity. }
  destruct (24 <=? i + nr)%nat; unfold kset; rewrite ?upd_length; auto.
Qed.
(** C61: any XOF session (any cutting of the input, any Final and Read calls) on a sponge whose
    permutation is the Arm one reads the stream FIPS 202 defines. *)
Theorem C61_keccak_sessions : forall nr rate lo hi chunks groups,
  (nr <= 24)%nat -> (0 < rate <= 200)%nat -> byte_ok lo -> byte_ok hi -> Forall bytes_ok chunks ->
  xof_out (KeccakP1600_Permute_ni nr) (fold_left (Sponge_Update (KeccakP1600_Permute_ni nr)) chunks (SPONGE_INIT 200 rate lo hi)) groups
  = map (slices (sponge_stream (keccak_p nr) 200 rate lo hi (concat chunks)) 0) groups.
Proof.
  intros nr rate lo hi chunks groups Hn Hr Hl Hh HC. rewrite C16_any_sponge; [|intros; apply keccak_ni_length|exact Hr].
  apply map_ext. intros ks. apply slices_ext. intros i. apply stream_ext; auto; [|apply Forall_concat, HC].
  intros S LS BS. destruct (C61_keccak_arm nr S Hn BS) as [E _]. split; [exact E|]. split; [apply keccak_ni_length|].
  rewrite E. apply keccak_p_ok.
Qed.
Print Assumptions C61_keccak_sessions.

Transparent sm4_crypt SM4Feistel NI_SM4Feistel sm4_round_keys SM4KeySched NI_SM4KeySched.
(** The hypotheses are met: GB/T 32907 example 1 on the specification and on the Arm model. *)
Definition sv61 : list Z := be_bytes 16 0x0123456789abcdeffedcba9876543210.
Example sm4_std_vector : sm4_encrypt sv61 sv61 = be_bytes 16 0x681edf34d206965e86b3e94f536e4246.
Proof. vm_compute. reflexivity. Qed.
Example sm4_arm_vector : is_key 16 sv61 /\ is_block sv61 /\
  NI_SM4Encrypt (NI_SM4KeySched sv61) sv61 = be_bytes 16 0x681edf34d206965e86b3e94f536e4246 /\
  NI_SM4Decrypt (NI_SM4KeySched sv61) (be_bytes 16 0x681edf34d206965e86b3e94f536e4246) = sv61.
Proof.
  assert (B : bytes_ok sv61) by apply be_bytes_ok.
  split; [split; [reflexivity|exact B]|]. split; [split; [reflexivity|exact B]|]. split; vm_compute; reflexivity.
Qed.
(** Keccak-f[1600] of the zero state, first lane *)
Example keccak_arm_vector : bytes_ok (repeat 0 200) /\
  firstn 8 (KeccakP1600_Permute_ni 24 (repeat 0 200)) = le_bytes 8 0xF1258F7940E1DDE7.
Proof. split; [repeat (constructor; [split; lia|]); constructor|vm_compute; reflexivity]. Qed.
