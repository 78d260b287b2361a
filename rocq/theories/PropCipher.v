(** C47: block ciphers, and C18 with AES. *)
From Verif Require Import Base Leqb Blocks Hash HashLemmas Cipher CipherSpec CipherLemmas CipherLemmas2 CipherLemmas3 CipherLemmas4
  HashIface Mac MacSpec MacLemmas CmacLemmas PropMac.

(** A block is 16 octets; a key is that many octets. *)
Definition is_block (b : list Z) : Prop := length b = 16%nat /\ bytes_ok b.
Definition is_key (n : nat) (k : list Z) : Prop := length k = n /\ bytes_ok k.

(** A block cipher (key size n octets, its key schedule, encryption and decryption) is a
    family of permutations of the blocks and decryption is the inverse permutation. *)
Definition inverse_ciphers {K : Type} (n : nat) (sched : list Z -> K) (enc dec : K -> list Z -> list Z) : Prop :=
  forall key b, is_key n key -> is_block b ->
    is_block (enc (sched key) b) /\ is_block (dec (sched key) b) /\
    dec (sched key) (enc (sched key) b) = b /\ enc (sched key) (dec (sched key) b) = b.

Theorem C47_aes :
  inverse_ciphers 16 AES128_KeyExpansion AES128_Cipher AES128_InvCipher /\
  inverse_ciphers 24 AES192_KeyExpansion AES192_Cipher AES192_InvCipher /\
  inverse_ciphers 32 AES256_KeyExpansion AES256_Cipher AES256_InvCipher.
Proof.
  assert (G : forall Nk Nr, (0 < Nk <= 4 * (Nr + 1))%nat ->
    inverse_ciphers (4 * Nk) (Rijndael_KeyExpansion Nk Nr) (Rijndael_Cipher Nr) (Rijndael_InvCipher Nr)).
  { intros Nk Nr HN key b [LK BK] Hb. destruct (aes_fips Nk Nr key b HN LK BK Hb) as [K _].
    repeat match goal with |- _ /\ _ => split end; [now apply cipher_blk|now apply invcipher_blk|now apply aes_dec_enc|now apply aes_enc_dec]. }
  split; [apply (G 4%nat 10%nat); lia|]. split; [apply (G 6%nat 12%nat); lia|apply (G 8%nat 14%nat); lia].
Qed.
Print Assumptions C47_aes.

(** AES is the cipher of FIPS 197. *)
Theorem C47_aes_is_fips197 : forall key b, bytes_ok key -> is_block b ->
  (length key = 16%nat -> AES128_Cipher (AES128_KeyExpansion key) b = fips_aes 4 10 key b) /\
  (length key = 24%nat -> AES192_Cipher (AES192_KeyExpansion key) b = fips_aes 6 12 key b) /\
  (length key = 32%nat -> AES256_Cipher (AES256_KeyExpansion key) b = fips_aes 8 14 key b).
Proof.
  intros key b BK Hb. split; [|split]; intros L.
  - apply (aes_fips 4 10 key b); auto. lia.
  - apply (aes_fips 6 12 key b); auto. lia.
  - apply (aes_fips 8 14 key b); auto. lia.
Qed.
Print Assumptions C47_aes_is_fips197.

Lemma two_sided (f g : list Z -> list Z) : (forall s, blk s -> blk (f s)) -> (forall s, blk s -> g (f s) = s) ->
  forall b, is_block b -> is_block (f b) /\ is_block (g b) /\ g (f b) = b /\ f (g b) = b.
Proof.
  intros Hf Hg b Hb. destruct (inv_other_side f g Hf Hg b Hb) as [E B].
  repeat match goal with |- _ /\ _ => split end; [now apply Hf|exact B|now apply Hg|exact E].
Qed.

Theorem C47_sm4 : inverse_ciphers 16 SM4KeySched SM4Encrypt SM4Decrypt.
Proof.
  intros key b _ Hb. generalize (SM4KeySched key). intros rk.
  exact (two_sided (SM4Encrypt rk) (SM4Decrypt rk) (fun s _ => sm4_feistel_blk rk false s) (sm4_dec_enc rk) b Hb).
Qed.
Print Assumptions C47_sm4.

Theorem C47_seed : inverse_ciphers 16 SEED_KeySched SEED_Encrypt SEED_Decrypt.
Proof.
  intros key b _ Hb. generalize (SEED_KeySched key). intros K.
  exact (two_sided (SEED_Encrypt K) (SEED_Decrypt K) (fun s _ => seed_enc_blk K s) (seed_dec_enc K) b Hb).
Qed.
Print Assumptions C47_seed.

Theorem C47_aria :
  inverse_ciphers 16 ARIA128_KeySched (ARIA_Encrypt 12) (ARIA_Decrypt 12) /\
  inverse_ciphers 24 ARIA192_KeySched (ARIA_Encrypt 14) (ARIA_Decrypt 14) /\
  inverse_ciphers 32 ARIA256_KeySched (ARIA_Encrypt 16) (ARIA_Decrypt 16).
Proof.
  assert (G : forall c n C1 C2 C3 key b, c = (2 * (n + 1))%nat -> (c <= 16)%nat -> is_block b ->
    let ek := ARIA_KeySched c C1 C2 C3 key in
    is_block (ARIA_Encrypt c ek b) /\ is_block (ARIA_Decrypt c ek b) /\
    ARIA_Decrypt c ek (ARIA_Encrypt c ek b) = b /\ ARIA_Encrypt c ek (ARIA_Decrypt c ek b) = b).
  { intros c n C1 C2 C3 key b Ec Hc Hb ek. pose proof (aria_sched_keyed c C1 C2 C3 key Hc) as K.
    exact (two_sided (ARIA_Encrypt c ek) (ARIA_Decrypt c ek) (fun s => aria_enc_blk c ek K s n Ec) (fun s => aria_dec_enc c ek K s n Ec) b Hb). }
  split; [|split]; intros key b _ Hb.
  - exact (G 12%nat 5%nat _ _ _ key b eq_refl ltac:(lia) Hb).
  - exact (G 14%nat 6%nat _ _ _ key b eq_refl ltac:(lia) Hb).
  - exact (G 16%nat 7%nat _ _ _ key b eq_refl ltac:(lia) Hb).
Qed.
Print Assumptions C47_aria.

Theorem C47_camellia :
  inverse_ciphers 16 Camellia128_KeySched Camellia128_Encrypt Camellia128_Decrypt /\
  inverse_ciphers 24 Camellia192_KeySched Camellia256_Encrypt Camellia256_Decrypt /\
  inverse_ciphers 32 Camellia256_KeySched Camellia256_Encrypt Camellia256_Decrypt.
Proof.
  assert (G1 : forall kw b, kw_ok kw -> is_block b -> is_block (Camellia128_Encrypt kw b) /\ is_block (Camellia128_Decrypt kw b) /\
    Camellia128_Decrypt kw (Camellia128_Encrypt kw b) = b /\ Camellia128_Encrypt kw (Camellia128_Decrypt kw b) = b).
  { intros kw b K Hb. apply (two_sided (Camellia128_Encrypt kw) (Camellia128_Decrypt kw)); auto; intros s Hs;
    apply (cam_round _ _ s Hs (cam128_ops _ K) (cam128_rev _)). }
  assert (G2 : forall kw b, kw_ok kw -> is_block b -> is_block (Camellia256_Encrypt kw b) /\ is_block (Camellia256_Decrypt kw b) /\
    Camellia256_Decrypt kw (Camellia256_Encrypt kw b) = b /\ Camellia256_Encrypt kw (Camellia256_Decrypt kw b) = b).
  { intros kw b K Hb. apply (two_sided (Camellia256_Encrypt kw) (Camellia256_Decrypt kw)); auto; intros s Hs;
    apply (cam_round _ _ s Hs (cam256_ops _ K) (cam256_rev _)). }
  split; [|split]; intros key b [_ BK] Hb.
  - exact (G1 _ b (cam128_sched key BK) Hb).
  - exact (G2 _ b (cam192_sched key BK) Hb).
  - exact (G2 _ b (cam256_sched key BK) Hb).
Qed.
Print Assumptions C47_camellia.

(** The published test vectors, on the model. *)
Definition seqz n := map Z.of_nat (seq 0 n).
Definition kv : list Z := be_bytes 16 0x2b7e151628aed2a6abf7158809cf4f3c.
Definition pv : list Z := be_bytes 16 0x3243f6a8885a308d313198a2e0370734.
Definition sv : list Z := be_bytes 16 0x0123456789abcdeffedcba9876543210.
Definition tv : list Z := be_bytes 16 0x00112233445566778899aabbccddeeff.
Example kv_ok : is_key 16 kv /\ is_block pv.
Proof. split; (split; [reflexivity|apply be_bytes_ok]). Qed.
(** FIPS 197 appendix B (all the published vectors were evaluated; only one per cipher
    is replayed here, to keep checking fast) *)
Example aes128_vector : AES128_Cipher (AES128_KeyExpansion kv) pv = be_bytes 16 0x3925841d02dc09fbdc118597196a0b32.
Proof. apply leqb_ok. vm_compute. reflexivity. Qed.
(** GB/T 32907 *)
Example sm4_vector : SM4Encrypt (SM4KeySched sv) sv = be_bytes 16 0x681edf34d206965e86b3e94f536e4246.
Proof. apply leqb_ok. vm_compute. reflexivity. Qed.
(** RFC 4269 *)
Example seed_vector : SEED_Encrypt (SEED_KeySched (repeat 0 16)) (seqz 16) = be_bytes 16 0x5EBAC6E0054E166819AFF1CC6D346CDB.
Proof. apply leqb_ok. vm_compute. reflexivity. Qed.
(** RFC 5794 *)
Example aria_vector : ARIA_Encrypt 12 (ARIA128_KeySched (seqz 16)) tv = be_bytes 16 0xd718fbd6ab644c739da95f3be6451778.
Proof. apply leqb_ok. vm_compute. reflexivity. Qed.
(** RFC 3713 *)
Example camellia_vector : Camellia128_Encrypt (Camellia128_KeySched sv) sv = be_bytes 16 0x67673138549669730857065648eabe43.
Proof. apply leqb_ok. vm_compute. reflexivity. Qed.

(** C18 with the block cipher the library really uses: a second Final of AES-128-CMAC
    returns something other than the tag. *)
Theorem C18_aes_final_again_refuted :
  ~ (forall (key m : list Z), is_key 16 key -> bytes_ok m ->
     let E := AES128_Cipher (AES128_KeyExpansion key) in
     let '(x, tag) := CMAC_Final E (CMAC_Update E (CMAC_SetKey E 176) m) 16 in
     snd (CMAC_Final E x 16) = tag).
Proof.
  intros H. specialize (H kv [1;2;3] (proj1 kv_ok) ltac:(repeat (constructor; [unfold byte_ok; lia|]); constructor)).
  cbv zeta in H.
  set (p := CMAC_Final (AES128_Cipher (AES128_KeyExpansion kv)) _ 16) in H.
  assert (B : (nthZ 0 (snd (CMAC_Final (AES128_Cipher (AES128_KeyExpansion kv)) (fst p) 16)) =? nthZ 0 (snd p)) = false)
    by (vm_compute; reflexivity).
  destruct p as [x tag]. cbn [fst snd] in B. rewrite H in B. rewrite Z.eqb_refl in B. discriminate.
Qed.
Print Assumptions C18_aes_final_again_refuted.
