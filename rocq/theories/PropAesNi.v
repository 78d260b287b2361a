(** C58: the AES code written with processor instructions equals the portable code. *)
From Verif Require Import Base Blocks Hash HashLemmas DerLemmas CmacLemmas Cipher CipherSpec CipherLemmas CipherLemmas2 CipherLemmas3 CipherLemmas4 AesSpec2 AesNi Leqb.

Lemma InvShift_fips s : length s = 16%nat -> InvShiftRows s = fips_InvShiftRows s.
Proof. intros L. do 16 (destruct s as [|? s]; [discriminate L|]). destruct s; [|discriminate L]. reflexivity. Qed.
Lemma aes_Si_fips y : byte_ok y -> aes_Si y = fips_invsbox y.
Proof.
  intros H. unfold fips_invsbox. change (map Z.of_nat (seq 0 256)) with idx.
  destruct (aes_Si_inv y H) as [E1 B1].
  assert (I : forall x, byte_ok x -> In x idx).
  { intros x Hx. unfold idx. apply in_map_iff. exists (Z.to_nat x). unfold byte_ok in Hx. change (2 ^ 8) with 256 in Hx.
    split; [lia|]. apply in_seq. lia. }
  assert (J : forall x, In x idx -> byte_ok x).
  { intros x Hx. unfold idx in Hx. apply in_map_iff in Hx. destruct Hx as (k & <- & Hk). apply in_seq in Hk. unfold byte_ok. lia. }
  destruct (find _ idx) as [x|] eqn:F.
  - apply find_some in F. destruct F as [Fi Fe]. apply Z.eqb_eq in Fe. pose proof (J x Fi) as Bx.
    rewrite <- aes_S_fips in Fe by exact Bx. rewrite <- Fe. apply aes_S_inv, Bx.
  - exfalso. pose proof (find_none _ _ F (aes_Si y) (I _ B1)) as N. cbv beta in N.
    rewrite <- aes_S_fips in N by exact B1. rewrite E1, Z.eqb_refl in N. discriminate.
Qed.
Lemma InvSub_fips s : blk s -> InvSubBytes s = fips_InvSubBytes s.
Proof.
  intros H. rewrite InvSubBytes_map by auto. list16 s H. unfold fips_InvSubBytes, build, st.
  cbn [map seq Nat.modulo Nat.divmod fst snd Nat.div Nat.sub Nat.add Nat.mul nthZ nth].
  rewrite !aes_Si_fips by assumption. reflexivity.
Qed.
Lemma gmul_c c : forallb (fun x => gmul x c =? gf_mul c x) idx = true -> forall x, byte_ok x -> gmul x c = gf_mul c x.
Proof. intros F x H. apply Z.eqb_eq. exact (all_bytes _ F x H). Qed.
Lemma InvMix_fips s : blk s -> InvMixColumns s = fips_InvMixColumns s.
Proof.
  intros H. list16 s H. unfold InvMixColumns. fold dec_a. rewrite mix_cols. unfold mixes. cbn [map seq app].
  rewrite !mixcol_S4. unfold fips_InvMixColumns, build, st, dec_a.
  cbn [map seq Nat.modulo Nat.divmod fst snd Nat.div Nat.sub Nat.add Nat.mul nthZ nth].
  rewrite !(gmul_c 0x0e), !(gmul_c 0x0b), !(gmul_c 0x0d), !(gmul_c 0x09) by (assumption || (vm_compute; reflexivity)). unfold S4.
  assert (P1 : forall a b c d, Z.lxor (Z.lxor (Z.lxor a b) c) d = Z.lxor (Z.lxor a b) (Z.lxor c d)) by (intros; now rewrite !Z.lxor_assoc).
  assert (P2 : forall a b c d, Z.lxor (Z.lxor (Z.lxor a b) c) d = Z.lxor (Z.lxor b c) (Z.lxor d a)).
  { intros. rewrite P1. rewrite (Z.lxor_comm a b), lxor4. rewrite (Z.lxor_comm a d). reflexivity. }
  assert (P3 : forall a b c d, Z.lxor (Z.lxor (Z.lxor a b) c) d = Z.lxor (Z.lxor c d) (Z.lxor a b)).
  { intros. rewrite P1. apply Z.lxor_comm. }
  assert (P4 : forall a b c d, Z.lxor (Z.lxor (Z.lxor a b) c) d = Z.lxor (Z.lxor d a) (Z.lxor b c)).
  { intros. rewrite (Z.lxor_comm _ d), !Z.lxor_assoc. reflexivity. }
  repeat (apply f_equal2; [first [apply P1|apply P2|apply P3|apply P4]|]). reflexivity.
Qed.
Lemma InvMix_blk s : blk s -> blk (InvMixColumns s). Proof. apply mix_blk. Qed.
Lemma Mix_blk s : blk s -> blk (MixColumns s). Proof. apply mix_blk. Qed.
Lemma pxor_blk a b : blk a -> blk b -> blk (pxor a b). Proof. apply xorb_blk. Qed.
(** substitution and row shift commute *)
Lemma Sub_Shift s : blk s -> SubBytes (ShiftRows s) = ShiftRows (SubBytes s).
Proof.
  intros H. rewrite !SubBytes_map by (auto using Shift_blk).
  rewrite !ShiftRows_build by (rewrite ?map_length; apply H). list16 s H. reflexivity.
Qed.
Lemma InvMix_xor a b : blk a -> blk b -> InvMixColumns (xorb_list a b) = xorb_list (InvMixColumns a) (InvMixColumns b).
Proof.
  intros Ha Hb. unfold InvMixColumns. fold dec_a. list16 a Ha. list16 b Hb. unfold xorb_list. cbn [combine map fst snd].
  rewrite !mix_cols. unfold mixes. cbn [map seq app combine fst snd].
  rewrite !mixcol_S4. rewrite !gmul_xor by assumption. rewrite !S4_lxor. reflexivity.
Qed.

Section Ni.
  Variable Nr : nat.
  Variable w : list Z.
  Hypothesis K : keyed Nr w.
  Lemma ld_blk i : (i <= Nr)%nat -> blk (ld16 w i).
  Proof. intros H. exact (slice_key Nr w i K H). Qed.
  Lemma ld_ark s i : pxor s (ld16 w i) = AddRoundKey s w i. Proof. reflexivity. Qed.
  Lemma aesenc_er s i : (i <= Nr)%nat -> blk s -> aesenc s (ld16 w i) = AddRoundKey (MixColumns (ShiftRows (SubBytes s))) w i.
  Proof.
    intros Hi H. unfold aesenc. rewrite ld_ark. f_equal.
    rewrite <- ShiftRows_build by apply H. rewrite <- Sub_fips by now apply Shift_blk.
    rewrite Sub_Shift by auto. symmetry. apply Mix_fips. now apply Shift_blk, SubBytes_blk.
  Qed.
  Lemma enclast_eq s i : blk s -> aesenclast s (ld16 w i) = AddRoundKey (ShiftRows (SubBytes s)) w i.
  Proof.
    intros H. unfold aesenclast. rewrite ld_ark. f_equal.
    rewrite <- ShiftRows_build by apply H. rewrite <- Sub_fips by now apply Shift_blk. now apply Sub_Shift.
  Qed.
  Lemma vcipher_er s i : (i <= Nr)%nat -> blk s -> vcipher s (ld16 w i) = AddRoundKey (MixColumns (ShiftRows (SubBytes s))) w i.
  Proof.
    intros Hi H. unfold vcipher. rewrite ld_ark. f_equal.
    rewrite <- Sub_fips by auto. rewrite <- ShiftRows_build by apply (SubBytes_blk s H).
    symmetry. apply Mix_fips. now apply Shift_blk, SubBytes_blk.
  Qed.
  Lemma vcipherlast_eq s i : blk s -> vcipherlast s (ld16 w i) = AddRoundKey (ShiftRows (SubBytes s)) w i.
  Proof.
    intros H. unfold vcipherlast. rewrite ld_ark. f_equal.
    rewrite <- Sub_fips by auto. now rewrite <- ShiftRows_build by apply (SubBytes_blk s H).
  Qed.
  Lemma iss_eq s : blk s -> fips_InvSubBytes (fips_InvShiftRows s) = InvSubBytes (InvShiftRows s).
  Proof. intros H. rewrite <- InvShift_fips by apply H. rewrite <- InvSub_fips by now apply InvShift_blk. reflexivity. Qed.
  Lemma iss_blk s : blk s -> blk (InvSubBytes (InvShiftRows s)).
  Proof. intros H. now apply InvSubBytes_blk, InvShift_blk. Qed.
  Lemma aesdec_dr s i : (i <= Nr)%nat -> blk s ->
    aesdec s (aesimc (ld16 w i)) = InvMixColumns (AddRoundKey (InvSubBytes (InvShiftRows s)) w i).
  Proof.
    intros Hi H. unfold aesdec, aesimc. rewrite iss_eq by auto. pose proof (iss_blk s H) as B.
    rewrite <- !InvMix_fips by (auto using ld_blk). symmetry. apply InvMix_xor; [exact B|now apply ld_blk].
  Qed.
  Lemma declast_eq s i : blk s -> aesdeclast s (ld16 w i) = AddRoundKey (InvSubBytes (InvShiftRows s)) w i.
  Proof. intros H. unfold aesdeclast. now rewrite iss_eq by auto. Qed.
  Lemma vncipher_dr s i : (i <= Nr)%nat -> blk s ->
    vncipher s (ld16 w i) = InvMixColumns (AddRoundKey (InvSubBytes (InvShiftRows s)) w i).
  Proof.
    intros Hi H. unfold vncipher. rewrite iss_eq by auto. rewrite ld_ark. symmetry. apply InvMix_fips.
    apply (ark_blk Nr); auto using iss_blk.
  Qed.
  Lemma fold_eq (f g : list Z -> nat -> list Z) l : (forall s i, In i l -> blk s -> f s i = g s i) -> (forall s i, In i l -> blk s -> blk (g s i)) ->
    forall s, blk s -> fold_left f l s = fold_left g l s /\ blk (fold_left g l s).
  Proof.
    induction l as [|i l IH]; intros E B s Hs; [split; [reflexivity|exact Hs]|]. cbn [fold_left].
    rewrite E by (auto; now left). apply IH; [intros; apply E; auto; now right|intros; apply B; auto; now right|].
    apply B; auto. now left.
  Qed.
  Lemma seq_le i : In i (seq 1 (Nr - 1)) -> (i <= Nr)%nat. Proof. intros H. apply in_seq in H. lia. Qed.
  Lemma rseq_le i : In i (rev (seq 1 (Nr - 1))) -> (i <= Nr)%nat. Proof. intros H. apply in_rev in H. now apply seq_le. Qed.
  Lemma x86_enc s : blk s -> x86_Cipher Nr w s = Rijndael_Cipher Nr w s.
  Proof.
    intros H. unfold x86_Cipher, Rijndael_Cipher. cbv zeta.
    destruct (fold_eq (fun s i => aesenc s (ld16 w i)) (er w) (seq 1 (Nr - 1))
      (fun s i Hi Hs => aesenc_er s i (seq_le i Hi) Hs) (fun s i Hi Hs => er_blk Nr w K s i (seq_le i Hi) Hs)
      (AddRoundKey s w 0) (ark_blk Nr w s 0 K (Nat.le_0_l _) H)) as [E B].
    rewrite ld_ark. rewrite E. apply enclast_eq, B.
  Qed.
  Lemma ppc_enc s : blk s -> ppc_Cipher Nr w s = Rijndael_Cipher Nr w s.
  Proof.
    intros H. unfold ppc_Cipher, Rijndael_Cipher. cbv zeta.
    destruct (fold_eq (fun s i => vcipher s (ld16 w i)) (er w) (seq 1 (Nr - 1))
      (fun s i Hi Hs => vcipher_er s i (seq_le i Hi) Hs) (fun s i Hi Hs => er_blk Nr w K s i (seq_le i Hi) Hs)
      (AddRoundKey s w 0) (ark_blk Nr w s 0 K (Nat.le_0_l _) H)) as [E B].
    rewrite ld_ark. rewrite E. apply vcipherlast_eq, B.
  Qed.
  Lemma x86_dec s : blk s -> x86_InvCipher Nr w s = Rijndael_InvCipher Nr w s.
  Proof.
    intros H. unfold x86_InvCipher, Rijndael_InvCipher. cbv zeta.
    destruct (fold_eq (fun s i => aesdec s (aesimc (ld16 w i))) (dr w) (rev (seq 1 (Nr - 1)))
      (fun s i Hi Hs => aesdec_dr s i (rseq_le i Hi) Hs) (fun s i Hi Hs => dr_blk Nr w K s i (rseq_le i Hi) Hs)
      (AddRoundKey s w Nr) (ark_blk Nr w s Nr K (Nat.le_refl _) H)) as [E B].
    rewrite ld_ark. rewrite E. apply declast_eq, B.
  Qed.
  Lemma ppc_dec s : blk s -> ppc_InvCipher Nr w s = Rijndael_InvCipher Nr w s.
  Proof.
    intros H. unfold ppc_InvCipher, Rijndael_InvCipher. cbv zeta.
    destruct (fold_eq (fun s i => vncipher s (ld16 w i)) (dr w) (rev (seq 1 (Nr - 1)))
      (fun s i Hi Hs => vncipher_dr s i (rseq_le i Hi) Hs) (fun s i Hi Hs => dr_blk Nr w K s i (rseq_le i Hi) Hs)
      (AddRoundKey s w Nr) (ark_blk Nr w s Nr K (Nat.le_refl _) H)) as [E B].
    rewrite ld_ark. rewrite E. apply declast_eq, B.
  Qed.
  (** Arm: the registers hold the state one half-round later than the portable loop *)
  Lemma vaese_SS s i : (i <= Nr)%nat -> blk s -> vaese s (ld16 w i) = ShiftRows (SubBytes (AddRoundKey s w i)).
  Proof.
    intros Hi H. unfold vaese. rewrite ld_ark. pose proof (ark_blk Nr w s i K Hi H) as B.
    rewrite <- ShiftRows_build by apply B. rewrite <- Sub_fips by now apply Shift_blk. now apply Sub_Shift.
  Qed.
  Lemma fold_sim (f h : list Z -> nat -> list Z) (g : list Z -> list Z) :
    (forall s i, (i <= Nr)%nat -> blk s -> f (g s) i = g (h s i)) -> (forall s i, (i <= Nr)%nat -> blk s -> blk (h s i)) ->
    forall l, Forall (fun i => (i <= Nr)%nat) l -> forall s, blk s -> fold_left f l (g s) = g (fold_left h l s).
  Proof.
    intros E B l. induction l as [|i l IH]; intros F s Hs; [reflexivity|]. cbn [fold_left]. apply Forall_cons_iff in F. destruct F as [Hi F].
    rewrite E by assumption. apply IH; [exact F|]. now apply B.
  Qed.
  Lemma arm_step s i : (i <= Nr)%nat -> blk s -> vaese (vaesmc (SS s)) (ld16 w i) = SS (er w s i).
  Proof.
    intros Hi Hs. pose proof (SS_blk s Hs) as B. unfold vaesmc. rewrite <- Mix_fips by exact B.
    rewrite vaese_SS by (auto using Mix_blk). unfold er, SS. reflexivity.
  Qed.
  Lemma seqF : Forall (fun i => (i <= Nr)%nat) (seq 1 (Nr - 1)).
  Proof. apply Forall_forall. intros i Hi. now apply seq_le. Qed.
  Lemma arm_enc s : blk s -> arm_Cipher Nr w s = Rijndael_Cipher Nr w s.
  Proof.
    intros H. unfold arm_Cipher, Rijndael_Cipher. cbv zeta. rewrite vaese_SS by (auto; lia). fold (SS (AddRoundKey s w 0)).
    
    rewrite (fold_sim (fun state i => vaese (vaesmc state) (ld16 w i)) (er w) SS arm_step (er_blk Nr w K) _ seqF); [reflexivity|]. apply (ark_blk Nr); auto. lia.
  Qed.
  Lemma vaesd_SS s i : (i <= Nr)%nat -> blk s -> vaesd s (ld16 w i) = InvSubBytes (InvShiftRows (AddRoundKey s w i)).
  Proof. intros Hi H. unfold vaesd. rewrite ld_ark. apply iss_eq. now apply (ark_blk Nr). Qed.
  Lemma arm_dstep s i : (i <= Nr)%nat -> blk s -> vaesd (vaesimc (iSS s)) (vaesimc (ld16 w i)) = iSS (dr w s i).
  Proof.
    intros Hi Hs. pose proof (iSS_blk s Hs) as B. pose proof (ld_blk i Hi) as BK.
    unfold vaesd, vaesimc. rewrite <- !InvMix_fips by auto. unfold pxor. rewrite <- InvMix_xor by auto.
    apply iss_eq. apply (dr_blk Nr w K s i Hi Hs).
  Qed.
  Lemma arm_dec s : blk s -> arm_InvCipher Nr w s = Rijndael_InvCipher Nr w s.
  Proof.
    intros H. unfold arm_InvCipher, Rijndael_InvCipher. cbv zeta. rewrite vaesd_SS by (auto; lia). fold (iSS (AddRoundKey s w Nr)).
    
    rewrite (fold_sim (fun state i => vaesd (vaesimc state) (vaesimc (ld16 w i))) (dr w) iSS arm_dstep (dr_blk Nr w K) _ (Forall_rev seqF)); [reflexivity|]. apply (ark_blk Nr); auto.
  Qed.
End Ni.

(** 16 octets *)
Definition block16 (b : list Z) : Prop := length b = 16%nat /\ bytes_ok b.
(** On x86, Arm and Power alike: for every number of rounds, every octet string in the shape of
    a key schedule and every block, both directions return what the portable C returns. *)
Theorem C58_ni_equals_portable : forall Nr w b, length w = (16 * (Nr + 1))%nat -> bytes_ok w -> block16 b ->
  x86_Cipher Nr w b = Rijndael_Cipher Nr w b /\ x86_InvCipher Nr w b = Rijndael_InvCipher Nr w b /\
  arm_Cipher Nr w b = Rijndael_Cipher Nr w b /\ arm_InvCipher Nr w b = Rijndael_InvCipher Nr w b /\
  ppc_Cipher Nr w b = Rijndael_Cipher Nr w b /\ ppc_InvCipher Nr w b = Rijndael_InvCipher Nr w b.
Proof.
  intros Nr w b L B Hb. pose proof (conj L B : keyed Nr w) as K.
  split; [now apply x86_enc|]. split; [now apply x86_dec|]. split; [now apply arm_enc|]. split; [now apply arm_dec|].
  split; [now apply ppc_enc|now apply ppc_dec].
Qed.
Print Assumptions C58_ni_equals_portable.

(** With the shared key expansion, the instruction code computes FIPS 197 and its inverse
    cipher undoes it; (words per key, rounds) is (4,10), (6,12) or (8,14). *)
Theorem C58_ni_is_fips197 : forall Nk Nr key b, In (Nk, Nr) [(4, 10); (6, 12); (8, 14)]%nat ->
  length key = (4 * Nk)%nat -> bytes_ok key -> block16 b ->
  let w := Rijndael_KeyExpansion Nk Nr key in
  x86_Cipher Nr w b = fips_aes Nk Nr key b /\ arm_Cipher Nr w b = fips_aes Nk Nr key b /\ ppc_Cipher Nr w b = fips_aes Nk Nr key b /\
  x86_InvCipher Nr w (fips_aes Nk Nr key b) = b /\ arm_InvCipher Nr w (fips_aes Nk Nr key b) = b /\
  ppc_InvCipher Nr w (fips_aes Nk Nr key b) = b.
Proof.
  intros Nk Nr key b HI HL HB Hb w.
  assert (HN : (0 < Nk <= 4 * (Nr + 1))%nat).
  { destruct HI as [E|[E|[E|[]]]]; injection E as <- <-; lia. }
  destruct (aes_fips Nk Nr key b HN HL HB Hb) as [K E]. fold w in K, E.
  pose proof (C58_ni_equals_portable Nr w b (proj1 K) (proj2 K) Hb) as (E1 & _ & E2 & _ & E3 & _).
  pose proof (cipher_blk Nr w K b Hb) as BE. rewrite E in BE.
  pose proof (C58_ni_equals_portable Nr w (fips_aes Nk Nr key b) (proj1 K) (proj2 K) BE) as (_ & D1 & _ & D2 & _ & D3).
  assert (DE : Rijndael_InvCipher Nr w (fips_aes Nk Nr key b) = b) by (rewrite <- E; now apply (aes_dec_enc Nr w K)).
  rewrite E1, E2, E3, D1, D2, D3, E, DE. now split; [|split; [|split; [|split; [|split]]]].
Qed.
Print Assumptions C58_ni_is_fips197.

(** the published key and block of FIPS 197 appendix B meet the hypotheses *)
Example C58_hypotheses_met : In (4, 10)%nat [(4, 10); (6, 12); (8, 14)]%nat /\
  length (be_bytes 16 0x2b7e151628aed2a6abf7158809cf4f3c) = 16%nat /\ bytes_ok (be_bytes 16 0x2b7e151628aed2a6abf7158809cf4f3c) /\
  block16 (be_bytes 16 0x3243f6a8885a308d313198a2e0370734).
Proof. split; [now left|]. split; [reflexivity|]. split; [apply be_bytes_ok|]. split; [reflexivity|apply be_bytes_ok]. Qed.
(** AESENC on the literals of Intel's manual (which prints octet 15 first), and two S-box entries *)
Example C58_instructions :
  aesenc (le_bytes 16 0x7b5b54657374566563746f725d53475d) (le_bytes 16 0x48692853686179295b477565726f6e5d)
    = le_bytes 16 0xa8311c2f9fdba3c58b104b58ded7e595 /\
  fips_invsbox 0x63 = 0 /\ fips_invsbox 0x7c = 1.
Proof. split; [|split]; vm_compute; reflexivity. Qed.
