(** cSHAKE/KMAC prefix encoding and the resulting sponge input. *)
From Verif Require Import Base Hash HashSpec Blocks DerLemmas HashLemmas MdLemmas Sponge SpongeSpec KeccakLemmas SpongeLemmas.

Lemma octets_needed_spec n : forall f x, (n < f)%nat ->
  (n <> 0%nat -> 256 ^ Z.of_nat n <= x) -> 0 <= x < 256 ^ Z.of_nat (S n) -> octets_needed f x = S n.
Proof.
  induction n as [|n IH]; intros [|f] x Hf Hl Hu; try lia; cbn [octets_needed].
  - change (256 ^ Z.of_nat 1) with 256 in Hu. replace (x <? 256) with true by lia. reflexivity.
  - specialize (Hl ltac:(lia)).
    assert (P : 256 ^ Z.of_nat (S n) = 256 * 256 ^ Z.of_nat n) by (rewrite Nat2Z.inj_succ, Z.pow_succ_r; lia).
    assert (P2 : 256 ^ Z.of_nat (S (S n)) = 256 * 256 ^ Z.of_nat (S n)) by (rewrite (Nat2Z.inj_succ (S n)), Z.pow_succ_r; lia).
    assert (0 < 256 ^ Z.of_nat n) by (apply Z.pow_pos_nonneg; lia).
    replace (x <? 256) with false by lia. f_equal. apply IH; [lia| |].
    + intros _. apply Z.div_le_lower_bound; lia.
    + split; [apply Z.div_pos; lia|]. apply Z.div_lt_upper_bound; lia.
Qed.

Lemma ilen_olen v : 0 <= v < 2 ^ 64 -> ilen v = olen v.
Proof.
  intros H. unfold ilen, olen.
  destruct (Z.ltb_spec v (2 ^ 56)); cbn [negb]; [|symmetry; apply (octets_needed_spec 7); [lia|intros _; cbn; lia|cbn; lia]].
  destruct (Z.ltb_spec v (2 ^ 48)); cbn [negb]; [|symmetry; apply (octets_needed_spec 6); [lia|intros _; cbn; lia|cbn; lia]].
  destruct (Z.ltb_spec v (2 ^ 40)); cbn [negb]; [|symmetry; apply (octets_needed_spec 5); [lia|intros _; cbn; lia|cbn; lia]].
  destruct (Z.ltb_spec v (2 ^ 32)); cbn [negb]; [|symmetry; apply (octets_needed_spec 4); [lia|intros _; cbn; lia|cbn; lia]].
  destruct (Z.ltb_spec v (2 ^ 24)); cbn [negb]; [|symmetry; apply (octets_needed_spec 3); [lia|intros _; cbn; lia|cbn; lia]].
  destruct (Z.ltb_spec v (2 ^ 16)); cbn [negb]; [|symmetry; apply (octets_needed_spec 2); [lia|intros _; cbn; lia|cbn; lia]].
  destruct (Z.ltb_spec v (2 ^ 8)); cbn [negb]; [|symmetry; apply (octets_needed_spec 1); [lia|intros _; cbn; lia|cbn; lia]].
  symmetry. apply (octets_needed_spec 0); [lia|intros; lia|cbn; lia].
Qed.
Lemma ilen_range v : (1 <= ilen v <= 8)%nat.
Proof. unfold ilen. repeat destruct (negb _); lia. Qed.
Lemma skipn_be8 v : skipn (8 - ilen v) (be_bytes 8 v) = be_bytes (ilen v) v.
Proof.
  pose proof (ilen_range v). replace 8%nat with ((8 - ilen v) + ilen v)%nat at 2 by lia.
  rewrite be_bytes_app. apply skipn_app_exact, be_bytes_length.
Qed.

Section Enc.
  Variables (rate : nat) (lo hi : Z).
  Hypothesis Hr : (0 < rate <= 200)%nat.
  Notation R := (srep KeccakF1600_Permute 200 rate lo hi).
  Let KL S (_ : length S = 200%nat) : length (KeccakF1600_Permute S) = 200%nat := KeccakF_length S.

  Lemma write_rep m x d : R m x -> R (m ++ d) (SHAKE_Write x d).
  Proof. apply update_srep; auto. Qed.
  Lemma left_rep m x v : 0 <= v < 2 ^ 64 -> R m x -> R (m ++ left_encode v) (cshake_left_encode x v).
  Proof.
    intros Hv H. unfold cshake_left_encode, left_encode. rewrite skipn_be8, <- ilen_olen by auto.
    change (Z.of_nat (ilen v) :: be_bytes (ilen v) v) with ([Z.of_nat (ilen v)] ++ be_bytes (ilen v) v).
    rewrite app_assoc. now apply write_rep, write_rep.
  Qed.
  Lemma right_rep m x v : 0 <= v < 2 ^ 64 -> R m x -> R (m ++ right_encode v) (cshake_right_encode x v).
  Proof.
    intros Hv H. unfold cshake_right_encode, right_encode. rewrite skipn_be8, <- ilen_olen by auto.
    rewrite app_assoc. now apply write_rep, write_rep.
  Qed.
  Lemma string_rep m x s : Z.of_nat (length s) * 8 < 2 ^ 64 -> R m x -> R (m ++ encode_string s) (cshake_encode_string x s).
  Proof.
    intros Hs H. unfold cshake_encode_string, encode_string. rewrite app_assoc. apply write_rep.
    unfold u64. rewrite Z.mod_small by lia. rewrite Z.mul_comm. apply left_rep; [lia|auto].
  Qed.
  (** bytepad as the code does it: a whole block of zeros when the length is already a multiple. *)
  Definition code_fill (z : list Z) : list Z := z ++ repeat 0 (rate - length z mod rate).
  Lemma null_rep m x : R m x -> R (code_fill m) (Sponge_Update_null KeccakF1600_Permute x).
  Proof. apply null_srep; auto. Qed.
  Lemma code_fill_ok z : (length z mod rate <> 0)%nat -> code_fill z = zero_fill_to rate z.
  Proof.
    intros H. unfold code_fill, zero_fill_to. do 2 f_equal. pose proof (Nat.mod_upper_bound (length z) rate ltac:(lia)).
    symmetry. apply Nat.mod_small. lia.
  Qed.
End Enc.

Lemma zero_fill_mod rate z : (0 < rate)%nat -> (length (zero_fill_to rate z) mod rate = 0)%nat.
Proof.
  intros Hr. unfold zero_fill_to. rewrite app_length, repeat_length.
  pose proof (Nat.mod_upper_bound (length z) rate ltac:(lia)).
  rewrite Nat.add_mod_idemp_r by lia.
  rewrite (Nat.div_mod (length z) rate) at 1 by lia.
  replace (rate * (length z / rate) + length z mod rate + (rate - length z mod rate))%nat
    with ((length z / rate + 1) * rate)%nat by lia. apply Nat.mod_mul. lia.
Qed.

Lemma code_fill_app rate z1 z2 : (0 < rate)%nat -> (length z1 mod rate = 0)%nat ->
  code_fill rate (z1 ++ z2) = z1 ++ code_fill rate z2.
Proof.
  intros Hr H. unfold code_fill. rewrite <- app_assoc. do 3 f_equal.
  rewrite app_length, <- Nat.add_mod_idemp_l, H by lia. reflexivity.
Qed.

(** The un-padded prefixes whose length decides the block-boundary case. *)
Definition cshake_prefix (rate : nat) (N S : list Z) : list Z :=
  left_encode (Z.of_nat rate) ++ encode_string N ++ encode_string S.
Definition kmac_prefix (rate : nat) (K : list Z) : list Z := left_encode (Z.of_nat rate) ++ encode_string K.

Definition fits (s : list Z) : Prop := bytes_ok s /\ 8 * Z.of_nat (length s) < 2 ^ 64.

Lemma cshake_rep rate x N S : (0 < rate < 200)%nat -> sp_rate x = rate -> fits N -> fits S ->
  N ++ S <> [] -> (length (cshake_prefix rate N S) mod rate <> 0)%nat ->
  srep KeccakF1600_Permute 200 rate 0x04 0x80 (bytepad (encode_string N ++ encode_string S) rate) (cSHAKE_customize x N S).
Proof.
  intros Hr E HN HS NE HM. unfold cSHAKE_customize. rewrite E.
  replace ((length N =? 0) && (length S =? 0))%nat with false.
  2:{ destruct N; [destruct S; [now elim NE|reflexivity]|reflexivity]. }
  unfold bytepad. rewrite <- (code_fill_ok rate) by (auto; lia).
  apply null_rep; [lia|]. rewrite app_assoc. unfold fits in *.
  apply string_rep; [lia|lia|]. apply string_rep; [lia|lia|].
  apply (left_rep rate 4 128 ltac:(lia) [] _ (Z.of_nat rate)); [lia|].
  apply init_srep. lia.
Qed.

Lemma kmac_rep rate K S : (0 < rate < 200)%nat -> fits K -> fits S ->
  (length (cshake_prefix rate kmac_name S) mod rate <> 0)%nat -> (length (kmac_prefix rate K) mod rate <> 0)%nat ->
  srep KeccakF1600_Permute 200 rate 0x04 0x80
    (bytepad (encode_string kmac_name ++ encode_string S) rate ++ bytepad (encode_string K) rate) (KMAC_VInit K S rate).
Proof.
  intros Hr HK HS H1 H2. unfold KMAC_VInit. unfold bytepad at 2.
  rewrite <- (code_fill_ok rate) by (auto; lia).
  rewrite <- code_fill_app; [|lia|apply zero_fill_mod; lia].
  apply null_rep; [lia|]. rewrite app_assoc. unfold fits in *.
  apply string_rep; [lia|lia|]. apply left_rep; [lia|lia|].
  apply cshake_rep; auto; [|discriminate].
  split; [repeat constructor; unfold byte_ok; lia|reflexivity].
Qed.

Lemma left_encode_ok v : 0 <= v < 2 ^ 64 -> bytes_ok (left_encode v).
Proof.
  intros H. unfold left_encode. rewrite <- ilen_olen by auto. constructor; [|apply be_bytes_ok].
  pose proof (ilen_range v). unfold byte_ok. lia.
Qed.
Lemma right_encode_ok v : 0 <= v < 2 ^ 64 -> bytes_ok (right_encode v).
Proof.
  intros H. unfold right_encode. rewrite <- ilen_olen by auto. apply Forall_app. split; [apply be_bytes_ok|].
  constructor; [|constructor]. pose proof (ilen_range v). unfold byte_ok. lia.
Qed.
Lemma encode_string_ok s : fits s -> bytes_ok (encode_string s).
Proof. intros [H1 H2]. apply Forall_app. split; [apply left_encode_ok; lia|auto]. Qed.
Lemma bytepad_ok z rate : bytes_ok z -> (rate < 200)%nat -> bytes_ok (bytepad z rate).
Proof.
  intros H Hr. unfold bytepad, zero_fill_to. repeat (apply Forall_app; split); auto.
  - apply left_encode_ok. lia. - apply repeat0_bytes.
Qed.
