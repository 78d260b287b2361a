(** Property C46: the RSA key codec (src/2-rsa/rsa-*-writer-der.c, rsa-*-export-der.c, rsa-*-parser-der.c).
    [der_RSAPublicKey], [der_RSAPrivateKey]: the DER encodings of RFC 8017 A.1 (RsaDerSpec.v).  [val_le 32 w]: the integer
    of a vlong_t.  [reg w]: a vlong_t, i.e. 32-bit words, fewer than 2^32 of them.  [UB]: memory is read that is not
    the input or was not written, or an assert fails; [Ret None]: -1 is returned. *)
From Verif Require Import Base Vlong VlongLemmas Der DerLemmas DerLemmas2 RsaDerSpec RsaDer RsaDerLemmas RsaDerLemmas2 RsaDerLemmas3.

Lemma writes_elim f D : writes f D -> f None = Ret (Some (length D, None)) /\
  forall buf, ((length D <= length buf)%nat -> f (Some buf) = Ret (Some (length D, Some (D ++ skipn (length D) buf)))) /\
              ((length buf < length D)%nat -> f (Some buf) = Ret None).
Proof.
  intros (H1 & H2). split; [exact H1|]. intros buf. rewrite H2. split; intros L;
  destruct (Nat.ltb_spec (length buf) (length D)); try lia; reflexivity.
Qed.

(* ---------------- writing ---------------- *)
(** The public key writer (also the exporter from a private key): without a buffer, the number of octets; with one that is
    large enough, exactly the DER encoding at its start and the rest as it was; with a smaller one, -1. *)
Theorem C46_public_encode : forall n e : list Z, reg n -> reg e ->
  let D := der_RSAPublicKey (val_le 32 n) (val_le 32 e) in Z.of_nat (length D) < 2 ^ 56 ->
  ber_tlv_encode_RSAPublicKey n e None = Ret (Some (length D, None)) /\
  forall buf : list Z,
    ((length D <= length buf)%nat -> ber_tlv_encode_RSAPublicKey n e (Some buf) = Ret (Some (length D, Some (D ++ skipn (length D) buf)))) /\
    ((length buf < length D)%nat -> ber_tlv_encode_RSAPublicKey n e (Some buf) = Ret None).
Proof. intros n e Hn He D HL. apply (writes_elim (ber_tlv_encode_RSAPublicKey n e)). now apply pub_writes. Qed.
Print Assumptions C46_public_encode.

(** The private key writer, the same, for keys of two or three primes *)
Theorem C46_private_encode_partial : forall k : rsa_priv, key_ok k -> (length (r_other k) <= 1)%nat ->
  let D := der_RSAPrivateKey (key_val k) in Z.of_nat (length D) < 2 ^ 56 ->
  ber_tlv_encode_RSAPrivateKey k None = Ret (Some (length D, None)) /\
  forall buf : list Z,
    ((length D <= length buf)%nat -> ber_tlv_encode_RSAPrivateKey k (Some buf) = Ret (Some (length D, Some (D ++ skipn (length D) buf)))) /\
    ((length buf < length D)%nat -> ber_tlv_encode_RSAPrivateKey k (Some buf) = Ret None).
Proof. intros k K HO D HL. apply (writes_elim (ber_tlv_encode_RSAPrivateKey k)). now apply priv_writes. Qed.
Print Assumptions C46_private_encode_partial.

(** The length announced without a buffer is right for any number of primes *)
Theorem C46_private_length : forall k : rsa_priv, key_ok k -> Z.of_nat (length (der_RSAPrivateKey (key_val k))) < 2 ^ 56 ->
  ber_tlv_encode_RSAPrivateKey k None = Ret (Some (length (der_RSAPrivateKey (key_val k)), None)).
Proof. exact priv_null. Qed.
Print Assumptions C46_private_length.

(** ... but no key of four or more primes can be written: given the announced length, the writer copies the header of the
    second OtherPrimeInfo from beyond what it has put into its 16-octet tlbuf (rsa-privkey-writer-der.c:215-216). *)
Theorem C46_four_primes_refuted : forall k : rsa_priv, key_ok k -> (2 <= length (r_other k))%nat ->
  Z.of_nat (length (der_RSAPrivateKey (key_val k))) < 2 ^ 56 ->
  forall buf : list Z, (length (der_RSAPrivateKey (key_val k)) <= length buf)%nat -> ber_tlv_encode_RSAPrivateKey k (Some buf) = UB.
Proof.
  intros k K HO HL buf HB. destruct (r_other k) as [|o1 [|o2 os]] eqn:E; [cbn in HO; lia|cbn in HO; lia|].
  now apply (priv_ub k o1 o2 os).
Qed.
Print Assumptions C46_four_primes_refuted.

(* ---------------- reading ---------------- *)
(** The parsers read back the integers of a DER encoding, whatever follows it, for any number of primes, and the bit
    length of the modulus. *)
Theorem C46_public_decode : forall (n e : Z) (rest : list Z), 0 <= n -> 0 <= e ->
  Z.of_nat (length (der_RSAPublicKey n e)) < 2 ^ 56 ->
  exists size c, ber_tlv_decode_RSAPublicKey (der_RSAPublicKey n e ++ rest) = Ret (Some (size, c)) /\
    holds (p_n c) n /\ holds (p_e c) e /\ p_bits c = (if n =? 0 then 0 else Z.log2 n + 1).
Proof. exact pub_decode. Qed.
Print Assumptions C46_public_decode.

Theorem C46_private_decode : forall (k : rsa_key) (rest : list Z), key_nonneg k ->
  Z.of_nat (length (der_RSAPrivateKey k)) < 2 ^ 56 ->
  exists size c, ber_tlv_decode_RSAPrivateKey (der_RSAPrivateKey k ++ rest) = Ret (Some (size, c)) /\
    (holds (s_n c) (k_n k) /\ holds (s_e c) (k_e k) /\ holds (s_d c) (k_d k) /\ holds (s_p c) (k_p k) /\ holds (s_q c) (k_q k) /\
     holds (s_dP c) (k_dP k) /\ holds (s_dQ c) (k_dQ k) /\ holds (s_qInv c) (k_qInv k) /\ Forall2 holds3 (s_other c) (k_other k)) /\
    s_bits c = (if k_n k =? 0 then 0 else Z.log2 (k_n k) + 1).
Proof. exact priv_decode. Qed.
Print Assumptions C46_private_decode.

(** What is written is read back *)
Theorem C46_public_roundtrip : forall n e : list Z, reg n -> reg e ->
  Z.of_nat (length (der_RSAPublicKey (val_le 32 n) (val_le 32 e))) < 2 ^ 56 ->
  forall buf len enc, ber_tlv_encode_RSAPublicKey n e (Some buf) = Ret (Some (len, Some enc)) ->
  exists size c, ber_tlv_decode_RSAPublicKey enc = Ret (Some (size, c)) /\ holds (p_n c) (val_le 32 n) /\ holds (p_e c) (val_le 32 e).
Proof.
  intros n e Hn He HL buf len enc H. destruct (C46_public_encode n e Hn He HL) as (_ & W). destruct (W buf) as (W1 & W2).
  destruct (Nat.lt_ge_cases (length buf) (length (der_RSAPublicKey (val_le 32 n) (val_le 32 e)))) as [L|L].
  - rewrite W2 in H by auto. discriminate.
  - rewrite W1 in H by auto. apply Ret_inj in H. injection H as _ <-.
    destruct (C46_public_decode (val_le 32 n) (val_le 32 e) (skipn (length (der_RSAPublicKey (val_le 32 n) (val_le 32 e))) buf)) as (s & c & D & H1 & H2 & _); auto.
    + apply vval_bound, Hn.
    + apply vval_bound, He.
    + eauto.
Qed.
Print Assumptions C46_public_roundtrip.

Lemma key_val_nonneg k : key_ok k -> key_nonneg (key_val k).
Proof.
  intros (H & HO). split.
  - change (Forall (fun v => 0 <= v) (map (val_le 32) [r_n k; r_e k; r_d k; r_p k; r_q k; r_dP k; r_dQ k; r_qInv k])).
    apply Forall_map. eapply Forall_impl; [|exact H]. intros w (W & _). apply vval_bound, W.
  - cbn [key_val k_other]. apply Forall_map. eapply Forall_impl; [|exact HO]. intros [[r d] t] (R1 & R2 & R3).
    cbn [val3]. split; [apply vval_bound, R1|]. split; [apply vval_bound, R2|apply vval_bound, R3].
Qed.
Theorem C46_private_roundtrip_partial : forall k : rsa_priv, key_ok k -> (length (r_other k) <= 1)%nat ->
  Z.of_nat (length (der_RSAPrivateKey (key_val k))) < 2 ^ 56 ->
  forall buf len enc, ber_tlv_encode_RSAPrivateKey k (Some buf) = Ret (Some (len, Some enc)) ->
  exists size c, ber_tlv_decode_RSAPrivateKey enc = Ret (Some (size, c)) /\ ctx_holds c (key_val k).
Proof.
  intros k K HO HL buf len enc H. destruct (C46_private_encode_partial k K HO HL) as (_ & W). destruct (W buf) as (W1 & W2).
  destruct (Nat.lt_ge_cases (length buf) (length (der_RSAPrivateKey (key_val k)))) as [L|L].
  - rewrite W2 in H by auto. discriminate.
  - rewrite W1 in H by auto. apply Ret_inj in H. injection H as _ <-.
    destruct (C46_private_decode (key_val k) (skipn (length (der_RSAPrivateKey (key_val k))) buf)) as (s & c & D & H1 & _); auto.
    + now apply key_val_nonneg.
    + eauto.
Qed.
Print Assumptions C46_private_roundtrip_partial.

(** Memory: on any input whatsoever, what the parsers store fits exactly into the number of octets they announce without a
    context: the integers and the working registers follow one another without overlap from the header on, and the registers
    have as many words as the modulus.  The number fits an int32_t for inputs below 64 MiB. *)
Theorem C46_public_memory : forall (enc : list Z) (size : Z) (c : rsa_pub_ctx),
  ber_tlv_decode_RSAPublicKey enc = Ret (Some (size, c)) ->
  packed 28 (block (p_n c) :: map (fun o => (o, 4 * (1 + p_wc c))) (p_w c) ++ [block (p_e c)]) size /\
  length (p_w c) = 4%nat /\ p_wc c = Z.of_nat (length (vo_words (p_n c))) /\
  (Z.of_nat (length enc) < 2 ^ 26 -> size < 2 ^ 31).
Proof.
  intros enc size c H. destruct (pub_layout enc size c H) as (H1 & H2 & H3 & H4).
  split; [exact H1|]. split; [exact H2|]. split; [exact H3|]. lia.
Qed.
Print Assumptions C46_public_memory.

Theorem C46_private_memory : forall (enc : list Z) (size : Z),
  ber_tlv_decode_RSAPrivateKey_size enc = Ret (Some size) ->
  (Z.of_nat (length enc) < 2 ^ 26 -> size < 2 ^ 31) /\
  exists c, ber_tlv_decode_RSAPrivateKey enc = Ret (Some (size, c)) /\
    s_count c = Z.of_nat (length (s_other c)) /\ length (s_w c) = 5%nat /\ s_wc c = Z.of_nat (length (vo_words (s_n c))) /\
    packed (60 + 12 * s_count c)
      (block (s_n c) :: map (fun o => (o, 4 * (1 + s_wc c))) (s_w c) ++
       map block [s_e c; s_d c; s_p c; s_q c; s_dP c; s_dQ c; s_qInv c] ++ concat (map blocks3 (s_other c))) size.
Proof.
  intros enc size H. unfold ber_tlv_decode_RSAPrivateKey_size in H.
  destruct (decode_priv_pass None enc) as [|[[[ret cnt] c0]|]] eqn:E; cbn [bind] in H; try discriminate.
  apply Ret_inj in H. injection H as ->. destruct (priv_agree enc size cnt c0 E) as (c & D & H1 & H2 & H3 & H4 & H5 & H6).
  split; [lia|]. exists c. split; [unfold ber_tlv_decode_RSAPrivateKey; rewrite E; cbn [bind]; rewrite D; reflexivity|].
  split; [congruence|]. split; [exact H3|]. split; [exact H4|]. rewrite H1. exact H5.
Qed.
Print Assumptions C46_private_memory.
(** If it announces nothing, it stores nothing *)
Theorem C46_private_reject : forall enc : list Z, ber_tlv_decode_RSAPrivateKey_size enc = Ret None -> ber_tlv_decode_RSAPrivateKey enc = Ret None.
Proof.
  intros enc. unfold ber_tlv_decode_RSAPrivateKey_size, ber_tlv_decode_RSAPrivateKey.
  destruct (decode_priv_pass None enc) as [|[[[ret cnt] c0]|]]; cbn [bind]; try discriminate. reflexivity.
Qed.
Print Assumptions C46_private_reject.

(** A parser on an untrusted file: truncated input makes it read past the end; a version other than 0 and 1 is a failed
    assert; and the SEQUENCE's length is not respected: INTEGERs that lie outside of it are taken for the key's. *)
Theorem C46_parser_safe_refuted :
  ~ (forall enc : list Z, bytes_ok enc -> ber_tlv_decode_RSAPublicKey enc <> UB /\ ber_tlv_decode_RSAPrivateKey enc <> UB).
Proof. intros H. destruct (H [0x30; 0x00]) as (H1 & _); [repeat constructor; unfold byte_ok; lia|]. apply H1. vm_compute. reflexivity. Qed.
Print Assumptions C46_parser_safe_refuted.
Definition version_2 : list Z := [0x30; 27] ++ concat (repeat [2; 1; 2] 9).
Theorem C46_version_abort_refuted :
  ~ (forall enc : list Z, bytes_ok enc -> (20 <= length enc)%nat -> ber_tlv_decode_RSAPrivateKey_size enc <> UB).
Proof.
  intros H. apply (H version_2); [|vm_compute; lia|vm_compute; reflexivity].
  unfold version_2. cbn [app concat repeat]. repeat (apply Forall_cons; [unfold byte_ok; lia|]). apply Forall_nil.
Qed.
Print Assumptions C46_version_abort_refuted.
(** the version is read as the 32-bit value of all its octets: 0 is a two-prime key, anything above 1 is the failed assert *)
Definition versioned (v : list Z) : list Z := [0x30; 26 + Z.of_nat (length v); 2; Z.of_nat (length v)] ++ v ++ concat (repeat [2; 1; 2] 8).
Lemma get_version_be v : bytes_ok v -> (length v <= 4)%nat -> get_version v = be_val v.
Proof.
  intros B L. unfold get_version. assert (G : forall v acc, bytes_ok v -> 0 <= acc -> acc * 2 ^ (8 * Z.of_nat (length v)) + 2 ^ (8 * Z.of_nat (length v)) <= 2 ^ 32 ->
    fold_left (fun v b => Z.lor (u32 (Z.shiftl v 8)) b) v acc = acc * 2 ^ (8 * Z.of_nat (length v)) + be_val v).
  { clear. induction v as [|b v IH]; intros acc B A L.
    - cbn [fold_left length]. change (be_val []) with 0. change (2 ^ (8 * Z.of_nat 0)) with 1. lia.
    - inversion B as [|? ? Hb Bv]; subst. unfold byte_ok in Hb. rewrite be_val_cons. cbn [fold_left]. cbn [length] in L |- *. rewrite Nat2Z.inj_succ in *.
      replace (8 * Z.succ (Z.of_nat (length v))) with (8 + 8 * Z.of_nat (length v)) in * by lia. rewrite Z.pow_add_r in * by lia.
      set (P := 2 ^ (8 * Z.of_nat (length v))) in *. assert (PP : 0 < P) by (apply Z.pow_pos_nonneg; lia). clearbody P. change (2 ^ 8) with 256 in *.
      assert (A2 : 0 <= acc * 256 + 256 <= 2 ^ 32) by (clear -A L PP; nia).
      assert (E : Z.lor (u32 (Z.shiftl acc 8)) b = acc * 256 + b).
      { rewrite Z.shiftl_mul_pow2 by lia. change (2 ^ 8) with 256. unfold u32. rewrite Z.mod_small by lia. rewrite Z.lor_comm.
        change 256 with (2 ^ 8). rewrite lor_shift_add by lia. lia. }
      rewrite E, IH by (auto; try lia; clear -A L PP Hb; nia). lia. }
  rewrite (G v 0 B (Z.le_refl 0)); [lia|]. rewrite Z.mul_0_l, Z.add_0_l. apply Z.pow_le_mono_r; lia.
Qed.
Lemma versioned_spec v : (1 <= length v <= 4)%nat ->
  (get_version v = 0 -> exists size, ber_tlv_decode_RSAPrivateKey_size (versioned v) = Ret (Some size)) /\
  (1 < get_version v -> ber_tlv_decode_RSAPrivateKey_size (versioned v) = UB).
Proof.
  intros L. destruct v as [|a [|b [|c [|d [|]]]]]; cbn [length] in L; try lia;
  (split; intros Hz; [eexists|];
   match goal with |- ?l = ?r => let l' := eval lazy -[get_version] in l in change (l' = r) end;
   match type of Hz with context [get_version ?w] => destruct (get_version w) as [|[p|p|]|p] end; try lia; reflexivity).
Qed.
Theorem C46_version_value : forall v : list Z, bytes_ok v -> (1 <= length v <= 4)%nat ->
  (be_val v = 0 -> exists size, ber_tlv_decode_RSAPrivateKey_size (versioned v) = Ret (Some size)) /\
  (1 < be_val v -> ber_tlv_decode_RSAPrivateKey_size (versioned v) = UB).
Proof. intros v B L. rewrite <- get_version_be by (auto; lia). now apply versioned_spec. Qed.
Print Assumptions C46_version_value.
Example C46_version_nonvacuous : bytes_ok [1; 0] /\ 1 < be_val [1; 0] /\ be_val [0; 0] = 0 /\ version_2 = versioned [2].
Proof. split; [repeat (constructor; [unfold byte_ok; lia|]); constructor|]. split; [reflexivity|]. split; reflexivity. Qed.
Theorem C46_outside_sequence_refuted :
  ~ (forall (enc : list Z) size c, ber_tlv_decode_RSAPublicKey enc = Ret (Some (size, c)) ->
      exists content rest, enc = der_seq content ++ rest /\ (2 <= length content)%nat).
Proof.
  intros H. destruct (ber_tlv_decode_RSAPublicKey [0x30; 0; 2; 1; 5; 2; 1; 3]) as [|[[size c]|]] eqn:E; [vm_compute in E; discriminate| |vm_compute in E; discriminate].
  destruct (H _ _ _ E) as (content & rest & D & L). unfold der_seq, der_tlv, der_len in D.
  destruct (Z.ltb_spec (Z.of_nat (length content)) 128); cbn [app] in D.
  - apply (f_equal (fun l => nth 1 l 0)) in D. cbn [nth] in D. lia.
  - apply (f_equal (fun l => nth 1 l 0)) in D. cbn [nth] in D. pose proof (Z.div_pos (Z.log2 (Z.of_nat (length content))) 8 (Z.log2_nonneg _) ltac:(lia)). lia.
Qed.
Print Assumptions C46_outside_sequence_refuted.

(* ---------------- non-vacuity ---------------- *)
Definition sample_key (os : list (list Z * list Z * list Z)) : rsa_priv :=
  {| r_n := [3233]; r_e := [17; 0]; r_d := [413]; r_p := [61]; r_q := [53]; r_dP := [53]; r_dQ := [49]; r_qInv := [38]; r_other := os |}.
Example C46_sample_ok : key_ok (sample_key []) /\ key_ok (sample_key [([200], [5], [3])]) /\ key_ok (sample_key [([200], [5], [3]); ([7], [5], [3])]).
Proof.
  assert (R : forall v, 0 <= v < 2 ^ 32 -> reg [v]).
  { intros v H. split; [apply Forall_cons; [exact H|apply Forall_nil]|cbn; lia]. }
  assert (R2 : reg [17; 0]).
  { split; [|cbn; lia]. apply Forall_cons; [unfold word_ok; lia|]. apply Forall_cons; [unfold word_ok; lia|]. apply Forall_nil. }
  assert (F : Forall reg [[3233]; [17; 0]; [413]; [61]; [53]; [53]; [49]; [38]]).
  { apply Forall_cons; [apply R; lia|]. apply Forall_cons; [exact R2|]. repeat (apply Forall_cons; [apply R; lia|]). apply Forall_nil. }
  assert (G : reg3 ([200], [5], [3]) /\ reg3 ([7], [5], [3])) by (split; (split; [apply R; lia|split; apply R; lia])). destruct G as (G1 & G2).
  split; [split; [exact F|apply Forall_nil]|]. split; (split; [exact F|]); repeat (apply Forall_cons; [assumption|]); apply Forall_nil.
Qed.
Example C46_sample_public :
  ber_tlv_encode_RSAPublicKey [3233] [17; 0] (Some (repeat 0xAA 10)) = Ret (Some (9%nat, Some [0x30; 7; 2; 2; 0x0C; 0xA1; 2; 1; 17; 0xAA])).
Proof. vm_compute. reflexivity. Qed.
Example C46_sample_two_primes :
  ber_tlv_encode_RSAPrivateKey (sample_key []) (Some (repeat 0xAA 33)) = Ret (Some (31%nat, Some
    [48; 29; 2; 1; 0; 2; 2; 12; 161; 2; 1; 17; 2; 2; 1; 157; 2; 1; 61; 2; 1; 53; 2; 1; 53; 2; 1; 49; 2; 1; 38; 0xAA; 0xAA])).
Proof. vm_compute. reflexivity. Qed.
Example C46_sample_three_primes :
  ber_tlv_encode_RSAPrivateKey (sample_key [([200], [5], [3])]) (Some (repeat 0xAA 46)) = Ret (Some (45%nat, Some
    [48; 43; 2; 1; 1; 2; 2; 12; 161; 2; 1; 17; 2; 2; 1; 157; 2; 1; 61; 2; 1; 53; 2; 1; 53; 2; 1; 49; 2; 1; 38;
     48; 12; 48; 10; 2; 2; 0; 200; 2; 1; 5; 2; 1; 3; 0xAA])).
Proof. vm_compute. reflexivity. Qed.
Example C46_sample_four_primes :
  ber_tlv_encode_RSAPrivateKey (sample_key [([200], [5], [3]); ([7], [5], [3])]) None = Ret (Some (56%nat, None)) /\
  ber_tlv_encode_RSAPrivateKey (sample_key [([200], [5], [3]); ([7], [5], [3])]) (Some (repeat 0 56)) = UB.
Proof. vm_compute. auto. Qed.
Example C46_sample_parse :
  ber_tlv_decode_RSAPrivateKey_size (der_RSAPrivateKey (key_val (sample_key [([200], [5], [3]); ([7], [5], [3])]))) = Ret (Some 388).
Proof. vm_compute. reflexivity. Qed.
