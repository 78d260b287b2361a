(** Properties C08-C13: integer/octet conversion (src/1-integers/vlong-dat.c)
    and the DER codec (src/2-asn1/der-codec.c).
    [be_val]/[le_val] read an octet string as a big/little-endian number;
    [be_bytes n v]/[le_bytes n v] are its n-octet encodings. *)
From Verif Require Import Base Vlong VlongLemmas Der DerLemmas DerLemmas2.

(** C08 *)
Theorem C08_OS2IP_exact : forall (c : nat) (os : list Z), bytes_ok os ->
  words_ok (vlong_OS2IP c os) /\ length (vlong_OS2IP c os) = c /\
  val_le 32 (vlong_OS2IP c os) = be_val os mod 2 ^ (32 * Z.of_nat c).
Proof. exact OS2IP_spec. Qed.
Print Assumptions C08_OS2IP_exact.

Theorem C08_DecLSB_exact : forall (c : nat) (os : list Z), bytes_ok os ->
  words_ok (vlong_DecLSB c os) /\ length (vlong_DecLSB c os) = c /\
  val_le 32 (vlong_DecLSB c os) = le_val os mod 2 ^ (32 * Z.of_nat c).
Proof. exact DecLSB_spec. Qed.
Print Assumptions C08_DecLSB_exact.

Theorem C08_I2OSP_exact : forall (vl : list Z) (len : nat), words_ok vl ->
  bytes_ok (vlong_I2OSP vl len) /\ length (vlong_I2OSP vl len) = len /\
  be_val (vlong_I2OSP vl len) = val_le 32 vl mod 2 ^ (8 * Z.of_nat len).
Proof.
  intros vl len H. rewrite (I2OSP_spec vl len H). split; [apply be_bytes_ok|]. split; [apply be_bytes_length|].
  apply be_val_be_bytes.
Qed.
Print Assumptions C08_I2OSP_exact.

Theorem C08_EncLSB_exact : forall (vl : list Z) (len : nat), words_ok vl ->
  vlong_EncLSB vl len = rev (vlong_I2OSP vl len).
Proof.
  intros vl len H. rewrite (I2OSP_spec vl len H), (EncLSB_spec vl len H).
  unfold be_bytes, le_bytes. now rewrite rev_involutive.
Qed.
Print Assumptions C08_EncLSB_exact.

Theorem C08_octets_roundtrip : forall (os : list Z) (c : nat), bytes_ok os ->
  (length os <= 4 * c)%nat ->
  vlong_I2OSP (vlong_OS2IP c os) (length os) = os /\
  vlong_EncLSB (vlong_DecLSB c os) (length os) = os.
Proof.
  intros os c H L.
  assert (B : forall v, 0 <= v < 2 ^ (8 * Z.of_nat (length os)) -> v mod 2 ^ (32 * Z.of_nat c) = v).
  { intros v Hv. apply Z.mod_small. split; [lia|]. apply Z.lt_le_trans with (1 := proj2 Hv).
    apply Z.pow_le_mono_r; lia. }
  destruct (OS2IP_spec c os H) as (W & _ & V). destruct (DecLSB_spec c os H) as (W2 & _ & V2).
  rewrite (I2OSP_spec _ _ W), V, (EncLSB_spec _ _ W2), V2.
  assert (HR : bytes_ok (rev os)) by (apply Forall_rev; exact H).
  pose proof (be_val_bound os H) as B1. pose proof (be_val_bound (rev os) HR) as B2.
  unfold be_val in B2. rewrite rev_involutive, rev_length in B2.
  rewrite !B by (exact B1 || exact B2). split; [now apply be_bytes_be_val|].
  pose proof (be_bytes_be_val (rev os) HR) as E. rewrite rev_length in E.
  unfold be_bytes, be_val in E. rewrite rev_involutive in E.
  apply (f_equal (@rev Z)) in E. rewrite !rev_involutive in E. exact E.
Qed.
Print Assumptions C08_octets_roundtrip.

Theorem C08_words_roundtrip : forall (vl : list Z) (len : nat), words_ok vl ->
  (4 * length vl <= len)%nat ->
  vlong_OS2IP (length vl) (vlong_I2OSP vl len) = vl /\
  vlong_DecLSB (length vl) (vlong_EncLSB vl len) = vl.
Proof.
  intros vl len H L.
  assert (INJ : forall x, words_ok x -> length x = length vl -> val_le 32 x = val_le 32 vl -> x = vl).
  { intros x Hx Lx Vx. rewrite <- (to_le_val 32 x), <- (to_le_val 32 vl) by (auto; lia). now rewrite Lx, Vx. }
  pose proof (vval_bound vl H) as B.
  assert (B8 : val_le 32 vl mod 2 ^ (8 * Z.of_nat len) = val_le 32 vl).
  { apply Z.mod_small. split; [lia|]. apply Z.lt_le_trans with (1 := proj2 B). apply Z.pow_le_mono_r; lia. }
  destruct (C08_I2OSP_exact vl len H) as (BO & BL & BV). rewrite B8 in BV.
  split; apply INJ.
  - apply OS2IP_spec; auto.
  - apply OS2IP_spec; auto.
  - destruct (OS2IP_spec (length vl) _ BO) as (_ & _ & ->). rewrite BV. now apply Z.mod_small.
  - apply DecLSB_spec. rewrite (C08_EncLSB_exact vl len H). now apply Forall_rev.
  - apply DecLSB_spec. rewrite (C08_EncLSB_exact vl len H). now apply Forall_rev.
  - assert (BR : bytes_ok (vlong_EncLSB vl len)) by (rewrite (C08_EncLSB_exact vl len H); now apply Forall_rev).
    destruct (DecLSB_spec (length vl) _ BR) as (_ & _ & ->). rewrite (C08_EncLSB_exact vl len H).
    change (le_val (rev (vlong_I2OSP vl len))) with (be_val (vlong_I2OSP vl len)). rewrite BV. now apply Z.mod_small.
Qed.
Print Assumptions C08_words_roundtrip.

Theorem C08_topbit_bitlength : forall x : list Z, words_ok x -> x <> [] ->
  vlong_topbit x = (if val_le 32 x =? 0 then 0 else Z.log2 (val_le 32 x) + 1).
Proof. exact topbit_spec. Qed.
Print Assumptions C08_topbit_bitlength.

Example C08_nonvacuous :
  vlong_OS2IP 2 [1; 2; 3; 4; 5] = [2 * 2 ^ 24 + 3 * 2 ^ 16 + 4 * 2 ^ 8 + 5; 1] /\
  vlong_I2OSP [5; 1] 5 = [1; 0; 0; 0; 5] /\ vlong_EncLSB [5; 1] 9 = [5; 0; 0; 0; 1; 0; 0; 0; 0] /\
  vlong_topbit [0; 5; 0] = 35.
Proof. vm_compute. auto. Qed.

(** C09.  [der_length val bs] is X.690 8.1.3 with the minimal number of octets:
    one octet below 128, else 0x80+n followed by the n significant octets. *)
Theorem C09_length_roundtrip : forall val : Z, 0 <= val < 2 ^ 56 ->
  exists bs, ber_put_len val = Ret bs /\
    ((val < 128 /\ bs = [val]) \/
     (128 <= val /\ exists n, (1 <= n)%nat /\ 2 ^ (8 * (Z.of_nat n - 1)) <= val < 2 ^ (8 * Z.of_nat n) /\
        bs = (128 + Z.of_nat n) :: be_bytes n val)) /\
    (forall rest, ber_get_len (bs ++ rest) = Ret (val, rest)) /\
    (forall stack, ber_push_len stack val = (bs ++ stack, Z.of_nat (length bs))).
Proof. exact len_roundtrip. Qed.
Print Assumptions C09_length_roundtrip.

Theorem C09_push_length_roundtrip : forall (val : Z) (stack : list Z), 0 <= val < 2 ^ 64 ->
  exists bs, ber_push_len stack val = (bs ++ stack, Z.of_nat (length bs)) /\ der_length val bs /\
    ber_get_len (bs ++ stack) = Ret (val, stack).
Proof. exact push_len_roundtrip. Qed.
Print Assumptions C09_push_length_roundtrip.

(** The bound 2^56 is sharp: beyond it ber_put_len shifts a 64-bit value by 64. *)
Theorem C09_put_len_limit : forall val : Z, 2 ^ 56 <= val -> ber_put_len val = UB.
Proof. exact put_len_ub. Qed.
Print Assumptions C09_put_len_limit.

Example C09_nonvacuous :
  ber_put_len 127 = Ret [127] /\ ber_put_len 128 = Ret [129; 128] /\ ber_put_len 65536 = Ret [131; 1; 0; 0] /\
  ber_get_len [130; 1; 2; 9] = Ret (258, [9]).
Proof. vm_compute. auto. Qed.

(** C10.  The in-memory form of a tag is BER_TLV_TAG: bit 31 set, class in bits
    29-30, number below. *)
Theorem C10_tag_roundtrip_partial : forall (cls num pc : Z) (rest : list Z),
  0 <= cls <= 3 -> pc = 0 \/ pc = 1 -> 0 <= num < 2 ^ 21 -> num <> 31 ->
  let tag := 2 ^ 31 + cls * 2 ^ 29 + num in
  ber_get_tag (ber_put_tag tag pc ++ rest) = Ret (tag, rest) /\
  ber_get_tag (ber_push_tag rest tag pc) = Ret (tag, rest).
Proof.
  intros cls num pc rest Hc Hp Hn H31 tag. rewrite push_put_tag.
  split; now apply tag_roundtrip.
Qed.
Print Assumptions C10_tag_roundtrip_partial.

Theorem C10_writers_agree : forall (stack : list Z) (val pc : Z),
  ber_push_tag stack val pc = ber_put_tag val pc ++ stack.
Proof. exact push_put_tag. Qed.
Print Assumptions C10_writers_agree.

(** The full 28-bit claim is false of the code: number 31 is written in the
    single-octet form whose low five bits announce continuation octets, and
    numbers of 22 bits or more are written in 4 continuation octets of which the
    reader takes at most 3. *)
Theorem C10_tag_roundtrip_refuted :
  ~ (forall (cls num pc : Z) (rest : list Z), 0 <= cls <= 3 -> pc = 0 \/ pc = 1 -> 0 <= num < 2 ^ 28 ->
      ber_get_tag (ber_put_tag (2 ^ 31 + cls * 2 ^ 29 + num) pc ++ rest)
        = Ret (2 ^ 31 + cls * 2 ^ 29 + num, rest)).
Proof.
  intros H. specialize (H 0 31 0 [5] ltac:(lia) ltac:(auto) ltac:(lia)). vm_compute in H. discriminate.
Qed.
Print Assumptions C10_tag_roundtrip_refuted.

Theorem C10_tag_roundtrip_large_refuted :
  ~ (forall (cls num pc : Z) (rest : list Z), 0 <= cls <= 3 -> pc = 0 \/ pc = 1 -> 2 ^ 21 <= num < 2 ^ 28 ->
      ber_get_tag (ber_put_tag (2 ^ 31 + cls * 2 ^ 29 + num) pc ++ rest)
        = Ret (2 ^ 31 + cls * 2 ^ 29 + num, rest)).
Proof.
  intros H. specialize (H 0 (2 ^ 21) 0 [5] ltac:(lia) ltac:(auto) ltac:(lia)). vm_compute in H. discriminate.
Qed.
Print Assumptions C10_tag_roundtrip_large_refuted.

Example C10_nonvacuous :
  ber_put_tag (2 ^ 31 + 16) 1 = [48] /\ ber_get_tag [48; 7] = Ret (2 ^ 31 + 16, [7]) /\
  ber_put_tag (2 ^ 31 + 2 * 2 ^ 29 + 300) 0 = [159; 130; 44].
Proof. vm_compute. auto. Qed.

(** C11 *)
Theorem C11_reads_in_bounds_refuted :
  ~ (forall buf : list Z, bytes_ok buf -> buf <> [] -> ber_get_hdr buf <> UB).
Proof.
  intros H. apply (H [2]); [repeat constructor; lia|discriminate|reflexivity].
Qed.
Print Assumptions C11_reads_in_bounds_refuted.

(** Exactly when the reads leave the buffer: on an empty buffer, or when a
    readable tag ends at the very end of it. *)
Theorem C11_get_hdr_oob_iff_partial : forall buf : list Z,
  ber_get_hdr buf = UB <->
  buf = [] \/ exists tag, ber_get_tag buf = Ret (tag, []) /\ tag <> 2 ^ 32 - 1.
Proof. exact get_hdr_ub. Qed.
Print Assumptions C11_get_hdr_oob_iff_partial.

Theorem C11_get_tag_len_oob_iff_partial : forall buf : list Z,
  (ber_get_tag buf = UB <-> buf = []) /\ (ber_get_len buf = UB <-> buf = []).
Proof. exact (fun buf => conj (get_tag_ub buf) (get_len_ub buf)). Qed.
Print Assumptions C11_get_tag_len_oob_iff_partial.

Theorem C11_five_octets_safe : forall buf : list Z, (5 <= length buf)%nat -> ber_get_hdr buf <> UB.
Proof. exact get_hdr_safe5. Qed.
Print Assumptions C11_five_octets_safe.

Theorem C11_announced_contents_fit : forall (buf : list Z) (tag len : Z) (rest : list Z),
  ber_get_hdr buf = Ret (Some (tag, len, rest)) ->
  len <= Z.of_nat (length rest) /\ exists pre, (2 <= length pre)%nat /\ buf = pre ++ rest.
Proof. exact get_hdr_fits. Qed.
Print Assumptions C11_announced_contents_fit.

Example C11_nonvacuous :
  ber_get_hdr [2; 1; 7] = Ret (Some (2 ^ 31 + 2, 1, [7])) /\ ber_get_hdr [2; 5; 7] = Ret None.
Proof. vm_compute. auto. Qed.

(** C12.  [der_uint v c]: X.690 8.3 -- c is a non-empty octet string with value
    v, sign bit clear, and the first nine bits are not all zero. *)
Theorem C12_encode_is_der : forall w : list Z, words_ok w ->
  let c := ber_tlv_encode_integer w in
  bytes_ok c /\ c <> [] /\ be_val c = val_le 32 w /\ nthZ 0 c < 128 /\
  (length c = 1%nat \/ ~ (nthZ 0 c = 0 /\ nthZ 1 c < 128)).
Proof. exact encode_integer_der. Qed.
Print Assumptions C12_encode_is_der.

Theorem C12_der_unique : forall (v : Z) (c1 c2 : list Z), der_uint v c1 -> der_uint v c2 -> c1 = c2.
Proof. exact der_uint_unique. Qed.
Print Assumptions C12_der_unique.

Theorem C12_decode_value : forall enc : list Z, bytes_ok enc ->
  words_ok (ber_tlv_decode_integer enc) /\
  length (ber_tlv_decode_integer enc) = (2 + (length enc + 4) / 4)%nat /\
  val_le 32 (ber_tlv_decode_integer enc) = be_val enc.
Proof. exact decode_integer_spec. Qed.
Print Assumptions C12_decode_value.

Theorem C12_roundtrip : forall w : list Z, words_ok w ->
  val_le 32 (ber_tlv_decode_integer (ber_tlv_encode_integer w)) = val_le 32 w.
Proof. exact decode_encode_integer. Qed.
Print Assumptions C12_roundtrip.

Theorem C12_put_integer : forall (w : list Z) (enclen : Z),
  words_ok w -> Z.of_nat (length w) * 4 + 1 < 2 ^ 56 ->
  exists lenb c, der_length (Z.of_nat (length c)) lenb /\ der_uint (val_le 32 w) c /\
    ber_tlv_put_integer w enclen =
      Ret (if enclen <? Z.of_nat (length (2 :: lenb ++ c)) then None else Some (2 :: lenb ++ c)).
Proof. exact put_integer_spec. Qed.
Print Assumptions C12_put_integer.

Example C12_nonvacuous :
  ber_tlv_encode_integer [128; 0] = [0; 128] /\ ber_tlv_encode_integer [127] = [127] /\
  ber_tlv_encode_integer [0] = [0] /\
  ber_tlv_put_integer [0; 1] 7 = Ret (Some [2; 5; 1; 0; 0; 0; 0]) /\ ber_tlv_put_integer [0; 1] 6 = Ret None.
Proof. vm_compute. auto. Qed.

(** C13.  Documented assumption: offset >= len1.  The block of len2 octets found
    at [offset] ends up first, the leading len1 octets right after it. *)
Theorem C13_splice_insert : forall (buf : list Z) (len1 offset len2 : nat),
  (len1 <= offset)%nat -> (offset + len2 <= length buf)%nat ->
  exists new, ber_util_splice_insert buf len1 offset len2 = Some new /\
    length new = length buf /\
    (forall k, (k < len2)%nat -> nthZ k new = nthZ (offset + k) buf) /\
    (forall k, (k < len1)%nat -> nthZ (len2 + k) new = nthZ k buf) /\
    (forall k, (len1 + len2 <= k)%nat -> nthZ k new = nthZ k buf).
Proof.
  intros buf len1 offset len2 H1 H2. destruct (splice_insert_spec buf len1 offset len2 H1 H2) as (new & E & A & B & C & D).
  exists new. repeat split; auto.
Qed.
Print Assumptions C13_splice_insert.

Example C13_nonvacuous :
  ber_util_splice_insert [1; 2; 3; 4; 5; 6; 7; 8] 5 5 2 = Some [6; 7; 1; 2; 3; 4; 5; 8] /\
  ber_util_splice_insert [1; 2; 3; 4; 5; 6; 7; 8] 2 3 5 = Some [4; 5; 6; 7; 8; 1; 2; 8].
Proof. vm_compute. auto. Qed.
