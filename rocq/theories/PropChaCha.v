(** C23 (Poly1305) and C22 (ChaCha20-Poly1305). *)
From Verif Require Import Base HashSpec Blocks Hash HashLemmas MdLemmas PropHash GcmSpec GcmLemmas ChaChaSpec ChaCha PolyLemmas ChaChaLemmas.

(* ------------------------------------------------------------------ *)
(** * C23 *)

(** poly1305_init, poly1305_1block for each of the 16-octet blocks of msg (the API takes whole
    blocks only), poly1305_final, and the four words of a read out little-endian. *)
Definition poly1305_session (key msg : list Z) : list Z :=
  ca_tag (poly1305_final (fold_left poly1305_1block (blocks 16 msg) (poly1305_init key))).

Lemma poly_acc_whole key msg : (length msg mod 16 = 0)%nat ->
  poly_acc key msg = fold_left (poly_step (clamp (le_val (firstn 16 key)))) (blocks 16 msg) 0.
Proof.
  intros M. unfold poly_acc. cbv zeta. rewrite skipn_all2; [reflexivity|]. pose proof (Nat.div_mod (length msg) 16). lia.
Qed.
Lemma le_bytes_mod n v : le_bytes n (v mod 2 ^ (8 * Z.of_nat n)) = le_bytes n v.
Proof.
  rewrite <- le_val_le_bytes. rewrite <- (le_bytes_length n v) at 1. apply le_bytes_le_val, le_bytes_ok.
Qed.

(** All keys, all messages of whole blocks: the tag is the RFC 8439 tag whenever the RFC
    accumulator (the value modulo 2^130-5) is at least 35; otherwise it is the RFC tag or the
    RFC tag minus 5 (the final reduction is missing). *)
Theorem C23_poly1305_partial : forall key msg : list Z,
  bytes_ok key -> length key = 32%nat -> bytes_ok msg -> (length msg mod 16 = 0)%nat ->
  (35 <= poly_acc key msg -> poly1305_session key msg = rfc_poly1305 key msg) /\
  (poly1305_session key msg = rfc_poly1305 key msg \/
   poly1305_session key msg = le_bytes 16 (poly_acc key msg + le_val (skipn 16 key) - 5)).
Proof.
  intros key msg BK LK BM LM. destruct (poly_session key (blocks 16 msg) BK LK (blocks_bytes 16 msg ltac:(lia) BM)) as (A & HA & EA & ET).
  fold (poly1305_session key msg) in ET. rewrite <- poly_acc_whole in EA by auto. rewrite ET. unfold rfc_poly1305.
  set (s := le_val (skipn 16 key)) in *. set (acc := poly_acc key msg) in *. unfold p1305 in EA.
  destruct (Z.lt_ge_cases A (2 ^ 130 - 5)) as [H|H].
  - rewrite Z.mod_small in EA by lia. subst A. auto.
  - assert (E : acc = A - (2 ^ 130 - 5)). { rewrite <- EA. symmetry. apply (Z.mod_unique_pos _ _ 1); lia. }
    split; [intros; lia|]. right. replace A with (acc - 5 + 2 ^ 130) by lia. 
    rewrite <- (le_bytes_mod 16 (acc - 5 + 2 ^ 130 + s)), <- (le_bytes_mod 16 (acc + s - 5)). f_equal.
    replace (acc - 5 + 2 ^ 130 + s) with (acc + s - 5 + 4 * 2 ^ (8 * Z.of_nat 16)) by (change (2 ^ (8 * Z.of_nat 16)) with (2 ^ 128); lia). apply Z.mod_add. discriminate.
Qed.

(** The claim without the restriction is false: r = 1, s = 0 and two blocks of octets FF give
    accumulator 2^130-2, i.e. 3 modulo p, but the tag comes out as -2 modulo 2^128. *)
Theorem C23_poly1305_refuted :
  ~ (forall key msg : list Z, bytes_ok key -> length key = 32%nat -> bytes_ok msg -> (length msg mod 16 = 0)%nat ->
     poly1305_session key msg = rfc_poly1305 key msg).
Proof.
  intros H. specialize (H (1 :: repeat 0 31) (repeat 255 32)).
  assert (B : (nthZ 0 (poly1305_session (1 :: repeat 0 31) (repeat 255 32)) =? nthZ 0 (rfc_poly1305 (1 :: repeat 0 31) (repeat 255 32))) = false) by (vm_compute; reflexivity).
  rewrite H, Z.eqb_refl in B; [discriminate| |reflexivity| |reflexivity].
  - apply Forall_cons; [unfold byte_ok; lia|apply repeat0_bytes].
  - apply Forall_forall. intros x Hx. apply repeat_spec in Hx. subst. unfold byte_ok. lia.
Qed.
(** RFC 8439 2.8.2-like sanity: a whole-block message under the 2.5.2 key, both sides computed,
    accumulator large. *)
Definition k252 : list Z := be_bytes 32 0x85d6be7857556d337f4452fe42d506a80103808afb0db2fd4abff6af4149f51b.
Example C23_nonvacuous : 35 <= poly_acc k252 (repeat 7 48) /\
  rfc_poly1305 k252 [0x43;0x72;0x79;0x70;0x74;0x6f;0x67;0x72;0x61;0x70;0x68;0x69;0x63;0x20;0x46;0x6f;0x72;0x75;0x6d;0x20;0x52;0x65;0x73;0x65;0x61;0x72;0x63;0x68;0x20;0x47;0x72;0x6f;0x75;0x70]
    = be_bytes 16 0xa8061dc1305136c6c22b8baf0c0127a9 /\
  poly1305_session k252 (repeat 7 48) = rfc_poly1305 k252 (repeat 7 48).
Proof. repeat split; vm_compute; congruence. Qed.

(* ------------------------------------------------------------------ *)
(** * C22 *)

(** A context that ChaCha_AEAD_Init keyed with K, after any number of operations: their
    arguments are arbitrary octet strings. *)
Inductive aead_op : Type :=
| op_enc (iv aad p : list Z) (tlen : nat)
| op_dec (iv aad c T : list Z).
Definition op_bytes (o : aead_op) : Prop :=
  match o with op_enc iv aad p _ => bytes_ok iv | op_dec iv aad c T => bytes_ok iv /\ bytes_ok T end.
Definition run_op (x : chacha_aead) (o : aead_op) : chacha_aead :=
  match o with op_enc iv aad p t => fst (ChaCha_AEAD_Encrypt x iv aad p t) | op_dec iv aad c T => fst (ChaCha_AEAD_Decrypt x iv aad c T) end.
Definition keyed_context (K : list Z) (x : chacha_aead) : Prop :=
  exists x0 x1 ops, st16 (ca_state x0) /\ ChaCha_AEAD_Init x0 K = Some x1 /\ Forall op_bytes ops /\ x = fold_left run_op ops x1.

Lemma enc_refused x iv aad p t : length iv <> 12%nat \/ 2 ^ 38 <= Z.of_nat (length p) -> ChaCha_AEAD_Encrypt x iv aad p t = (x, None).
Proof.
  intros H. unfold ChaCha_AEAD_Encrypt.
  replace (negb (length iv =? 12)%nat || (2 ^ 38 <=? Z.of_nat (length p))) with true; [reflexivity|].
  symmetry. destruct (Nat.eqb_spec (length iv) 12); [|reflexivity]. apply Z.leb_le. lia.
Qed.
Lemma dec_refused x iv aad c T : length iv <> 12%nat \/ 2 ^ 38 <= Z.of_nat (length c) -> ChaCha_AEAD_Decrypt x iv aad c T = (x, None).
Proof.
  intros H. unfold ChaCha_AEAD_Decrypt.
  replace (negb (length iv =? 12)%nat || (2 ^ 38 <=? Z.of_nat (length c))) with true; [reflexivity|].
  symmetry. destruct (Nat.eqb_spec (length iv) 12); [|reflexivity]. apply Z.leb_le. lia.
Qed.
Lemma keyed_inv K x : bytes_ok K -> keyed_context K x -> length K = 32%nat /\ keyed K (ca_state x).
Proof.
  intros BK (x0 & x1 & ops & S & I & F & ->). unfold ChaCha_AEAD_Init in I. destruct (Nat.eqb_spec (length K) 32) as [LK|]; [|discriminate].
  split; [exact LK|]. cbn [negb] in I. assert (E : x1 = {| ca_state := chacha20_set_state (ca_state x0) (Some K) None; ca_poly := ca_poly x0 |}) by congruence. clear I.
  assert (K1 : keyed K (ca_state x1)) by (subst x1; now apply set_key). clear E S x0. revert x1 K1.
  induction F as [|o ops Ho F IH]; intros x1 K1; [exact K1|]. cbn [fold_left]. apply IH. destruct o as [iv aad p t|iv aad c T]; cbn [run_op].
  - destruct (Nat.eq_dec (length iv) 12); [|now rewrite enc_refused by auto].
    destruct (Z.lt_ge_cases (Z.of_nat (length p)) (2 ^ 38)); [|now rewrite enc_refused by auto].
    apply aead_encrypt_spec; auto.
  - destruct Ho. destruct (Nat.eq_dec (length iv) 12); [|now rewrite dec_refused by auto].
    destruct (Z.lt_ge_cases (Z.of_nat (length c)) (2 ^ 38)); [|now rewrite dec_refused by auto].
    apply aead_decrypt_spec; auto.
Qed.

(** Whatever happened before on the two contexts, decryption under the same key returns p
    exactly when encryption of p gives this ciphertext and this tag. *)
Theorem C22_decrypt_iff : forall (K : list Z) (x y : chacha_aead) (iv aad c T p : list Z),
  bytes_ok K -> keyed_context K x -> keyed_context K y -> bytes_ok iv -> bytes_ok T ->
  (snd (ChaCha_AEAD_Decrypt x iv aad c T) = Some p <-> snd (ChaCha_AEAD_Encrypt y iv aad p (length T)) = Some (c, T)).
Proof.
  intros K x y iv aad c T p BK HX HY Biv BT. destruct (keyed_inv K x BK HX) as [LK KX]. destruct (keyed_inv K y BK HY) as [_ KY].
  destruct (Nat.eq_dec (length iv) 12) as [Liv|N].
  2:{ rewrite enc_refused, dec_refused by auto. cbn [snd]. split; discriminate. }
  destruct (Z.lt_ge_cases (Z.of_nat (length c)) (2 ^ 38)) as [HC|HC].
  - destruct (aead_decrypt_spec K x iv aad c T) as (_ & D1 & D2); auto. split.
    + intros D. destruct (list_eq_dec Z.eq_dec T (octets (length T) (aead_T K iv aad c))) as [ET|NT]; [|rewrite (D2 NT) in D; discriminate].
      rewrite (D1 ET) in D. assert (EP : p = aead_C K iv c) by congruence. subst p.
      destruct (aead_encrypt_spec K y iv aad (aead_C K iv c) (length T)) as [_ E]; auto; [now rewrite aead_C_length|].
      rewrite E, aead_C_twice. now rewrite <- ET.
    + intros H. destruct (Z.lt_ge_cases (Z.of_nat (length p)) (2 ^ 38)) as [HP|HP]; [|rewrite enc_refused in H by auto; discriminate].
      destruct (aead_encrypt_spec K y iv aad p (length T)) as [_ E]; auto. rewrite E in H.
      assert (H1 : aead_C K iv p = c) by congruence. assert (H2 : octets (length T) (aead_T K iv aad (aead_C K iv p)) = T) by congruence. rewrite H1 in H2.
      assert (EC : aead_C K iv c = p) by (rewrite <- H1; apply aead_C_twice). rewrite <- EC. apply D1. now symmetry.
  - rewrite dec_refused by auto. split; [discriminate|]. intros H.
    destruct (Z.lt_ge_cases (Z.of_nat (length p)) (2 ^ 38)) as [HP|HP]; [|rewrite enc_refused in H by auto; discriminate].
    destruct (aead_encrypt_spec K y iv aad p (length T)) as [_ E]; auto. rewrite E in H.
    assert (H1 : aead_C K iv p = c) by congruence. pose proof (aead_C_length K iv p) as G. rewrite H1 in G. lia.
Qed.

(** A wrong tag of the right length makes decryption return NULL without output. *)
Theorem C22_reject : forall (K : list Z) (x y : chacha_aead) (iv aad p c T T' : list Z) (tlen : nat),
  bytes_ok K -> keyed_context K x -> keyed_context K y -> bytes_ok iv -> bytes_ok T' ->
  snd (ChaCha_AEAD_Encrypt y iv aad p tlen) = Some (c, T) -> length T' = length T -> T' <> T ->
  snd (ChaCha_AEAD_Decrypt x iv aad c T') = None.
Proof.
  intros K x y iv aad p c T T' tlen BK HX HY Biv BT' H LT NT. destruct (keyed_inv K x BK HX) as [LK KX]. destruct (keyed_inv K y BK HY) as [_ KY].
  destruct (Nat.eq_dec (length iv) 12) as [Liv|N]; [|rewrite enc_refused in H by auto; discriminate].
  destruct (Z.lt_ge_cases (Z.of_nat (length p)) (2 ^ 38)) as [HP|HP]; [|rewrite enc_refused in H by auto; discriminate].
  destruct (aead_encrypt_spec K y iv aad p tlen) as [_ E]; auto. rewrite E in H.
  assert (H1 : aead_C K iv p = c) by congruence. assert (H2 : octets tlen (aead_T K iv aad (aead_C K iv p)) = T) by congruence. rewrite H1 in H2.
  assert (LO : length T = tlen) by (rewrite <- H2; unfold octets; rewrite firstn_length, app_length, repeat_length; lia).
  destruct (aead_decrypt_spec K x iv aad c T') as (_ & _ & D2); auto; [rewrite <- H1, aead_C_length; auto|].
  apply D2. rewrite LT, LO, H2. exact NT.
Qed.

(** Up to 2^38-64 octets the ciphertext is the RFC 8439 one (key-stream blocks 1, 2, ..., never
    the block 0 that keys the authenticator), and so is the tag unless the Poly1305 accumulator is one
    of the 35 values of C23. *)
Theorem C22_rfc8439_partial : forall (K : list Z) (x : chacha_aead) (iv aad p : list Z) (tlen : nat),
  bytes_ok K -> keyed_context K x -> bytes_ok iv -> length iv = 12%nat -> bytes_ok aad -> bytes_ok p ->
  Z.of_nat (length p) <= 2 ^ 38 - 64 ->
  exists T, snd (ChaCha_AEAD_Encrypt x iv aad p tlen) = Some (cc_aead_C K iv p, octets tlen T) /\
  (35 <= poly_acc (cc_otk K iv) (cc_mac_data aad (cc_aead_C K iv p)) -> T = cc_aead_T K iv aad (cc_aead_C K iv p)).
Proof.
  intros K x iv aad p tlen BK HX Biv Liv BA BP HP. destruct (keyed_inv K x BK HX) as [LK KX].
  assert (EC : aead_C K iv p = cc_aead_C K iv p).
  { unfold aead_C, cc_aead_C, cc_encrypt, xstream. do 2 f_equal. apply map_ext_in. intros j Hj. apply in_seq in Hj. unfold code_stream.
    f_equal. rewrite Nat.add_0_l. unfold u32. rewrite Z.mod_small; [lia|]. split; [lia|].
    assert (j < (length p + 63) / 64)%nat by lia. assert (64 * ((length p + 63) / 64) <= length p + 63)%nat by (apply Nat.mul_div_le; lia). lia. }
  exists (aead_T K iv aad (aead_C K iv p)). destruct (aead_encrypt_spec K x iv aad p tlen) as [_ E]; auto; [lia|]. rewrite E, EC. split; [reflexivity|].
  intros H. rewrite <- EC in *. unfold aead_T, cc_aead_T.
  destruct (mac_data_shape aad (aead_C K iv p) BA (aead_C_bytes K iv p BP)) as [BM LM].
  destruct (C23_poly1305_partial (cc_otk K iv) (cc_mac_data aad (aead_C K iv p))) as [G _]; auto.
  { unfold cc_otk. apply Forall_firstn, cc_block_bytes. }
Qed.

(** Key-stream reuse: every accepted message longer than 2^38-64 octets has its tail encrypted
    with block 0, the block whose first 32 octets are the authentication key of this very message. *)
Theorem C22_keystream_reuse_refuted : forall (K : list Z) (x : chacha_aead) (iv aad p : list Z) (tlen off : nat),
  bytes_ok K -> keyed_context K x -> bytes_ok iv -> length iv = 12%nat ->
  Z.of_nat off = 2 ^ 38 - 64 -> 2 ^ 38 - 64 < Z.of_nat (length p) < 2 ^ 38 ->
  exists C T, snd (ChaCha_AEAD_Encrypt x iv aad p tlen) = Some (C, T) /\
    skipn off C = xorb_list (skipn off p) (cc_block K 0 iv).
Proof.
  intros K x iv aad p tlen off BK HX Biv Liv HO HP. destruct (keyed_inv K x BK HX) as [LK KX].
  destruct (aead_encrypt_spec K x iv aad p tlen) as [_ E]; auto; [lia|]. do 2 eexists. split; [exact E|].
  set (n := (off / 64)%nat). assert (On : off = (64 * n)%nat).
  { unfold n. pose proof (Nat.div_mod off 64 ltac:(lia)) as D. enough (off mod 64 = 0)%nat by lia. apply Nat2Z.inj. rewrite Nat2Z.inj_mod, HO. reflexivity. }
  unfold aead_C. rewrite On, xstream_skip by (intros; apply cc_block_length). rewrite Nat.add_0_l. rewrite <- On.
  rewrite (xstream_step _ n) by (try (intros; apply cc_block_length); apply skipn_nonnil; lia).
  assert (LT : (length (skipn off p) <= 64)%nat) by (rewrite skipn_length; lia).
  rewrite (@skipn_all2 Z 64 (skipn off p)) by lia. rewrite (firstn_all2 _ LT). unfold xstream. cbn [xorb_list]. rewrite app_nil_r. unfold code_stream.
  replace (u32 (Z.of_nat n + 1)) with 0; [reflexivity|]. assert (Z.of_nat n = 2 ^ 32 - 1) by lia. rewrite H. reflexivity.
Qed.
(** such messages exist, and so do keyed contexts *)
Example C22_long_message : forall off, Z.of_nat off = 2 ^ 38 - 64 -> 2 ^ 38 - 64 < Z.of_nat (length (repeat 0 (off + 1))) < 2 ^ 38.
Proof. intros off H. rewrite repeat_length. lia. Qed.
Definition k282 : list Z := map (fun i => Z.of_nat i + 128) (seq 0 32).
Definition n282 : list Z := [7; 0; 0; 0; 0x40; 0x41; 0x42; 0x43; 0x44; 0x45; 0x46; 0x47].
Definition a282 : list Z := be_bytes 12 0x50515253c0c1c2c3c4c5c6c7.
Definition p282 : list Z := [76;97;100;105;101;115;32;97;110;100;32;71;101;110;116;108;101;109;101;110;32;111;102;32;116;104;101;32;99;108;97;115;115;32;111;102;32;39;57;57;58;32;73;102;32;73;32;99;111;117;108;100;32;111;102;102;101;114;32;121;111;117;32;111;110;108;121;32;111;110;101;32;116;105;112;32;102;111;114;32;116;104;101;32;102;117;116;117;114;101;44;32;115;117;110;115;99;114;101;101;110;32;119;111;117;108;100;32;98;101;32;105;116;46].
Definition x282 : chacha_aead := {| ca_state := repeat 0 16; ca_poly := {| p_r := []; p_s := []; p_a := [] |} |}.
Example C22_keyed : exists x, ChaCha_AEAD_Init x282 k282 = Some x /\ keyed_context k282 x /\ bytes_ok k282 /\ bytes_ok n282.
Proof.
  eexists. split; [reflexivity|]. split; [|split].
  - exists x282. eexists. exists []. split; [|split; [reflexivity|split; [constructor|reflexivity]]].
    split; [reflexivity|]. apply Forall_forall. intros v Hv. apply repeat_spec in Hv. subst. unfold word_ok. lia.
  - unfold k282. apply Forall_forall. intros v Hv. apply in_map_iff in Hv. destruct Hv as (i & <- & Hi). apply in_seq in Hi. unfold byte_ok. lia.
  - unfold n282. repeat (apply Forall_cons; [unfold byte_ok; lia|]). constructor.
Qed.
(** RFC 8439 2.8.2: first ciphertext octets and the tag, from the model and from the specification *)
Example C22_nonvacuous :
  match ChaCha_AEAD_Init x282 k282 with
  | Some x => match snd (ChaCha_AEAD_Encrypt x n282 a282 p282 16) with
              | Some (c, T) => (firstn 8 c, T) = (be_bytes 8 0xd31a8d34648e60db, be_bytes 16 0x1ae10b594f09e26a7e902ecbd0600691) /\
                               snd (ChaCha_AEAD_Decrypt x n282 a282 c T) = Some p282 /\
                               c = cc_aead_C k282 n282 p282 /\ T = cc_aead_T k282 n282 a282 c
              | None => False end
  | None => False end.
Proof. vm_compute. repeat split; reflexivity. Qed.

Print Assumptions C23_poly1305_partial.
Print Assumptions C23_poly1305_refuted.
Print Assumptions C22_decrypt_iff.
Print Assumptions C22_reject.
Print Assumptions C22_rfc8439_partial.
Print Assumptions C22_keystream_reuse_refuted.
