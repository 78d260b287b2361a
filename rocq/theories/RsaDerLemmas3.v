(** Lemmas for C46: the parsers. *)
From Verif Require Import Base Blocks Vlong VlongLemmas Der DerLemmas DerLemmas2 RsaDerSpec RsaDer RsaDerLemmas RsaDerLemmas2.

(** an object of the context holds the value v *)
Definition holds (o : vobj) (v : Z) : Prop := words_ok (vo_words o) /\ val_le 32 (vo_words o) = v.
Definition bit_length (v : Z) : Z := if v =? 0 then 0 else Z.log2 v + 1.

Lemma get_hdr_int c rest : Z.of_nat (length c) < 2 ^ 56 -> get_hdr 2 (der_tlv 2 c ++ rest) = Ret (Some (length c, c ++ rest)).
Proof.
  intros H. unfold get_hdr, ber_get_hdr, der_tlv. cbn [app]. change (ber_get_tag (2 :: ?x)) with (Ret (2 ^ 31 + 2, x)).
  cbv iota. change (2 ^ 31 + 2 =? TAG_FAIL) with false. cbv iota. rewrite <- app_assoc, get_len_der by lia.
  unfold LEN_FAIL. destruct (Z.eqb_spec (Z.of_nat (length c)) (2 ^ 64 - 1)); [lia|].
  rewrite app_length. destruct (Z.ltb_spec (Z.of_nat (length c + length rest)) (Z.of_nat (length c))); [lia|].
  cbn [bind]. change (2 ^ 31 + 2 =? TAG_UNI 2) with true. cbv iota. now rewrite Nat2Z.id.
Qed.
Lemma get_hdr_seq c rest : Z.of_nat (length c) < 2 ^ 56 -> get_hdr 16 (der_seq c ++ rest) = Ret (Some (length c, c ++ rest)).
Proof.
  intros H. unfold get_hdr, ber_get_hdr, der_seq, der_tlv. cbn [app]. change (ber_get_tag (48 :: ?x)) with (Ret (2 ^ 31 + 16, x)).
  cbv iota. change (2 ^ 31 + 16 =? TAG_FAIL) with false. cbv iota. rewrite <- app_assoc, get_len_der by lia.
  unfold LEN_FAIL. destruct (Z.eqb_spec (Z.of_nat (length c)) (2 ^ 64 - 1)); [lia|].
  rewrite app_length. destruct (Z.ltb_spec (Z.of_nat (length c + length rest)) (Z.of_nat (length c))); [lia|].
  cbn [bind]. change (2 ^ 31 + 16 =? TAG_UNI 16) with true. cbv iota. now rewrite Nat2Z.id.
Qed.
Lemma der_int_length v : length (der_int v) = S (length (der_len (Z.of_nat (length (int_contents v)))) + length (int_contents v)).
Proof. rewrite der_int_contents. unfold der_tlv. cbn [length]. now rewrite app_length. Qed.
Lemma der_int_len v : (length (int_contents v) < length (der_int v))%nat.
Proof. rewrite der_int_length. lia. Qed.

(** reading a DER INTEGER *)
Definition word_size (o : vobj) : Z := 4 * (1 + Z.of_nat (length (vo_words o))).
Lemma get_int_der base ret v rest : 0 <= v -> Z.of_nat (length (der_int v)) < 2 ^ 56 ->
  exists o, get_int base ret (der_int v ++ rest) = Ret (Some (o, word_size o, ret + word_size o, rest)) /\ holds o v.
Proof.
  intros Hv HL. pose proof (der_int_len v) as L. unfold get_int. rewrite der_int_contents, get_hdr_int by lia. cbn [bind]. cbv zeta.
  rewrite firstn_app_exact, skipn_app_exact by reflexivity.
  destruct (int_contents_uint v Hv) as (BO & _ & BV & _).
  destruct (decode_integer_spec _ BO) as (W & WL & WV).
  set (o := VO (base + ret) (ber_tlv_decode_integer (int_contents v))).
  exists o. assert (E : VLONG_BYTES_SIZE (length (int_contents v)) = word_size o).
  { unfold VLONG_BYTES_SIZE, word_size, o. cbn [vo_words]. rewrite WL.
    rewrite Nat2Z.inj_add, Nat2Z.inj_div, Nat2Z.inj_add. change (Z.of_nat 4) with 4. change (Z.of_nat 2) with 2. lia. }
  rewrite E. split; [reflexivity|]. split; [exact W|]. unfold o. cbn [vo_words]. fold (vval (ber_tlv_decode_integer (int_contents v))). now rewrite WV.
Qed.
Lemma holds_bits o v : holds o v -> (0 < length (vo_words o))%nat -> vlong_topbit (vo_words o) = bit_length v.
Proof.
  intros (W & <-) L. rewrite topbit_spec; auto. intros E. rewrite E in L. cbn in L. lia.
Qed.
Lemma word_size_c o : word_size o / 4 - 1 = Z.of_nat (length (vo_words o)).
Proof. unfold word_size. rewrite (Z.mul_comm 4), Z.div_mul by lia. lia. Qed.
Lemma dec_loop_length get k : forall vl i, length (dec_loop get vl i k) = length vl.
Proof.
  induction k as [|k IH]; intros vl i; cbn [dec_loop]; [reflexivity|]. destruct (_ <=? _)%nat; [reflexivity|]. now rewrite IH, upd_length.
Qed.
Lemma decode_integer_length enc : length (ber_tlv_decode_integer enc) = (2 + (length enc + 4) / 4)%nat.
Proof. unfold ber_tlv_decode_integer. now rewrite dec_loop_length, repeat_length. Qed.

(** get_hdr on any input: what is consumed *)
Lemma get_hdr_any t ptr len q : get_hdr t ptr = Ret (Some (len, q)) -> (len <= length q)%nat /\ (length q + 2 <= length ptr)%nat.
Proof.
  unfold get_hdr. destruct (ber_get_hdr ptr) as [|[[[tag l] p]|]] eqn:E; cbn [bind]; try discriminate.
  destruct (tag =? TAG_UNI t); [|discriminate]. intros H. apply Ret_inj in H. injection H as <- <-.
  destruct (get_hdr_fits _ _ _ _ E) as (L & pre & P & ->). rewrite app_length. lia.
Qed.
Lemma get_int_any base ret ptr o s r q : get_int base ret ptr = Ret (Some (o, s, r, q)) ->
  vo_off o = base + ret /\ s = word_size o /\ r = ret + s /\ (0 < length (vo_words o))%nat /\ 0 < s /\
  s + Z.of_nat (length q) <= Z.of_nat (length ptr) + 14 /\ (length q + 2 <= length ptr)%nat /\
  forall base', exists o', get_int base' ret ptr = Ret (Some (o', s, r, q)) /\ vo_words o' = vo_words o /\ vo_off o' = base' + ret.
Proof.
  unfold get_int. destruct (get_hdr 2 ptr) as [|[[len p]|]] eqn:E; cbn [bind]; try discriminate. cbv zeta. intros H.
  apply Ret_inj in H. injection H as <- <- <- <-. apply get_hdr_any in E. destruct E as (L1 & L2).
  unfold word_size. cbn [vo_words vo_off]. rewrite decode_integer_length, firstn_length, skipn_length.
  replace (Nat.min len (length p)) with len by lia.
  assert (ES : VLONG_BYTES_SIZE len = 4 * (1 + Z.of_nat (2 + (len + 4) / 4))).
  { unfold VLONG_BYTES_SIZE. rewrite Nat2Z.inj_add, Nat2Z.inj_div, Nat2Z.inj_add. change (Z.of_nat 4) with 4. change (Z.of_nat 2) with 2. lia. }
  assert (DB : (4 * ((len + 4) / 4) <= len + 4)%nat) by (apply Nat.mul_div_le; lia).
  rewrite ES. repeat match goal with |- _ /\ _ => split end; try lia.
  intros base'. eexists. split; [reflexivity|]. split; reflexivity.
Qed.

(** memory layout: the blocks follow one another from a to z *)
Fixpoint packed (a : Z) (bs : list (Z * Z)) (z : Z) : Prop :=
  match bs with
  | [] => a = z
  | (off, size) :: bs => off = a /\ 0 < size /\ packed (a + size) bs z
  end.
Definition block (o : vobj) : Z * Z := (vo_off o, word_size o).
Definition blocks3 (x : vobj * vobj * vobj) : list (Z * Z) := let '(r, d, t) := x in [block r; block d; block t].

Lemma packed_app a l1 m l2 z : packed a l1 m -> packed m l2 z -> packed a (l1 ++ l2) z.
Proof.
  revert a. induction l1 as [|[o s] l1 IH]; intros a H1 H2; cbn [packed app] in *; [now subst|].
  destruct H1 as (-> & P & H1). auto.
Qed.

(** both passes over the other primes agree *)
Lemma decode_others_agree base base2 addr : forall fuel ret ptr i ret' l,
  decode_others fuel None base addr ret ptr i = Ret (Some (ret', l)) ->
  Z.of_nat (length l) * 8 <= Z.of_nat (length ptr) /\ ret <= ret' <= ret + 8 * Z.of_nat (length ptr) /\
  exists l2, decode_others fuel (Some (i + length l)%nat) base2 addr ret ptr i = Ret (Some (ret', l2)) /\ length l2 = length l /\
    packed (base2 + addr + ret) (concat (map blocks3 l2)) (base2 + addr + ret').
Proof.
  intros fuel. induction fuel as [|f IH]; intros ret ptr i ret' l; cbn [decode_others].
  - destruct (Nat.eqb_spec (length ptr) 0); [|discriminate]. intros H. apply Ret_inj in H. injection H as <- <-.
    cbn [length]. split; [lia|]. split; [lia|]. exists []. rewrite Nat.add_0_r, (proj2 (Nat.leb_le i i) (le_n i)). cbn. auto.
  - destruct (Nat.eqb_spec (length ptr) 0) as [Z0|NZ].
    { intros H. apply Ret_inj in H. injection H as <- <-.
      cbn [length]. split; [lia|]. split; [lia|]. exists []. rewrite Nat.add_0_r, (proj2 (Nat.leb_le i i) (le_n i)). cbn. auto. }
    destruct (get_hdr 16 ptr) as [|[[sl p0]|]] eqn:E0; cbn [bind]; try discriminate. apply get_hdr_any in E0. destruct E0 as (S1 & S2).
    destruct (get_int (base + addr) ret p0) as [|[[[[r s1] ret1] p1]|]] eqn:E1; cbn [bind]; try discriminate.
    apply get_int_any in E1. destruct E1 as (O1 & W1 & R1 & N1 & P1 & B1 & Q1 & K1). destruct (K1 (base2 + addr)) as (r2 & G1 & V1 & F1).
    destruct (get_int (base + addr) ret1 p1) as [|[[[[d s2] ret2] p2]|]] eqn:E2; cbn [bind]; try discriminate.
    apply get_int_any in E2. destruct E2 as (O2 & W2 & R2 & N2 & P2 & B2 & Q2 & K2). destruct (K2 (base2 + addr)) as (d2 & G2 & V2 & F2).
    destruct (get_int (base + addr) ret2 p2) as [|[[[[t s3] ret3] p3]|]] eqn:E3; cbn [bind]; try discriminate.
    apply get_int_any in E3. destruct E3 as (O3 & W3 & R3 & N3 & P3 & B3 & Q3 & K3). destruct (K3 (base2 + addr)) as (t2 & G3 & V3 & F3).
    destruct (decode_others f None base addr ret3 p3 (S i)) as [|[[re l']|]] eqn:E4; cbn [bind]; try discriminate.
    intros H. apply Ret_inj in H. injection H as <- <-. apply IH in E4. destruct E4 as (L4 & RR & l2 & G4 & LL & PK).
    cbn [length]. clear K1 K2 K3 IH. split; [lia|]. split; [lia|].
    exists ((r2, d2, t2) :: l2). replace (i + S (length l'))%nat with (S i + length l')%nat by lia.
    destruct (Nat.leb_spec (S i + length l') i); [lia|]. rewrite G1. cbn [bind]. rewrite G2. cbn [bind]. rewrite G3. cbn [bind]. rewrite G4. cbn [bind].
    split; [reflexivity|]. split; [cbn [length]; lia|]. cbn [map concat]. apply (packed_app _ _ (base2 + addr + ret3)); [|exact PK].
    unfold blocks3, block. cbn [packed]. unfold word_size in *. rewrite V1, V2, V3. repeat match goal with |- _ /\ _ => split end; lia.
Qed.

Definition pub_blocks (c : rsa_pub_ctx) : list (Z * Z) := block (p_n c) :: map (fun o => (o, 4 * (1 + p_wc c))) (p_w c) ++ [block (p_e c)].
Definition priv_blocks (c : rsa_priv_ctx) : list (Z * Z) :=
  block (s_n c) :: map (fun o => (o, 4 * (1 + s_wc c))) (s_w c) ++
  map block [s_e c; s_d c; s_p c; s_q c; s_dP c; s_dQ c; s_qInv c] ++ concat (map blocks3 (s_other c)).

Lemma pub_layout enc size c : ber_tlv_decode_RSAPublicKey enc = Ret (Some (size, c)) ->
  packed 28 (pub_blocks c) size /\ length (p_w c) = 4%nat /\ p_wc c = Z.of_nat (length (vo_words (p_n c))) /\
  size <= 400 + 20 * Z.of_nat (length enc).
Proof.
  unfold ber_tlv_decode_RSAPublicKey.
  destruct (get_hdr 16 enc) as [|[[sl p0]|]] eqn:E0; cbn [bind]; try discriminate. apply get_hdr_any in E0. destruct E0 as (S1 & S2).
  destruct (get_int sizeof_pub 0 p0) as [|[[[[n s1] ret1] p1]|]] eqn:E1; cbn [bind]; try discriminate.
  apply get_int_any in E1. destruct E1 as (O1 & W1 & R1 & N1 & P1 & B1 & Q1 & _).
  cbv zeta.
  destruct (get_int sizeof_pub (ret1 + 4 * s1) p1) as [|[[[[e s2] ret2] p2]|]] eqn:E2; cbn [bind]; try discriminate.
  apply get_int_any in E2. destruct E2 as (O2 & W2 & R2 & N2 & P2 & B2 & Q2 & _).
  remember (map (fun i => sizeof_pub + ret1 + Z.of_nat i * s1) (seq 0 4)) as w eqn:HW.
  intros H. apply Ret_inj in H. injection H as <- <-. subst w.
  assert (EW : s1 / 4 - 1 = Z.of_nat (length (vo_words n))) by (rewrite W1; apply word_size_c).
  assert (ES : 4 * (1 + (s1 / 4 - 1)) = s1) by (rewrite EW; subst s1; reflexivity).
  unfold pub_blocks, block. cbn [p_n p_e p_w p_wc p_bits]. rewrite EW in *. rewrite ES.
  unfold sizeof_pub in *. split; [|split; [reflexivity|split; [reflexivity|lia]]].
  cbn [seq map app packed]. rewrite <- W1, <- W2. repeat match goal with |- _ /\ _ => split end; lia.
Qed.

Lemma priv_agree enc ret cnt c0 : decode_priv_pass None enc = Ret (Some (ret, cnt, c0)) ->
  exists c, decode_priv_pass (Some cnt) enc = Ret (Some (ret, cnt, c)) /\
    s_count c = Z.of_nat cnt /\ length (s_other c) = cnt /\ length (s_w c) = 5%nat /\ s_wc c = Z.of_nat (length (vo_words (s_n c))) /\
    packed (60 + 12 * Z.of_nat cnt) (priv_blocks c) ret /\ ret <= 400 + 20 * Z.of_nat (length enc).
Proof.
  unfold decode_priv_pass. cbv zeta.
  set (b1 := sizeof_base + sizeof_other * Z.of_nat 0). set (b2 := sizeof_base + sizeof_other * Z.of_nat cnt).
  assert (EB : b2 = 60 + 12 * Z.of_nat cnt) by reflexivity. rewrite <- EB. clearbody b1 b2.
  destruct (get_hdr 16 enc) as [|[[sl p0]|]] eqn:E0; cbn [bind]; try discriminate. apply get_hdr_any in E0. destruct E0 as (S1 & S2).
  destruct (get_hdr 2 p0) as [|[[vl pv]|]] eqn:E00; cbn [bind]; try discriminate. apply get_hdr_any in E00. destruct E00 as (S3 & S4).
  set (pp := skipn vl pv). assert (LP : (length pp <= length pv)%nat) by (unfold pp; rewrite skipn_length; lia). 
  set (ver := get_version (firstn vl pv)). clearbody pp ver.
  destruct (get_int b1 0 pp) as [|[[[[n s1] ret1] p1]|]] eqn:E1; cbn [bind]; try discriminate.
  apply get_int_any in E1. destruct E1 as (O1 & W1 & R1 & N1 & P1 & B1 & Q1 & K1). destruct (K1 b2) as (n' & G1 & V1 & F1). clear K1. rewrite G1. cbn [bind].
  destruct (get_int b1 (ret1 + 5 * s1) p1) as [|[[[[e s2] ret2] p2]|]] eqn:E2; cbn [bind]; try discriminate.
  apply get_int_any in E2. destruct E2 as (O2 & W2 & R2 & N2 & P2 & B2 & Q2 & K1). destruct (K1 b2) as (e' & G2 & V2 & F2). clear K1. rewrite G2. cbn [bind].
  destruct (get_int b1 ret2 p2) as [|[[[[d s3] ret3] p3]|]] eqn:E3; cbn [bind]; try discriminate.
  apply get_int_any in E3. destruct E3 as (O3 & W3 & R3 & N3 & P3 & B3 & Q3 & K1). destruct (K1 b2) as (d' & G3 & V3 & F3). clear K1. rewrite G3. cbn [bind].
  destruct (get_int b1 ret3 p3) as [|[[[[p s4] ret4] p4]|]] eqn:E4; cbn [bind]; try discriminate.
  apply get_int_any in E4. destruct E4 as (O4 & W4 & R4 & N4 & P4 & B4 & Q4 & K1). destruct (K1 b2) as (p' & G4 & V4 & F4). clear K1. rewrite G4. cbn [bind].
  destruct (get_int b1 ret4 p4) as [|[[[[q s5] ret5] p5]|]] eqn:E5; cbn [bind]; try discriminate.
  apply get_int_any in E5. destruct E5 as (O5 & W5 & R5 & N5 & P5 & B5 & Q5 & K1). destruct (K1 b2) as (q' & G5 & V5 & F5). clear K1. rewrite G5. cbn [bind].
  destruct (get_int b1 ret5 p5) as [|[[[[dP s6] ret6] p6]|]] eqn:E6; cbn [bind]; try discriminate.
  apply get_int_any in E6. destruct E6 as (O6 & W6 & R6 & N6 & P6 & B6 & Q6 & K1). destruct (K1 b2) as (dP' & G6 & V6 & F6). clear K1. rewrite G6. cbn [bind].
  destruct (get_int b1 ret6 p6) as [|[[[[dQ s7] ret7] p7]|]] eqn:E7; cbn [bind]; try discriminate.
  apply get_int_any in E7. destruct E7 as (O7 & W7 & R7 & N7 & P7 & B7 & Q7 & K1). destruct (K1 b2) as (dQ' & G7 & V7 & F7). clear K1. rewrite G7. cbn [bind].
  destruct (get_int b1 ret7 p7) as [|[[[[qI s8] ret8] p8]|]] eqn:E8; cbn [bind]; try discriminate.
  apply get_int_any in E8. destruct E8 as (O8 & W8 & R8 & N8 & P8 & B8 & Q8 & K1). destruct (K1 b2) as (qI' & G8 & V8 & F8). clear K1. rewrite G8. cbn [bind].
  clear G1 G2 G3 G4 G5 G6 G7 G8.
  assert (EW : s1 / 4 - 1 = Z.of_nat (length (vo_words n'))) by (rewrite W1, V1; apply word_size_c).
  assert (ES : 4 * (1 + (s1 / 4 - 1)) = s1) by (rewrite EW, V1; subst s1; reflexivity).
  assert (HEAD : forall l cnt' bits, packed b2 (priv_blocks {| s_n := n'; s_e := e'; s_d := d'; s_p := p'; s_q := q'; s_dP := dP'; s_dQ := dQ'; s_qInv := qI';
     s_other := l; s_count := cnt'; s_bits := bits; s_w := map (fun i => b2 + ret1 + Z.of_nat i * s1) (seq 0 5); s_wc := s1 / 4 - 1 |}) 
     = packed b2 (priv_blocks {| s_n := n'; s_e := e'; s_d := d'; s_p := p'; s_q := q'; s_dP := dP'; s_dQ := dQ'; s_qInv := qI';
     s_other := l; s_count := 0; s_bits := 0; s_w := map (fun i => b2 + ret1 + Z.of_nat i * s1) (seq 0 5); s_wc := s1 / 4 - 1 |})) by reflexivity.
  assert (PK : forall l z, packed (b2 + ret8) (concat (map blocks3 l)) z -> packed b2 (priv_blocks {| s_n := n'; s_e := e'; s_d := d'; s_p := p'; s_q := q'; s_dP := dP'; s_dQ := dQ'; s_qInv := qI';
     s_other := l; s_count := 0; s_bits := 0; s_w := map (fun i => b2 + ret1 + Z.of_nat i * s1) (seq 0 5); s_wc := s1 / 4 - 1 |}) z).
  { intros l z HP. unfold priv_blocks. cbn [s_n s_e s_d s_p s_q s_dP s_dQ s_qInv s_other s_w s_wc]. rewrite ES.
    rewrite app_comm_cons, app_assoc. apply (packed_app _ _ (b2 + ret8)); [|exact HP].
    unfold block. cbn [seq map app packed].
    assert (X1 : word_size n' = s1) by (unfold word_size in *; rewrite V1; lia).
    assert (X2 : word_size e' = s2) by (unfold word_size in *; rewrite V2; lia).
    assert (X3 : word_size d' = s3) by (unfold word_size in *; rewrite V3; lia).
    assert (X4 : word_size p' = s4) by (unfold word_size in *; rewrite V4; lia).
    assert (X5 : word_size q' = s5) by (unfold word_size in *; rewrite V5; lia).
    assert (X6 : word_size dP' = s6) by (unfold word_size in *; rewrite V6; lia).
    assert (X7 : word_size dQ' = s7) by (unfold word_size in *; rewrite V7; lia).
    assert (X8 : word_size qI' = s8) by (unfold word_size in *; rewrite V8; lia).
    rewrite X1, X2, X3, X4, X5, X6, X7, X8.
    repeat match goal with |- _ /\ _ => split end; lia. }
  clear ES.
  destruct (ver =? 0).
  { intros H. apply Ret_inj in H. assert (HR := f_equal (fun x => match x with Some (z, _, _) => z | None => 0 end) H). cbv beta iota in HR. injection H as _ <- <-. subst ret. eexists. split; [reflexivity|].
    split; [reflexivity|]. split; [reflexivity|]. split; [reflexivity|]. cbn [s_wc s_n]. split; [exact EW|]. unfold sizeof_base, sizeof_other in *.
    split; [|lia]. rewrite HEAD. apply PK. cbn. lia. }
  destruct (ver =? 1); [|discriminate].
  destruct (get_hdr 16 p8) as [|[[ol p9]|]] eqn:E9; cbn [bind]; try discriminate. apply get_hdr_any in E9. destruct E9 as (S5 & S6).
  destruct (decode_others (S ol) None b1 ret8 0 (firstn ol p9) 0) as [|[[subret l]|]] eqn:EO; cbn [bind]; try discriminate.
  intros H. apply Ret_inj in H. assert (HR := f_equal (fun x => match x with Some (z, _, _) => z | None => 0 end) H). cbv beta iota in HR. injection H as _ <- <-. subst ret.
  apply (decode_others_agree b1 b2 ret8) in EO. destruct EO as (L9 & RB & l2 & G9 & LL & PL). rewrite Nat.add_0_l in G9. rewrite G9. cbn [bind].
  assert (M9 : (length (firstn ol p9) <= length enc)%nat) by (rewrite firstn_length; lia).
  eexists. split; [reflexivity|].
  split; [reflexivity|]. split; [exact LL|]. split; [reflexivity|]. cbn [s_wc s_n]. split; [exact EW|]. unfold sizeof_base, sizeof_other in *.
  split; [|clear PK HEAD PL EW G9; apply inj_le in M9; revert M9 RB L9; generalize (Z.of_nat (length (firstn ol p9))); intros m M9 RB L9; clear -M9 RB L9 R1 R2 R3 R4 R5 R6 R7 R8 B1 B2 B3 B4 B5 B6 B7 B8 Q1 Q2 Q3 Q4 Q5 Q6 Q7 Q8 LP S4 S2 P1; lia]. rewrite HEAD. apply PK. rewrite Z.add_0_r in PL. replace (ret8 + subret + 60 + 12 * Z.of_nat (length l)) with (b2 + ret8 + subret) by lia. exact PL.
Qed.

Lemma Forall2_length' {A B} (R : A -> B -> Prop) l l' : Forall2 R l l' -> length l = length l'.
Proof. induction 1; cbn; congruence. Qed.

(** DER input *)
Definition key_nonneg (k : rsa_key) : Prop :=
  Forall (fun v => 0 <= v) [k_n k; k_e k; k_d k; k_p k; k_q k; k_dP k; k_dQ k; k_qInv k] /\
  Forall (fun '(r, d, t) => 0 <= r /\ 0 <= d /\ 0 <= t) (k_other k).
Definition holds3 (o : vobj * vobj * vobj) (x : Z * Z * Z) : Prop :=
  let '(r, d, t) := o in let '(vr, vd, vt) := x in holds r vr /\ holds d vd /\ holds t vt.
Definition ctx_holds (c : rsa_priv_ctx) (k : rsa_key) : Prop :=
  holds (s_n c) (k_n k) /\ holds (s_e c) (k_e k) /\ holds (s_d c) (k_d k) /\ holds (s_p c) (k_p k) /\ holds (s_q c) (k_q k) /\
  holds (s_dP c) (k_dP k) /\ holds (s_dQ c) (k_dQ k) /\ holds (s_qInv c) (k_qInv k) /\ Forall2 holds3 (s_other c) (k_other k).

Lemma pub_decode n e rest : 0 <= n -> 0 <= e -> Z.of_nat (length (der_RSAPublicKey n e)) < 2 ^ 56 ->
  exists size c, ber_tlv_decode_RSAPublicKey (der_RSAPublicKey n e ++ rest) = Ret (Some (size, c)) /\
    holds (p_n c) n /\ holds (p_e c) e /\ p_bits c = bit_length n.
Proof.
  intros Hn He HL. unfold der_RSAPublicKey in *. pose proof (seq_bound (der_int n ++ der_int e)) as SB. rewrite app_length in SB.
  unfold ber_tlv_decode_RSAPublicKey. rewrite get_hdr_seq by (rewrite app_length; lia). cbn [bind]. rewrite <- app_assoc.
  destruct (get_int_der sizeof_pub 0 n (der_int e ++ rest)) as (on & G & H1); [lia|lia|]. rewrite G. cbn [bind]. cbv zeta.
  pose proof (get_int_any _ _ _ _ _ _ _ G) as (_ & _ & _ & NN & _).
  destruct (get_int_der sizeof_pub (0 + word_size on + 4 * word_size on) e rest) as (oe & G2 & H2); [lia|lia|]. rewrite G2. cbn [bind].
  eexists; eexists. split; [reflexivity|]. cbn [p_n p_e p_bits]. split; [exact H1|]. split; [exact H2|]. now apply holds_bits.
Qed.

Lemma other_length x : (1 <= length (der_OtherPrimeInfo x))%nat.
Proof. destruct x as [[r d] t]. unfold der_OtherPrimeInfo, der_seq, der_tlv. cbn [length]. lia. Qed.
Lemma decode_others_der os : Forall (fun '(r, d, t) => 0 <= r /\ 0 <= d /\ 0 <= t) os -> forall fuel count base addr ret i,
  (length os <= fuel)%nat -> (count = None \/ count = Some (i + length os)%nat) -> Z.of_nat (length (concat (map der_OtherPrimeInfo os))) < 2 ^ 56 ->
  exists ret' l, decode_others fuel count base addr ret (concat (map der_OtherPrimeInfo os)) i = Ret (Some (ret', l)) /\ Forall2 holds3 l os.
Proof.
  induction 1 as [|[[r d] t] os (Hr & Hd & Ht) _ IH]; intros fuel count base addr ret i HF HC HL.
  - exists ret, []. split; [|constructor]. cbn [map concat]. destruct HC as [->| ->]; destruct fuel; cbn [decode_others length Nat.eqb]; auto;
    rewrite Nat.add_0_r, (proj2 (Nat.leb_le i i) (le_n i)); reflexivity.
  - cbn [length] in HF. destruct fuel as [|f]; [lia|]. cbn [map concat] in *. rewrite app_length in HL.
    pose proof (other_length (r, d, t)) as OL.
    cbn [decode_others].
    assert (EC : match count with None => (length (der_OtherPrimeInfo (r, d, t) ++ concat (map der_OtherPrimeInfo os)) =? 0)%nat | Some c => (c <=? i)%nat end = false).
    { destruct HC as [->| ->]; [apply Nat.eqb_neq; rewrite app_length; lia|apply Nat.leb_gt; cbn [length]; lia]. }
    rewrite EC. unfold der_OtherPrimeInfo at 1. cbn [der_OtherPrimeInfo] in HL.
    pose proof (seq_bound (der_int r ++ der_int d ++ der_int t)) as SB. rewrite !app_length in SB.
    rewrite get_hdr_seq by (rewrite !app_length; lia). cbn [bind]. rewrite <- !app_assoc.
    set (rest := concat (map der_OtherPrimeInfo os)) in *.
    destruct (get_int_der (base + addr) ret r (der_int d ++ der_int t ++ rest)) as (o1 & G1 & H1); [lia|lia|]. rewrite G1. cbn [bind].
    destruct (get_int_der (base + addr) (ret + word_size o1) d (der_int t ++ rest)) as (o2 & G2 & H2); [lia|lia|]. rewrite G2. cbn [bind].
    destruct (get_int_der (base + addr) (ret + word_size o1 + word_size o2) t rest) as (o3 & G3 & H3); [lia|lia|]. rewrite G3. cbn [bind].
    destruct (IH f count base addr (ret + word_size o1 + word_size o2 + word_size o3) (S i)) as (ret' & l & G4 & H4); [lia| |lia|].
    { destruct HC as [->| ->]; [left; reflexivity|right; f_equal; cbn [length]; lia]. }
    rewrite G4. cbn [bind]. eexists; eexists. split; [reflexivity|]. constructor; [|exact H4]. split; [exact H1|split; assumption].
Qed.

Definition body (k : rsa_key) : list Z :=
  der_int (k_n k) ++ der_int (k_e k) ++ der_int (k_d k) ++
    der_int (k_p k) ++ der_int (k_q k) ++ der_int (k_dP k) ++ der_int (k_dQ k) ++ der_int (k_qInv k) ++
    match k_other k with [] => [] | os => der_seq (concat (map der_OtherPrimeInfo os)) end.

Lemma priv_pass_der k count rest : key_nonneg k -> Z.of_nat (length (der_RSAPrivateKey k)) < 2 ^ 56 ->
  (count = None \/ count = Some (length (k_other k))) ->
  exists size c, decode_priv_pass count (der_RSAPrivateKey k ++ rest) = Ret (Some (size, length (k_other k), c)) /\
    ctx_holds c k /\ s_bits c = bit_length (k_n k).
Proof.
  intros (HN & HO) HL HC. unfold der_RSAPrivateKey in *. fold (body k) in *.
  set (ver := match k_other k with [] => 0 | _ => 1 end) in *.
  assert (VV : ver = 0 \/ ver = 1) by (unfold ver; destruct (k_other k); auto).
  pose proof (seq_bound (der_int ver ++ body k)) as SB. rewrite app_length in SB.
  assert (LB : Z.of_nat (length (body k)) < 2 ^ 56) by lia.
  unfold decode_priv_pass. cbv zeta.
  set (b := sizeof_base + sizeof_other * Z.of_nat match count with Some c => c | None => 0%nat end). clearbody b.
  rewrite get_hdr_seq by (rewrite app_length; lia). cbn [bind]. rewrite <- app_assoc.
  rewrite (der_int_contents ver).
  assert (EV : length (int_contents ver) = 1%nat /\ get_version (int_contents ver) = ver).
  { destruct VV as [-> | ->]; vm_compute; split; reflexivity. }
  destruct EV as (EV1 & EV2).
  rewrite get_hdr_int by lia. cbn [bind]. rewrite firstn_app_exact, skipn_app_exact by reflexivity. rewrite EV2.
  unfold body in *. rewrite !app_length in LB. rewrite <- !app_assoc.
  inversion_clear HN as [|? ? N1 HN1]. inversion_clear HN1 as [|? ? N2 HN2]. inversion_clear HN2 as [|? ? N3 HN3]. inversion_clear HN3 as [|? ? N4 HN4].
  inversion_clear HN4 as [|? ? N5 HN5]. inversion_clear HN5 as [|? ? N6 HN6]. inversion_clear HN6 as [|? ? N7 HN7]. inversion_clear HN7 as [|? ? N8 HN8]. clear HN8.
  set (tl := match k_other k with [] => [] | _ :: _ => der_seq (concat (map der_OtherPrimeInfo (k_other k))) end) in *.
  assert (ET : (match k_other k with [] => [] | _ as os => der_seq (concat (map der_OtherPrimeInfo os)) end) = tl) by (unfold tl; destruct (k_other k); reflexivity).
  rewrite ?ET in *.
  match goal with |- context [get_int b 0 ?x] => destruct (get_int_der b 0 (k_n k) (skipn (length (der_int (k_n k))) x)) as (o1 & G & H1); [exact N1|lia|]; rewrite skipn_app_exact in G by reflexivity end.
  rewrite G. cbn [bind]. pose proof (get_int_any _ _ _ _ _ _ _ G) as (_ & _ & _ & NN & _). clear G.
  Ltac step k N G H o := match goal with |- context [bind (get_int ?b ?r ?x) _] => destruct (get_int_der b r k (skipn (length (der_int k)) x)) as (o & G & H); [exact N|lia|]; rewrite skipn_app_exact in G by reflexivity; rewrite G; cbn [bind]; clear G end.
  step (k_e k) N2 G H2 o2. step (k_d k) N3 G H3 o3. step (k_p k) N4 G H4 o4. step (k_q k) N5 G H5 o5.
  step (k_dP k) N6 G H6 o6. step (k_dQ k) N7 G H7 o7. step (k_qInv k) N8 G H8 o8.
  pose proof (holds_bits _ _ H1 NN) as HB.
  unfold ver, tl in *. destruct (k_other k) as [|x xs] eqn:EK.
  - change (0 =? 0) with true. cbv iota. eexists; eexists. split; [reflexivity|]. unfold ctx_holds. rewrite EK; cbn [s_n s_e s_d s_p s_q s_dP s_dQ s_qInv s_other s_bits].
    split; [|exact HB]. repeat match goal with |- _ /\ _ => split; [assumption|] end. constructor.
  - change (1 =? 0) with false. change (1 =? 1) with true. cbv iota.
    set (os := x :: xs) in *. pose proof (seq_bound (concat (map der_OtherPrimeInfo os))) as SB2.
    rewrite get_hdr_seq by lia. cbn [bind]. rewrite firstn_app_exact by reflexivity.
    match goal with |- context [decode_others ?f count ?bb ?a 0 _ 0%nat] => destruct (decode_others_der os HO f count bb a 0 0%nat) as (rr & l & GO & HH) end.
    { assert (length os <= length (concat (map der_OtherPrimeInfo os)))%nat; [|lia]. clear. induction os as [|y os IH]; [cbn; lia|].
      cbn [map concat length]. rewrite app_length. pose proof (other_length y). lia. }
    { exact HC. } { lia. }
    rewrite GO. cbn [bind]. pose proof (Forall2_length' _ _ _ HH) as FL.
    assert (EC : match count with Some c => c | None => length l end = length os) by (destruct HC as [->| ->]; auto).
    rewrite EC. eexists; eexists. split; [reflexivity|]. unfold ctx_holds. rewrite EK; cbn [s_n s_e s_d s_p s_q s_dP s_dQ s_qInv s_other s_bits].
    split; [|exact HB]. repeat match goal with |- _ /\ _ => split; [assumption|] end. exact HH.
Qed.
Lemma priv_decode k rest : key_nonneg k -> Z.of_nat (length (der_RSAPrivateKey k)) < 2 ^ 56 ->
  exists size c, ber_tlv_decode_RSAPrivateKey (der_RSAPrivateKey k ++ rest) = Ret (Some (size, c)) /\
    ctx_holds c k /\ s_bits c = bit_length (k_n k).
Proof.
  intros HN HL. destruct (priv_pass_der k None rest HN HL) as (s1 & c1 & E1 & _); [left; reflexivity|].
  destruct (priv_pass_der k (Some (length (k_other k))) rest HN HL) as (s2 & c2 & E2 & H2); [right; reflexivity|].
  exists s2, c2. split; [|exact H2]. unfold ber_tlv_decode_RSAPrivateKey. rewrite E1. cbn [bind]. rewrite E2. reflexivity.
Qed.
