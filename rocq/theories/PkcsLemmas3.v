(** PSS and v1.5 verification bodies decide RFC 8017 validity; the encoders encode. *)
From Verif Require Import Base Vlong VlongLemmas VlongDivLemmas VlongMulLemmas Der DerLemmas Blocks HashLemmas MdLemmas PropHash HashIface MacLemmas CmacLemmas PkcsSpec Pkcs1 PkcsLemmas PkcsLemmas2.

(** A public context as the library sets it up: modulus of exactly modulus_bits bits,
    working vlongs wide enough (VLONG_BITS_WCNT), hash context of its type. *)
Record key_ok (hm hg : hash_impl) (x : pkctx hm hg) : Prop := {
  ko_n : words_ok (pk_n x); ko_e : words_ok (pk_e x); ko_w1 : words_ok (pk_w1 x);
  ko_elen : (0 < length (pk_e x))%nat; ko_epos : 0 < vval (pk_e x);
  ko_bits : (2 <= pk_bits x)%nat;
  ko_size : 2 ^ (Z.of_nat (pk_bits x) - 1) <= vval (pk_n x) < 2 ^ Z.of_nat (pk_bits x);
  ko_width : (length (pk_n x) <= pk_w x)%nat /\ vval (pk_n x) * 2 ^ 32 < 2 ^ (32 * Z.of_nat (pk_w x));
  ko_hm : hi_shape hm (pk_hmsg x); ko_hg : hi_shape hg (pk_hmgf x)
}.

Lemma rev_repeat {A} (a : A) n : rev (repeat a n) = repeat a n.
Proof.
  induction n as [|n IH]; [reflexivity|]. cbn [repeat rev]. rewrite IH. clear IH.
  induction n as [|n IH]; [reflexivity|]. cbn [repeat app]. now rewrite IH.
Qed.

Section S.
  Variables (hm hg : hash_impl) (H G : list Z -> list Z) (lim : Z).
  Hypothesis HH : hash_correct hm H lim.
  Hypothesis HG : hash_correct hg G lim.
  Hypothesis Gpos : (0 < hi_out hg)%nat.
  Let mgf := rfc_mgf1 G (hi_out hg).

  Lemma key_n_gt1 x : key_ok hm hg x -> 1 < vval (pk_n x).
  Proof. clear Gpos HG HH.
    intros K. pose proof (proj1 (ko_size _ _ _ K)). pose proof (ko_bits _ _ _ K).
    assert (2 ^ 1 <= 2 ^ (Z.of_nat (pk_bits x) - 1)) by (apply Z.pow_le_mono_r; lia). lia.
  Qed.

  (** The octets both verifiers look at. *)
  Lemma em_octets x : key_ok hm hg x -> (pk_bits x mod 8 <> 1)%nat -> vval (pk_w1 x) <= vval (pk_n x) ->
    let em := vlong_I2OSP (match rsa_enc hm hg x with Some v => v | None => [] end) (em_len hm hg x) in
    bytes_ok em /\ length em = em_len hm hg x /\ be_val em = vval (pk_w1 x) ^ vval (pk_e x) mod vval (pk_n x).
  Proof. clear Gpos HG HH.
    intros K M8 Ls. destruct K. destruct ko_width0 as [Wa Wb].
    assert (N1 : 1 < vval (pk_n x)).
    { assert (2 ^ 1 <= 2 ^ (Z.of_nat (pk_bits x) - 1)) by (apply Z.pow_le_mono_r; lia). lia. }
    destruct (modexp_le (pk_w x) (pk_w1 x) (pk_e x) (pk_n x)) as (r & E & Wr & Lr & V); auto.
    cbv zeta. unfold rsa_enc. rewrite E. rewrite (I2OSP_spec r _ Wr). split; [apply be_bytes_ok|]. split; [apply be_bytes_length|].
    rewrite be_val_be_bytes, V. apply Z.mod_small. pose proof (Z.mod_pos_bound (vval (pk_w1 x) ^ vval (pk_e x)) (vval (pk_n x)) ltac:(lia)).
    split; [lia|]. eapply Z.lt_trans; [apply H0|]. eapply Z.lt_le_trans; [apply ko_size0|]. apply Z.pow_le_mono_r; [lia|].
    unfold em_len. pose proof (Nat.div_mod (pk_bits x - 1 + 7) 8 ltac:(lia)). pose proof (Nat.mod_upper_bound (pk_bits x - 1 + 7) 8 ltac:(lia)).
    pose proof (Nat.div_mod (pk_bits x) 8 ltac:(lia)). pose proof (Nat.mod_upper_bound (pk_bits x) 8 ltac:(lia)). lia.
  Qed.

  Lemma pow_self n e : 1 < n -> 0 < e -> n ^ e mod n = 0.
  Proof. clear Gpos HG HH. intros Hn He. replace e with (1 + (e - 1)) by lia. rewrite Z.pow_add_r, Z.pow_1_r by lia. rewrite Z.mul_comm. apply Z.mod_mul. lia. Qed.

  Lemma pss_body_spec x mHash : key_ok hm hg x -> pk_status x = 2 -> (pk_bits x mod 8 <> 1)%nat ->
    bytes_ok mHash -> length mHash = hi_out hm ->
    Z.of_nat (em_len hm hg x) < 2 ^ 32 -> Z.of_nat (8 + hi_out hm + em_len hm hg x) < lim ->
    exists s, pss_body hm hg x mHash = Some s /\ (s = 1 \/ s = -1) /\
      (s = 1 <-> pss_signature_ok H mgf (vval (pk_n x)) (vval (pk_e x)) (pk_bits x) (pk_slen x) mHash (vval (pk_w1 x))).
  Proof.
    intros K St M8 Bm Lm L32 Ll. unfold pss_body. cbv zeta. rewrite sig_above_max by apply K.
    pose proof (key_n_gt1 x K) as N1.
    unfold pss_signature_ok. rewrite Lm, <- (em_len_ceil hm hg x).
    destruct (Nat.ltb_spec (em_len hm hg x) (hi_out hm + pk_slen x + 2)) as [A|A].
    { exists (-1). repeat split; auto; try lia. }
    destruct (Z.ltb_spec (vval (pk_n x)) (vval (pk_w1 x))) as [B|B].
    { exists (-1). repeat split; auto; try lia. }
    destruct (em_octets x K M8 B) as (Be & Le & Ve). cbv zeta in Be, Le, Ve.
    destruct (em_checks_spec hm hg H G lim HH HG Gpos x mHash _ (ko_hm _ _ _ K) (ko_hg _ _ _ K) St Bm Lm Be Le (ko_bits _ _ _ K) A L32 Ll)
      as (s & Es & S2 & Siff).
    exists s. split; [exact Es|]. split; [exact S2|]. rewrite Siff. clear Siff Es.
    set (em := vlong_I2OSP _ _) in *. fold mgf.
    pose proof (em_len_range (pk_bits x) (ko_bits _ _ _ K)) as R. cbv zeta in R. destruct R as [R1 R2].
    split.
    - intros (salt & Lsalt & Bsalt & E).
      destruct (emsa_pss_ok hm hg H G lim HH HG Gpos (pk_bits x - 1) mHash salt) as [Q1 Q2]; auto.
      { rewrite <- (em_len_ceil hm hg x). lia. }
      assert (NE : vval (pk_w1 x) <> vval (pk_n x)).
      { intros X. rewrite X, pow_self in Ve by (auto; apply K).
        assert (em = repeat 0 (em_len hm hg x)).
        { apply be_val_inj; auto. - apply repeat0_bytes. - now rewrite repeat_length. - rewrite Ve. unfold be_val. now rewrite rev_repeat, val_le_zeros. }
        rewrite E in H0. unfold emsa_pss in H0. cbv zeta in H0. rewrite app_assoc in H0.
        apply (f_equal (@rev Z)) in H0. rewrite rev_app_distr, rev_repeat in H0. cbn [rev app] in H0.
        destruct (em_len hm hg x); [discriminate|]. cbn [repeat] in H0. discriminate. }
      pose proof (vval_bound _ (ko_w1 _ _ _ K)).
      split; [lia|]. split; [lia|]. exists salt. split; [auto|]. split; [auto|]. rewrite <- Ve, E. reflexivity.
    - intros (R & _ & salt & Lsalt & Bsalt & E). exists salt. split; [auto|]. split; [auto|].
      destruct (emsa_pss_ok hm hg H G lim HH HG Gpos (pk_bits x - 1) mHash salt) as [Q1 Q2]; auto.
      { rewrite <- (em_len_ceil hm hg x). lia. }
      apply be_val_inj; auto.
      + rewrite Le. unfold mgf. rewrite Q2. apply em_len_ceil.
      + rewrite Ve. exact E.
  Qed.

  (* ---- v1.5 ---- *)
  Lemma put_at_length d : forall ptr off, length (put_at ptr off d) = length ptr.
  Proof. clear Gpos HG HH. induction d as [|b d IH]; intros; cbn [put_at]; [auto|]. now rewrite IH, upd_length. Qed.
  Lemma put_at_nth d : forall ptr off i, (off + length d <= length ptr)%nat ->
    nthZ i (put_at ptr off d) = if (off <=? i)%nat && (i <? off + length d)%nat then nthZ (i - off) d else nthZ i ptr.
  Proof. clear Gpos HG HH.
    induction d as [|b d IH]; intros ptr off i L; cbn [put_at length] in *.
    - destruct (Nat.leb_spec off i), (Nat.ltb_spec i (off + 0)); cbn [andb]; auto; lia.
    - rewrite IH by (rewrite upd_length; lia).
      destruct (Nat.leb_spec (S off) i), (Nat.ltb_spec i (S off + length d)), (Nat.leb_spec off i), (Nat.ltb_spec i (off + S (length d))); cbn [andb]; try lia.
      + replace (i - off)%nat with (S (i - S off)) by lia. reflexivity.
      + rewrite nthZ_upd_neq by lia. reflexivity.
      + assert (i = off) by lia. subst. rewrite nthZ_upd_eq, Nat.sub_diag by lia. reflexivity.
      + rewrite nthZ_upd_neq by lia. reflexivity.
  Qed.
  Lemma put_at_firstn d ptr off : (off + length d <= length ptr)%nat ->
    put_at ptr off d = firstn off ptr ++ d ++ skipn (off + length d) ptr.
  Proof. clear Gpos HG HH.
    intros L. apply list_ext.
    { rewrite put_at_length, !app_length, firstn_length, skipn_length. lia. }
    intros i Hi. rewrite put_at_nth by auto. rewrite put_at_length in Hi. unfold nthZ.
    destruct (Nat.leb_spec off i); cbn [andb].
    - rewrite app_nth2 by (rewrite firstn_length; lia). rewrite firstn_length, Nat.min_l by lia.
      destruct (Nat.ltb_spec i (off + length d)).
      + now rewrite app_nth1 by lia.
      + rewrite app_nth2 by lia. rewrite nth_skipn. f_equal. lia.
    - rewrite app_nth1 by (rewrite firstn_length; lia). rewrite nth_firstn. destruct (Nat.ltb_spec i off); [auto|lia].
  Qed.
  Lemma ps_loop_spec tlen emLen : forall fuel t ptr, (tlen + t + 1 <= emLen)%nat -> (emLen - tlen - t <= fuel)%nat -> (emLen <= length ptr)%nat ->
    v15_ps_loop fuel tlen emLen t ptr = put_at ptr t (repeat 0xff (emLen - tlen - t - 1) ++ [0]).
  Proof. clear Gpos HG HH.
    induction fuel as [|fuel IH]; intros t ptr Ht Hf Hl; [lia|]. cbn [v15_ps_loop].
    destruct (Nat.leb_spec emLen (tlen + t + 1)).
    - replace (emLen - tlen - t - 1)%nat with 0%nat by lia. reflexivity.
    - rewrite IH by (rewrite ?upd_length; lia). replace (emLen - tlen - t - 1)%nat with (S (emLen - tlen - S t - 1)) by lia. reflexivity.
  Qed.

  Lemma v15_em_spec hc pre dl emLen ptr dig : length dig = dl -> snd (hi_final hm hc dl) = dig ->
    (length pre + dl + 11 <= emLen)%nat -> (emLen <= length ptr)%nat ->
    firstn emLen (v15_em hm hc pre dl emLen ptr) = emsa_v15 emLen (pre ++ dig).
  Proof. clear Gpos HG HH.
    intros Ld Ed L Lp. unfold v15_em. cbv zeta. rewrite Ed.
    rewrite ps_loop_spec by (rewrite ?upd_length; lia).
    set (q := repeat 255 _ ++ [0]).
    assert (Lq : length q = (emLen - (length pre + dl) - 2)%nat) by (unfold q; rewrite app_length, repeat_length; cbn [length]; lia).
    destruct ptr as [|p0 [|p1 ptr]]; try (cbn [length] in Lp; lia). cbn [upd].
    rewrite (put_at_firstn q) by (cbn [length] in *; lia). cbn [firstn skipn plus].
    rewrite Lq.
    rewrite (put_at_firstn pre) by (cbn [length app]; rewrite ?app_length, ?skipn_length, ?Lq; cbn [length] in *; lia).
    assert (F : firstn (emLen - dl - length pre) ([0; 1] ++ q ++ skipn (emLen - (length pre + dl) - 2) ptr) = [0; 1] ++ q).
    { rewrite app_assoc. apply firstn_app_exact. rewrite app_length, Lq. cbn [length]. lia. }
    change (0 :: 1 :: q ++ skipn (emLen - (length pre + dl) - 2) ptr) with ([0;1] ++ q ++ skipn (emLen - (length pre + dl) - 2) ptr) in *.
    cbn [app] in *. cbn [skipn]. rewrite F.
    assert (Lx : length ptr = (length (p0 :: p1 :: ptr) - 2)%nat) by (cbn [length]; lia).
    rewrite put_at_firstn.
    2:{ rewrite !app_length, skipn_length. cbn [length]. rewrite app_length, skipn_length, Lq. lia. }
    rewrite app_assoc, firstn_app_exact.
    2:{ rewrite app_length, firstn_length, !app_length, skipn_length. cbn [length]. rewrite app_length, skipn_length, Lq. lia. }
    unfold emsa_v15. rewrite !app_length, Ld.
    assert (X : firstn (emLen - dl) ((0 :: 1 :: q) ++ pre ++ skipn (emLen - dl - length pre + length pre) (0 :: 1 :: q ++ skipn (emLen - (length pre + dl) - 2) ptr)) = (0 :: 1 :: q) ++ pre).
    { rewrite app_assoc. apply firstn_app_exact. rewrite app_length. cbn [length]. lia. }
    rewrite X. unfold q. cbn [app]. do 2 f_equal. rewrite <- !app_assoc. f_equal. f_equal. lia.
  Qed.
  Lemma lor_zero a b : 0 <= a -> 0 <= b -> Z.lor a b = 0 <-> a = 0 /\ b = 0.
  Proof. clear Gpos HG HH. intros. split; [apply Z.lor_eq_0_iff|]. intros [-> ->]. reflexivity. Qed.
  Lemma or_diff_spec p q : forall k t d, 0 <= d -> bytes_ok p -> bytes_ok q ->
    (or_diff p q t k d = 0 <-> d = 0 /\ forall i, (i < k)%nat -> nthZ (t + i) p = nthZ (t + i) q).
  Proof. clear Gpos HG HH.
    induction k as [|k IH]; intros t d Hd Bp Bq; cbn [or_diff].
    - split; [intros ->; split; [auto|]; intros; lia|intros [-> _]; auto].
    - assert (HX : 0 <= Z.lxor (nthZ t p) (nthZ t q)) by (apply Z.lxor_nonneg; pose proof (nthZ_bytes p t Bp); pose proof (nthZ_bytes q t Bq); unfold byte_ok in *; lia).
      rewrite IH by (auto; apply Z.lor_nonneg; auto). rewrite lor_zero by auto. rewrite Z.lxor_eq_0_iff. split.
      + intros [[-> E] X]. split; auto. intros i Hi. destruct i; [now rewrite Nat.add_0_r|]. specialize (X i ltac:(lia)). now rewrite Nat.add_succ_r in *.
      + intros [-> X]. split; [split; [auto|]|].
        * specialize (X 0%nat ltac:(lia)). now rewrite Nat.add_0_r in X.
        * intros i Hi. specialize (X (S i) ltac:(lia)). now rewrite Nat.add_succ_r in X.
  Qed.

  Lemma v15_em_bytes hc pre dl emLen ptr : bytes_ok ptr -> bytes_ok pre -> bytes_ok (snd (hi_final hm hc dl)) -> bytes_ok (v15_em hm hc pre dl emLen ptr).
  Proof. clear Gpos HG HH.
    intros Bp Bpre Bd.
    assert (PA : forall d l o, bytes_ok l -> bytes_ok d -> bytes_ok (put_at l o d)).
    { induction d as [|b d IH]; intros l o Bl Bdd; cbn [put_at]; auto. inversion Bdd; subst. apply IH; auto. apply upd_Forall; auto. }
    assert (PL : forall f a b t l, bytes_ok l -> bytes_ok (v15_ps_loop f a b t l)).
    { induction f as [|f IH]; intros a b t l Bl; cbn [v15_ps_loop]; auto. destruct (_ <=? _)%nat; [apply upd_Forall; auto; unfold byte_ok; lia|].
      apply IH. apply upd_Forall; auto. unfold byte_ok; lia. }
    unfold v15_em. cbv zeta. apply PA; auto. apply PA; auto. apply PL. apply upd_Forall; [apply upd_Forall|]; auto; unfold byte_ok; lia.
  Qed.

  Lemma v15_body_spec x pre w2 dig : key_ok hm hg x -> pk_status x = 2 -> (pk_bits x mod 8 <> 1)%nat ->
    bytes_ok pre -> bytes_ok dig -> length dig = hi_out hm -> snd (hi_final hm (pk_hmsg x) (hi_out hm)) = dig ->
    bytes_ok w2 -> (em_len hm hg x <= length w2)%nat ->
    exists s, v15_body hm hg (Some (pre, hi_out hm)) w2 x = Some s /\ (s = 1 \/ s = -1) /\
      (s = 1 <-> v15_signature_ok (vval (pk_n x)) (vval (pk_e x)) (pk_bits x) (pre ++ dig) (vval (pk_w1 x))).
  Proof. clear Gpos HG HH.
    intros K St M8 Bpre Bdig Ld Ed Bw Lw. unfold v15_body. cbv zeta. rewrite sig_above_max by apply K.
    pose proof (key_n_gt1 x K) as N1.
    assert (EL : em_len hm hg x = ceil_div (pk_bits x) 8).
    { unfold em_len, ceil_div. pose proof (ko_bits _ _ _ K). pose proof (Nat.div_mod (pk_bits x - 1 + 7) 8 ltac:(lia)). pose proof (Nat.mod_upper_bound (pk_bits x - 1 + 7) 8 ltac:(lia)).
      pose proof (Nat.div_mod (pk_bits x + 8 - 1) 8 ltac:(lia)). pose proof (Nat.mod_upper_bound (pk_bits x + 8 - 1) 8 ltac:(lia)).
      pose proof (Nat.div_mod (pk_bits x) 8 ltac:(lia)). pose proof (Nat.mod_upper_bound (pk_bits x) 8 ltac:(lia)). lia. }
    unfold v15_signature_ok. rewrite app_length, Ld, <- EL.
    destruct (Z.ltb_spec (vval (pk_n x)) (vval (pk_w1 x))) as [B|B].
    { exists (-1). repeat split; auto; try lia. }
    destruct (em_octets x K M8 B) as (Be & Le & Ve). cbv zeta in Be, Le, Ve. set (em := vlong_I2OSP _ _) in *.
    destruct (Nat.ltb_spec (em_len hm hg x) (length pre + hi_out hm + 11)) as [A|A].
    { exists (-1). repeat split; auto; try lia. }
    rewrite St. cbn [Z.eqb Pos.eqb negb].
    set (p := v15_em _ _ _ _ _ _).
    assert (Bp : bytes_ok p) by (apply v15_em_bytes; auto; rewrite Ed; auto).
    assert (Fp : firstn (em_len hm hg x) p = emsa_v15 (em_len hm hg x) (pre ++ dig)) by (apply v15_em_spec; auto).
    assert (Lp : (em_len hm hg x <= length p)%nat).
    { apply (f_equal (@length Z)) in Fp. rewrite firstn_length in Fp. unfold emsa_v15 in Fp. rewrite !app_length, repeat_length in Fp. cbn [length] in Fp. lia. }
    assert (OD : or_diff p em 0 (em_len hm hg x) 0 = 0 <-> em = emsa_v15 (em_len hm hg x) (pre ++ dig)).
    { rewrite or_diff_spec by (auto; lia). rewrite <- Fp. split.
      - intros [_ X]. apply list_ext. { rewrite Le, firstn_length. lia. }
        intros i Hi. rewrite Le in Hi. specialize (X i Hi). cbn [plus] in X. rewrite <- X. unfold nthZ. rewrite nth_firstn. destruct (Nat.ltb_spec i (em_len hm hg x)); auto; lia.
      - intros E. split; auto. intros i Hi. cbn [plus]. rewrite E. unfold nthZ. rewrite nth_firstn. destruct (Nat.ltb_spec i (em_len hm hg x)); auto; lia. }
    assert (Bv : bytes_ok (emsa_v15 (em_len hm hg x) (pre ++ dig))) by (rewrite <- Fp; now apply Forall_firstn).
    assert (Lv : length (emsa_v15 (em_len hm hg x) (pre ++ dig)) = em_len hm hg x) by (rewrite <- Fp, firstn_length; lia).
    assert (Q : em = emsa_v15 (em_len hm hg x) (pre ++ dig) <-> vval (pk_w1 x) ^ vval (pk_e x) mod vval (pk_n x) = be_val (emsa_v15 (em_len hm hg x) (pre ++ dig))).
    { rewrite <- Ve. split; [intros ->; auto|]. intros E. apply be_val_inj; auto. congruence. }
    pose proof (vval_bound _ (ko_w1 _ _ _ K)) as WB.
    destruct (Z.eqb_spec (or_diff p em 0 (em_len hm hg x) 0) 0) as [E|E]; cbn [negb].
    - exists 1. split; [auto|]. split; [auto|]. split; auto. intros _. apply OD in E. 
      split; [|split; [lia|now apply Q]]. split; [lia|].
      enough (vval (pk_w1 x) <> vval (pk_n x)) by lia. intros X. rewrite X, pow_self in Ve by (auto; apply K).
      rewrite E in Ve. unfold emsa_v15 in Ve. rewrite be_val_app in Ve. 
      assert (0 <= be_val (repeat 255 (em_len hm hg x - length (pre ++ dig) - 3) ++ [0] ++ pre ++ dig)).
      { unfold emsa_v15 in Bv. apply Forall_app in Bv as [_ Bv]. apply be_val_bound. exact Bv. }
      change (be_val [0; 1]) with 1 in Ve. set (L := length _) in Ve. assert (0 < 2 ^ (8 * Z.of_nat L)) by (apply Z.pow_pos_nonneg; lia). lia.
    - exists (-1). split; [auto|]. split; [auto|]. split; [lia|]. intros (_ & _ & X). exfalso. apply E, OD, Q, X.
  Qed.

  (* ---- PSS encoding ---- *)
  Lemma pss_sign_em_spec x hc m salt ptr : key_ok hm hg x -> 
    bytes_ok m -> snd (hi_final hm hc (hi_out hm)) = H m -> hi_shape hm (fst (hi_final hm hc (hi_out hm))) ->
    bytes_ok salt -> length salt = pk_slen x -> length ptr = em_len hm hg x ->
    Z.of_nat (em_len hm hg x) < 2 ^ 32 -> Z.of_nat (8 + hi_out hm + em_len hm hg x) < lim ->
    pss_sign_em hm hg x hc salt ptr =
      if (em_len hm hg x <? hi_out hm + pk_slen x + 2)%nat then None
      else Some (emsa_pss H mgf (pk_bits x - 1) (H m) salt).
  Proof.
    intros K Bm Eh Sh Bs Ls Lp L32 Ll. unfold pss_sign_em. cbv zeta.
    destruct (Nat.ltb_spec (em_len hm hg x) (hi_out hm + pk_slen x + 2)) as [A|A]; [reflexivity|].
    set (emLen := em_len hm hg x) in *. set (hlen := hi_out hm) in *. set (slen := pk_slen x) in *.
    destruct (hi_final hm hc hlen) as [hc1 mh]. cbn [fst snd] in Eh, Sh. subst mh.
    destruct (hc_digest _ _ _ HH m Bm) as [Lm Bmm]. fold hlen in Lm.
    (* the buffer: a prefix of z+1 octets, salt, the digest, 0xbc *)
    assert (P1 : exists A0, length A0 = (emLen - hlen - slen - 1)%nat /\ put_at (upd (emLen - 1) 188 ptr) (emLen - hlen - slen - 1) salt
        = A0 ++ salt ++ skipn (emLen - hlen - 1) (upd (emLen - 1) 188 ptr)).
    { exists (firstn (emLen - hlen - slen - 1) (upd (emLen - 1) 188 ptr)). split; [rewrite firstn_length, upd_length; lia|].
      rewrite put_at_firstn by (rewrite upd_length; lia). do 3 f_equal. lia. }
    destruct P1 as (A0 & LA & P1). rewrite P1.
    assert (P2 : put_at (A0 ++ salt ++ skipn (emLen - hlen - 1) (upd (emLen - 1) 188 ptr)) (emLen - hlen - 1) (H m) = A0 ++ salt ++ H m ++ [188]).
    { rewrite put_at_firstn by (rewrite !app_length, skipn_length, upd_length; lia).
      rewrite (app_assoc A0 salt). rewrite firstn_app_exact by (rewrite app_length; lia). rewrite <- !app_assoc. do 3 f_equal.
      rewrite (app_assoc A0 salt). apply list_ext.
      { rewrite skipn_length, !app_length, skipn_length, upd_length. cbn [length]. lia. }
      intros i Hi. rewrite skipn_length, !app_length, skipn_length, upd_length in Hi. unfold nthZ. rewrite nth_skipn, app_nth2 by (rewrite app_length; lia).
      rewrite nth_skipn. replace i with 0%nat by lia. cbn [nth]. replace (emLen - hlen - 1 + (emLen - hlen - 1 + length (H m) + 0 - length (A0 ++ salt)))%nat with (emLen - 1)%nat by (rewrite app_length; lia).
      now rewrite nth_upd_eq by lia. }
    rewrite P2.
    assert (S1 : firstn hlen (skipn (emLen - hlen - 1) (A0 ++ salt ++ H m ++ [188])) = H m).
    { rewrite (app_assoc A0 salt), skipn_app_exact by (rewrite app_length; lia). now apply firstn_app_exact. }
    assert (S2 : firstn slen (skipn (emLen - hlen - slen - 1) (A0 ++ salt ++ H m ++ [188])) = salt).
    { rewrite skipn_app_exact by lia. now apply firstn_app_exact. }
    rewrite S1, S2.
    assert (RUN : snd (hi_final hm (hi_update hm (hi_update hm (hi_update hm (hi_init hm hc1) (repeat 0 8)) (H m)) salt) hlen)
       = H (repeat 0 8 ++ H m ++ salt)).
    { pose proof (run1 hm H lim HH hc1 [repeat 0 8; H m; salt] hlen Sh) as X. cbn [fold_left concat] in X. rewrite app_nil_r in X.
      rewrite X; [|apply Forall3; auto; apply repeat0_bytes|rewrite !app_length, repeat_length; lia].
      apply octets_exact. apply (hc_digest _ _ _ HH). repeat (apply Forall_app; split); auto. apply repeat0_bytes. }
    destruct (hc_digest _ _ _ HH (repeat 0 8 ++ H m ++ salt)) as [Dl Db].
    { repeat (apply Forall_app; split); auto. apply repeat0_bytes. }
    destruct (hi_final hm (hi_update hm (hi_update hm (hi_update hm (hi_init hm hc1) (repeat 0 8)) (H m)) salt) hlen) as [hc' h]. cbn [snd] in RUN. subst h.
    set (h := H (repeat 0 8 ++ H m ++ salt)) in *. fold hlen in Dl.
    assert (P3 : put_at (A0 ++ salt ++ H m ++ [188]) (emLen - hlen - 1) h = A0 ++ salt ++ h ++ [188]).
    { rewrite put_at_firstn by (rewrite !app_length; cbn [length]; lia).
      rewrite (app_assoc A0 salt). rewrite firstn_app_exact by (rewrite app_length; lia). rewrite <- !app_assoc. do 3 f_equal.
      rewrite (app_assoc salt), (app_assoc A0). apply skipn_app_exact. rewrite !app_length. lia. }
    rewrite P3.
    set (z := (emLen - hlen - slen - 2)%nat).
    assert (P4 : upd z 1 (put_at (A0 ++ salt ++ h ++ [188]) 0 (repeat 0 z)) = repeat 0 z ++ [1] ++ salt ++ h ++ [188]).
    { rewrite put_at_firstn by (rewrite !app_length, repeat_length; unfold z; cbn [length]; lia).
      rewrite repeat_length. cbn [firstn app plus].
      assert (X : exists a, skipn z (A0 ++ salt ++ h ++ [188]) = a :: salt ++ h ++ [188]).
      { rewrite skipn_app. replace (z - length A0)%nat with 0%nat by (unfold z; lia). cbn [skipn].
        assert (L1 : length (skipn z A0) = 1%nat) by (rewrite skipn_length; unfold z; lia).
        destruct (skipn z A0) as [|a [|b l]]; try discriminate. exists a. reflexivity. }
      destruct X as (a & X). rewrite X. rewrite <- (repeat_length 0 z) at 1. rewrite <- (Nat.add_0_r (length (repeat 0 z))). rewrite upd_app_r by lia. rewrite Nat.add_0_r, Nat.sub_diag. reflexivity. }
    rewrite P4.
    set (DB := repeat 0 z ++ [1] ++ salt).
    assert (LDB : length DB = (emLen - hlen - 1)%nat) by (unfold DB; rewrite !app_length, repeat_length; cbn [length]; unfold z; lia).
    replace (repeat 0 z ++ [1] ++ salt ++ h ++ [188]) with (DB ++ h ++ [188]) by (unfold DB; now rewrite <- !app_assoc).
    rewrite skipn_app_exact, !firstn_app_exact by auto.
    rewrite (mgf_auto_spec hm hg G lim HG Gpos) by (auto; try apply K; lia). fold mgf. rewrite LDB.
    f_equal. unfold emsa_pss. cbv zeta. rewrite <- (em_len_ceil hm hg x). fold emLen. rewrite Lm, Ls. fold h.
    replace (emLen - slen - hlen - 2)%nat with z by (unfold z; lia). fold DB.
    pose proof (em_len_range (pk_bits x) (ko_bits _ _ _ K)) as R. cbv zeta in R. rewrite <- (em_len_ceil hm hg x) in R. fold emLen in R. destruct R as [R1 R2].
    destruct (rfc_mgf1_ok hg G lim HG Gpos h (emLen - hlen - 1) Db) as [Mb Ml]. fold mgf in Mb, Ml.
    assert (NN : xorb_list DB (mgf h (emLen - hlen - 1)%nat) <> []).
    { intros X. apply (f_equal (@length Z)) in X. rewrite xorb_list_length, Ml, LDB in X. cbn [length] in X. lia. }
    rewrite clear_top_upd; [|lia|lia|].
    - destruct (xorb_list DB _); [easy|]. reflexivity.
    - intros X. apply app_eq_nil in X as [X _]. easy.
  Qed.
End S.
