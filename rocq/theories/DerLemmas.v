(** Proofs about integer/octet-string conversion and the DER primitives. *)
From Verif Require Import Base Vlong VlongLemmas VlongDivLemmas VlongMulLemmas Der.

Lemma lor_shift_add x g r : 0 <= r -> 0 <= x < 2 ^ r -> Z.lor x (g * 2 ^ r) = x + g * 2 ^ r.
Proof.
  intros Hr Hx.
  assert (L : Z.land x (g * 2 ^ r) = 0).
  { apply Z.bits_inj'. intros k Hk. rewrite Z.land_spec, Z.bits_0.
    destruct (Z_lt_ge_dec k r).
    - rewrite Z.mul_pow2_bits_low by lia. apply andb_false_r.
    - rewrite <- (Z.mod_small x (2 ^ r)) by lia. rewrite Z.mod_pow2_bits_high by lia. reflexivity. }
  rewrite Z.add_nocarry_lxor by auto. now rewrite Z.lxor_lor.
Qed.

Lemma mul8mod32 i : (i * 8 mod 32 = 8 * (i mod 4))%nat.
Proof.
  pose proof (Nat.div_mod i 4 ltac:(lia)) as DM. pose proof (Nat.mod_upper_bound i 4 ltac:(lia)).
  symmetry. apply Nat.mod_unique with (q := (i / 4)%nat); lia.
Qed.

Lemma seq_snoc i : seq 0 (S i) = seq 0 i ++ [i].
Proof. now rewrite seq_S. Qed.

Lemma val8_snoc get i :
  val_le 8 (map get (seq 0 (S i))) = val_le 8 (map get (seq 0 i)) + get i * 2 ^ (8 * Z.of_nat i).
Proof.
  rewrite seq_snoc, map_app, val_le_app, map_length, seq_length by lia. cbn [map val_le]. ring.
Qed.

Lemma map_bytes (f : nat -> Z) l : (forall j, byte_ok (f j)) -> bytes_ok (map f l).
Proof. intros H. induction l; cbn; constructor; auto. Qed.

Lemma dec_loop_spec get vl i k :
  (forall j, byte_ok (get j)) -> words_ok vl ->
  vval vl = val_le 8 (map get (seq 0 i)) ->
  words_ok (dec_loop get vl i k) /\ length (dec_loop get vl i k) = length vl /\
  vval (dec_loop get vl i k) = val_le 8 (map get (seq 0 (Nat.max i (Nat.min (i + k) (length vl * 4))))).
Proof.
  intros Hget. revert vl i. induction k as [|k IH]; intros vl i Hw HV.
  - cbn [dec_loop]. repeat split; auto. rewrite HV. f_equal. f_equal. f_equal. lia.
  - cbn [dec_loop]. destruct (Nat.leb_spec (length vl * 4) i) as [L|L].
    + repeat split; auto. rewrite HV. f_equal. f_equal. f_equal. lia.
    + pose proof (Nat.div_mod i 4 ltac:(lia)) as DM. pose proof (Nat.mod_upper_bound i 4 ltac:(lia)) as MB.
      rewrite mul8mod32.
      assert (DL : (i / 4 < length vl)%nat) by (apply Nat.div_lt_upper_bound; lia).
      set (q := (i / 4)%nat) in *. set (r := (i mod 4)%nat) in *.
      pose proof (Hget i) as Hg. unfold byte_ok in Hg.
      assert (VB : 0 <= vval vl < 2 ^ (8 * Z.of_nat i)).
      { rewrite HV. replace (Z.of_nat i) with (Z.of_nat (length (map get (seq 0 i)))) by now rewrite map_length, seq_length.
        apply val_le_bound; [lia|]. apply map_bytes, Hget. }
      assert (SM : 0 <= nthZ q vl < 2 ^ (8 * Z.of_nat r)).
      { pose proof (nthZ_range vl q Hw). split; [lia|].
        pose proof (nth_le_vval vl q Hw) as NL. pose proof (pow32_pos q) as PP.
        assert (E : 2 ^ (8 * Z.of_nat i) = 2 ^ (8 * Z.of_nat r) * 2 ^ (32 * Z.of_nat q)).
        { rewrite <- Z.pow_add_r by lia. f_equal. lia. }
        rewrite E in VB. nia. }
      assert (GB : 0 <= get i * 2 ^ (8 * Z.of_nat r) < 2 ^ 32).
      { assert (2 ^ (8 * Z.of_nat r) <= 2 ^ 24) by (apply Z.pow_le_mono_r; lia).
        assert (0 < 2 ^ (8 * Z.of_nat r)) by (apply Z.pow_pos_nonneg; lia). nia. }
      assert (LO : Z.lor (nthZ q vl) (u32 (Z.shiftl (get i) (Z.of_nat (8 * r)))) = nthZ q vl + get i * 2 ^ (8 * Z.of_nat r)).
      { rewrite Z.shiftl_mul_pow2 by lia. rewrite Nat2Z.inj_mul. change (Z.of_nat 8) with 8.
        unfold u32. rewrite Z.mod_small by lia. apply lor_shift_add; lia. }
      rewrite LO.
      assert (WW : word_ok (nthZ q vl + get i * 2 ^ (8 * Z.of_nat r))).
      { unfold word_ok. split; [lia|].
        assert (A : nthZ q vl + get i * 2 ^ (8 * Z.of_nat r) < 2 ^ 8 * 2 ^ (8 * Z.of_nat r)) by nia.
        assert (2 ^ 8 * 2 ^ (8 * Z.of_nat r) <= 2 ^ 32); [|lia].
        rewrite <- Z.pow_add_r by lia. apply Z.pow_le_mono_r; lia. }
      destruct (IH (upd q (nthZ q vl + get i * 2 ^ (8 * Z.of_nat r)) vl) (S i)) as (W & L2 & V2).
      * now apply upd_words.
      * rewrite val8_snoc, <- HV, upd_vval by auto.
        replace (8 * Z.of_nat i) with (8 * Z.of_nat r + 32 * Z.of_nat q) by lia.
        rewrite Z.pow_add_r by lia. ring.
      * rewrite upd_length in *. repeat split; auto. rewrite V2. f_equal. f_equal. f_equal. lia.
Qed.

Lemma val8_trunc l n : bytes_ok l -> (n <= length l)%nat ->
  val_le 8 (firstn n l) = val_le 8 l mod 2 ^ (8 * Z.of_nat n).
Proof.
  intros Hl Hn. rewrite <- (firstn_skipn n l) at 2. rewrite val_le_app by lia.
  rewrite firstn_length_le by auto. rewrite Z.mul_comm, Z.mod_add by (apply Z.pow_nonzero; lia).
  rewrite Z.mod_small; auto.
  pose proof (val_le_bound 8 (firstn n l) ltac:(lia) (Forall_firstn _ n l Hl)) as B.
  rewrite firstn_length_le in B by auto. exact B.
Qed.

Lemma map_nth_seq (l : list Z) : map (fun i => nthZ i l) (seq 0 (length l)) = l.
Proof.
  apply list_ext; rewrite map_length, seq_length; auto. intros i Hi.
  unfold nthZ. rewrite nth_indep with (d' := nth 0 l 0) by now rewrite map_length, seq_length.
  rewrite (map_nth (fun i => nth i l 0)). now rewrite seq_nth.
Qed.

Lemma map_nth_seq_rev (l : list Z) : map (fun i => nthZ (length l - i - 1) l) (seq 0 (length l)) = rev l.
Proof.
  rewrite <- (map_nth_seq (rev l)), rev_length. apply map_ext_in. intros i Hi. apply in_seq in Hi.
  unfold nthZ. rewrite rev_nth by lia. f_equal. lia.
Qed.

Lemma firstn_map_seq {A} (f : nat -> A) n m : (n <= m)%nat -> map f (seq 0 n) = firstn n (map f (seq 0 m)).
Proof.
  intros H. replace m with (n + (m - n))%nat by lia. rewrite seq_app, map_app.
  rewrite firstn_app, firstn_all2; rewrite map_length, seq_length; auto.
  rewrite Nat.sub_diag. cbn. now rewrite app_nil_r.
Qed.

Lemma dec_gen get l c : (forall j, byte_ok (get j)) -> bytes_ok l ->
  map get (seq 0 (length l)) = l ->
  let r := dec_loop get (repeat 0 c) 0 (length l) in
  words_ok r /\ length r = c /\ vval r = le_val l mod 2 ^ (32 * Z.of_nat c).
Proof.
  intros Hg Hl HM.
  destruct (dec_loop_spec get (repeat 0 c) 0 (length l) Hg (repeat_words c)) as (W & L & V).
  { now rewrite val_le_zeros. }
  rewrite repeat_length in *. cbv zeta. repeat split; auto. rewrite V.
  rewrite Nat.max_0_l, Nat.add_0_l.
  rewrite (firstn_map_seq get (Nat.min (length l) (c * 4)) (length l)) by lia. rewrite HM.
  unfold le_val.
  destruct (Nat.le_ge_cases (c * 4) (length l)) as [H|H].
  - rewrite Nat.min_r by lia. rewrite val8_trunc by auto. f_equal. f_equal. lia.
  - rewrite Nat.min_l by lia. rewrite firstn_all. symmetry. apply Z.mod_small.
    pose proof (val_le_bound 8 l ltac:(lia) Hl) as B. split; [lia|].
    apply Z.lt_le_trans with (1 := proj2 B). apply Z.pow_le_mono_r; lia.
Qed.

Lemma OS2IP_spec c os : bytes_ok os ->
  words_ok (vlong_OS2IP c os) /\ length (vlong_OS2IP c os) = c /\
  vval (vlong_OS2IP c os) = be_val os mod 2 ^ (32 * Z.of_nat c).
Proof.
  intros H. unfold vlong_OS2IP, be_val.
  assert (G := dec_gen (fun i => nthZ (length os - i - 1) os) (rev os) c).
  rewrite rev_length in G. apply G.
  - intros j. now apply nthZ_bytes.
  - now apply Forall_rev.
  - apply map_nth_seq_rev.
Qed.

Lemma DecLSB_spec c os : bytes_ok os ->
  words_ok (vlong_DecLSB c os) /\ length (vlong_DecLSB c os) = c /\
  vval (vlong_DecLSB c os) = le_val os mod 2 ^ (32 * Z.of_nat c).
Proof.
  intros H. unfold vlong_DecLSB. apply dec_gen; auto.
  - intros j. now apply nthZ_bytes.
  - apply map_nth_seq.
Qed.

Lemma octet_of_words vl i : words_ok vl ->
  (if (length vl * 4 <=? i)%nat then 0 else u8 (Z.shiftr (nthZ (i / 4) vl) (Z.of_nat (i * 8 mod 32))))
  = (vval vl / 2 ^ (8 * Z.of_nat i)) mod 2 ^ 8.
Proof.
  intros Hw. destruct (Nat.leb_spec (length vl * 4) i) as [L|L].
  - rewrite Z.div_small; [reflexivity|]. pose proof (vval_bound vl Hw) as B. split; [lia|].
    apply Z.lt_le_trans with (1 := proj2 B). apply Z.pow_le_mono_r; lia.
  - pose proof (Nat.div_mod i 4 ltac:(lia)) as DM. pose proof (Nat.mod_upper_bound i 4 ltac:(lia)) as MB.
    rewrite mul8mod32. unfold u8. apply Z.bits_inj'. intros k Hk.
    destruct (Z_lt_ge_dec k 8); [|now rewrite !Z.mod_pow2_bits_high by lia].
    rewrite !Z.mod_pow2_bits_low by lia. rewrite Z.shiftr_spec by lia.
    rewrite nth_testbit by (auto; lia). rewrite (proj2 (Z.ltb_lt _ _)) by lia. cbn [andb].
    rewrite <- Z.shiftr_div_pow2, Z.shiftr_spec by lia. f_equal. lia.
Qed.

Lemma map_seq_to_le w (f : nat -> Z) X n : 0 <= w ->
  (forall i, (i < n)%nat -> f i = (X / 2 ^ (w * Z.of_nat i)) mod 2 ^ w) ->
  map f (seq 0 n) = to_le w n X.
Proof.
  intros Hw H. apply list_ext.
  - now rewrite map_length, seq_length, to_le_length.
  - intros i Hi. rewrite map_length, seq_length in Hi. rewrite nth_to_le by auto. rewrite <- H by auto.
    unfold nthZ. rewrite nth_indep with (d' := f 0%nat) by now rewrite map_length, seq_length.
    rewrite map_nth, seq_nth by auto. reflexivity.
Qed.

Lemma EncLSB_spec vl len : words_ok vl -> vlong_EncLSB vl len = le_bytes len (vval vl).
Proof.
  intros H. unfold vlong_EncLSB. apply map_seq_to_le; [lia|]. intros i _. now apply octet_of_words.
Qed.

Lemma map_seq_rev (f : nat -> Z) n : map (fun p => f (n - p - 1)%nat) (seq 0 n) = rev (map f (seq 0 n)).
Proof.
  assert (L : length (map f (seq 0 n)) = n) by now rewrite map_length, seq_length.
  rewrite <- (map_nth_seq (rev (map f (seq 0 n)))). rewrite rev_length, L.
  apply map_ext_in. intros i Hi. apply in_seq in Hi.
  unfold nthZ. rewrite rev_nth by (rewrite L; lia). rewrite L.
  rewrite nth_indep with (d' := f 0%nat) by (rewrite L; lia).
  rewrite map_nth, seq_nth by lia. f_equal. lia.
Qed.

Lemma I2OSP_spec vl len : words_ok vl -> vlong_I2OSP vl len = be_bytes len (vval vl).
Proof.
  intros H. unfold vlong_I2OSP, be_bytes.
  rewrite <- (map_seq_to_le 8 (fun i => if (length vl * 4 <=? i)%nat then 0 else
       u8 (Z.shiftr (nthZ (i / 4) vl) (Z.of_nat (i * 8 mod 32)))) (vval vl) len); [|lia|intros; now apply octet_of_words].
  apply (map_seq_rev (fun i => if (length vl * 4 <=? i)%nat then 0 else
       u8 (Z.shiftr (nthZ (i / 4) vl) (Z.of_nat (i * 8 mod 32))))).
Qed.

(** topbit *)
Lemma bits_loop_spec fuel bits i : 0 <= bits < 2 ^ Z.of_nat fuel ->
  bits_loop fuel bits i = i + (if bits =? 0 then 0 else Z.log2 bits + 1).
Proof.
  revert bits i. induction fuel as [|f IH]; intros bits i Hb.
  - change (2 ^ Z.of_nat 0) with 1 in Hb. assert (bits = 0) by lia. subst. cbn. lia.
  - cbn [bits_loop]. destruct (Z.eqb_spec bits 0) as [->|N]; [lia|].
    rewrite Nat2Z.inj_succ, Z.pow_succ_r in Hb by lia.
    rewrite Z.shiftr_div_pow2 by lia. change (2 ^ 1) with 2.
    rewrite IH by (split; [apply Z.div_pos; lia|apply Z.div_lt_upper_bound; lia]).
    destruct (Z.eqb_spec (bits / 2) 0) as [E|E].
    + assert (bits = 1) by (pose proof (Z.div_mod bits 2 ltac:(lia)); pose proof (Z.mod_pos_bound bits 2 ltac:(lia)); lia).
      subst. cbn. lia.
    + assert (0 < bits / 2) by (pose proof (Z.div_pos bits 2); lia).
      pose proof (Z.div_mod bits 2 ltac:(lia)) as DM. pose proof (Z.mod_pos_bound bits 2 ltac:(lia)) as MB.
      assert (LG : Z.log2 bits = Z.succ (Z.log2 (bits / 2))).
      { rewrite DM at 1. destruct (Z.eq_dec (bits mod 2) 0) as [R|R].
        - rewrite R, Z.add_0_r. apply Z.log2_double; lia.
        - replace (bits mod 2) with 1 by lia. apply Z.log2_succ_double; lia. }
      lia.
Qed.

Lemma topbit_scan_spec x i : words_ok x -> (forall k, (i <= k)%nat -> nthZ k x = 0) ->
  let t := topbit_scan x i in
  (forall k, (t < k)%nat -> nthZ k x = 0) /\ (nthZ t x <> 0 \/ t = 0%nat).
Proof.
  intros Hx. induction i as [|i IH]; intros Hz.
  - cbn. split; [intros; apply Hz; lia|auto].
  - cbn [topbit_scan]. destruct i as [|i].
    + split; [intros; apply Hz; lia|auto].
    + destruct (Z.eqb_spec (nthZ (S i) x) 0) as [E|E].
      * apply IH. intros k Hk. destruct (Nat.eq_dec k (S i)) as [->|]; auto. apply Hz; lia.
      * split; [intros; apply Hz; lia|auto].
Qed.

Lemma topbit_spec x : words_ok x -> x <> [] ->
  vlong_topbit x = if vval x =? 0 then 0 else Z.log2 (vval x) + 1.
Proof.
  intros Hx Hne. unfold vlong_topbit.
  destruct (topbit_scan_spec x (length x) Hx) as [Hz Hn].
  { intros k Hk. unfold nthZ. now apply nth_overflow. }
  set (t := topbit_scan x (length x)) in *.
  pose proof (nthZ_range x t Hx) as W.
  rewrite bits_loop_spec by (change (2 ^ Z.of_nat 32) with (2 ^ 32); lia).
  assert (V : vval x = vval x mod 2 ^ (32 * Z.of_nat t) + nthZ t x * 2 ^ (32 * Z.of_nat t)).
  { assert (D : vval x / 2 ^ (32 * Z.of_nat t) = nthZ t x).
    { rewrite (nthZ_vval x t Hx). symmetry. apply Z.mod_small. split.
      - apply Z.div_pos; [apply vval_bound; auto|apply pow32_pos].
      - apply Z.div_lt_upper_bound; [apply pow32_pos|].
        destruct (Nat.lt_ge_cases t (length x)) as [L|L].
        + assert (E : vval x = vval (firstn (S t) x ++ skipn (S t) x)) by now rewrite firstn_skipn.
          rewrite val_le_app in E by lia. rewrite firstn_length_le in E by lia.
          assert (S0 : skipn (S t) x = repeat 0 (length x - S t)).
          { apply list_ext; [now rewrite skipn_length, repeat_length|]. intros k Hk.
            unfold nthZ. rewrite nth_skipn, nth_repeat. apply Hz. lia. }
          rewrite S0, val_le_zeros, Z.mul_0_r, Z.add_0_r in E. rewrite E.
          rewrite (Z.mul_comm _ (2 ^ 32)), <- pow32_succ.
          pose proof (vval_bound (firstn (S t) x) (Forall_firstn _ (S t) x Hx)) as B.
          rewrite firstn_length_le in B by lia. lia.
        + pose proof (vval_bound x Hx). apply Z.lt_le_trans with (2 ^ (32 * Z.of_nat (length x))); [lia|].
          rewrite (Z.mul_comm _ (2 ^ 32)), <- pow32_succ. apply Z.pow_le_mono_r; lia. }
    rewrite <- D. pose proof (Z.div_mod (vval x) (2 ^ (32 * Z.of_nat t)) ltac:(pose proof (pow32_pos t); lia)). lia. }
  pose proof (Z.mod_pos_bound (vval x) (2 ^ (32 * Z.of_nat t)) (pow32_pos t)) as MB.
  destruct (Z.eqb_spec (nthZ t x) 0) as [E|E].
  - assert (T0 : t = 0%nat) by tauto. rewrite T0 in *. rewrite E in V.
    change (2 ^ (32 * Z.of_nat 0)) with 1 in V. rewrite Z.mod_1_r in V. rewrite V. reflexivity.
  - pose proof (pow32_pos t). destruct (Z.eqb_spec (vval x) 0); [nia|].
    assert (LG : Z.log2 (vval x) = Z.log2 (nthZ t x) + 32 * Z.of_nat t).
    { apply Z.log2_unique; [pose proof (Z.log2_nonneg (nthZ t x)); lia|].
      destruct (Z.log2_spec (nthZ t x) ltac:(lia)) as [L1 L2].
      pose proof (Z.log2_nonneg (nthZ t x)).
      rewrite Z.pow_succ_r in L2 by lia.
      replace (Z.succ (Z.log2 (nthZ t x) + 32 * Z.of_nat t)) with (Z.succ (Z.log2 (nthZ t x)) + 32 * Z.of_nat t) by lia.
      rewrite !Z.pow_add_r, Z.pow_succ_r by lia.
      rewrite V. split; nia. }
    lia.
Qed.

(** splice *)
Lemma nthZ_upd_eq i v l : (i < length l)%nat -> nthZ i (upd i v l) = v.
Proof. apply nth_upd_eq. Qed.
Lemma nthZ_upd_neq i j v l : i <> j -> nthZ j (upd i v l) = nthZ j l.
Proof. apply nth_upd_neq. Qed.

Lemma splice_copy_length dst swap src n buf : length (splice_copy dst swap src n buf) = length buf.
Proof. induction n; cbn [splice_copy]; auto. now rewrite !upd_length. Qed.

Lemma splice_copy_spec dst swap src N n buf :
  (n <= N)%nat -> (dst + N <= swap)%nat -> (swap <= src)%nat -> (src + N <= length buf)%nat ->
  forall k,
  nthZ k (splice_copy dst swap src n buf) =
    if (dst <=? k)%nat && (k <? dst + n)%nat then nthZ (src + (k - dst)) buf
    else if (swap <=? k)%nat && (k <? swap + n)%nat then nthZ (dst + (k - swap)) buf
    else nthZ k buf.
Proof.
  intros Hn H1 H2 H3. revert Hn. induction n as [|n IH]; intros Hn k.
  - cbn [splice_copy]. destruct (Nat.leb_spec dst k), (Nat.ltb_spec k (dst + 0)), (Nat.leb_spec swap k), (Nat.ltb_spec k (swap + 0)); cbn [andb]; auto; lia.
  - cbn [splice_copy]. set (b := splice_copy dst swap src n buf) in *.
    assert (LB : length b = length buf) by apply splice_copy_length.
    assert (IH' := IH ltac:(lia)). clear IH.
    destruct (Nat.eq_dec k (dst + n)) as [->|K1].
    + rewrite nthZ_upd_eq by (rewrite upd_length; lia). rewrite IH'.
      destruct (Nat.leb_spec dst (src + n)), (Nat.ltb_spec (src + n) (dst + n)); cbn [andb]; try lia.
      destruct (Nat.leb_spec swap (src + n)), (Nat.ltb_spec (src + n) (swap + n)); cbn [andb]; try lia.
      destruct (Nat.leb_spec dst (dst + n)), (Nat.ltb_spec (dst + n) (dst + S n)); cbn [andb]; try lia.
      f_equal. lia.
    + rewrite nthZ_upd_neq by lia.
      destruct (Nat.eq_dec k (swap + n)) as [->|K2].
      * rewrite nthZ_upd_eq by lia. rewrite IH'.
        destruct (Nat.leb_spec dst (dst + n)), (Nat.ltb_spec (dst + n) (dst + n)); cbn [andb]; try lia.
        destruct (Nat.leb_spec swap (dst + n)), (Nat.ltb_spec (dst + n) (swap + n)); cbn [andb]; try lia.
        all: destruct (Nat.leb_spec dst (swap + n)), (Nat.ltb_spec (swap + n) (dst + S n)); cbn [andb]; try lia.
        all: destruct (Nat.leb_spec swap (swap + n)), (Nat.ltb_spec (swap + n) (swap + S n)); cbn [andb]; try lia; f_equal; lia.
      * rewrite nthZ_upd_neq by lia. rewrite IH'.
        destruct (Nat.leb_spec dst k), (Nat.ltb_spec k (dst + n)), (Nat.ltb_spec k (dst + S n)); cbn [andb]; try lia; auto;
        destruct (Nat.leb_spec swap k), (Nat.ltb_spec k (swap + n)), (Nat.ltb_spec k (swap + S n)); cbn [andb]; try lia; auto.
Qed.

Definition spliced (base len1 offset len2 : nat) (old new : list Z) : Prop :=
  length new = length old /\
  (forall k, (k < len2)%nat -> nthZ (base + k) new = nthZ (offset + k) old) /\
  (forall k, (k < len1)%nat -> nthZ (base + len2 + k) new = nthZ (base + k) old) /\
  (forall k, (k < base)%nat \/ (base + len1 + len2 <= k)%nat -> nthZ k new = nthZ k old).

Lemma splice_loop_spec fuel base len1 offset len2 buf :
  (len1 + len2 < fuel)%nat -> (0 < len1)%nat -> (base + len1 <= offset)%nat ->
  (offset + len2 <= length buf)%nat ->
  exists new, splice_loop fuel base len1 offset len2 buf = Some new /\ spliced base len1 offset len2 buf new.
Proof.
  revert base len1 offset len2 buf. induction fuel as [|f IH]; intros base len1 offset len2 buf Hf H1 H2 H3; [lia|].
  cbn [splice_loop].
  destruct (Nat.ltb_spec len1 len2) as [L|L].
  - (* copy_remain = len1 < len2 *)
    destruct (Nat.eqb_spec len1 0) as [|_]; [lia|].
    destruct (Nat.ltb_spec len2 len1) as [?|_]; [lia|].
    set (b := splice_copy base (base + len1) offset len1 buf).
    assert (LB : length b = length buf) by apply splice_copy_length.
    pose proof (splice_copy_spec base (base + len1) offset len1 len1 buf ltac:(lia) ltac:(lia) ltac:(lia) ltac:(lia)) as C.
    fold b in C.
    destruct (IH (base + len1)%nat len1 (offset + len1)%nat (len2 - len1)%nat b) as (new & E & S1 & S2 & S3 & S4); try lia.
    exists new. split; auto. split; [lia|]. split; [|split].
    + intros k Hk. destruct (Nat.lt_ge_cases k len1).
      * rewrite S4 by lia. rewrite C.
        destruct (Nat.leb_spec base (base + k)), (Nat.ltb_spec (base + k) (base + len1)); cbn [andb]; try lia. f_equal; lia.
      * replace (base + k)%nat with (base + len1 + (k - len1))%nat by lia. rewrite S2 by lia. rewrite C.
        replace (offset + len1 + (k - len1))%nat with (offset + k)%nat by lia.
        destruct (Nat.leb_spec base (offset + k)), (Nat.ltb_spec (offset + k) (base + len1)); cbn [andb]; try lia.
        destruct (Nat.leb_spec (base + len1) (offset + k)), (Nat.ltb_spec (offset + k) (base + len1 + len1)); cbn [andb]; try lia; auto.
    + intros k Hk. replace (base + len2 + k)%nat with (base + len1 + (len2 - len1) + k)%nat by lia. rewrite S3 by lia. rewrite C.
      destruct (Nat.leb_spec base (base + len1 + k)), (Nat.ltb_spec (base + len1 + k) (base + len1)); cbn [andb]; try lia.
      destruct (Nat.leb_spec (base + len1) (base + len1 + k)), (Nat.ltb_spec (base + len1 + k) (base + len1 + len1)); cbn [andb]; try lia.
      f_equal; lia.
    + intros k Hk. rewrite S4 by lia. rewrite C.
      destruct (Nat.leb_spec base k), (Nat.ltb_spec k (base + len1)); cbn [andb]; try lia; auto;
      destruct (Nat.leb_spec (base + len1) k), (Nat.ltb_spec k (base + len1 + len1)); cbn [andb]; try lia; auto.
  - destruct (Nat.eqb_spec len2 0) as [->|N2].
    { exists buf. split; auto. split; auto. split; [intros; lia|]. split; auto.
      intros k Hk. f_equal. lia. }
    set (b := splice_copy base (base + len1) offset len2 buf).
    assert (LB : length b = length buf) by apply splice_copy_length.
    pose proof (splice_copy_spec base (base + len1) offset len2 len2 buf ltac:(lia) ltac:(lia) ltac:(lia) ltac:(lia)) as C.
    fold b in C.
    destruct (Nat.ltb_spec len2 len1) as [L2|L2].
    + destruct (IH (base + len2)%nat (len1 - len2)%nat (len1 + base)%nat len2 b) as (new & E & S1 & S2 & S3 & S4); try lia.
      exists new. split; auto. split; [lia|]. split; [|split].
      * intros k Hk. rewrite S4 by lia. rewrite C.
        destruct (Nat.leb_spec base (base + k)), (Nat.ltb_spec (base + k) (base + len2)); cbn [andb]; try lia. f_equal; lia.
      * intros k Hk. destruct (Nat.lt_ge_cases k len2).
        -- rewrite S2 by lia. rewrite C.
           destruct (Nat.leb_spec base (len1 + base + k)), (Nat.ltb_spec (len1 + base + k) (base + len2)); cbn [andb]; try lia.
           destruct (Nat.leb_spec (base + len1) (len1 + base + k)), (Nat.ltb_spec (len1 + base + k) (base + len1 + len2)); cbn [andb]; try lia.
           f_equal; lia.
        -- replace (base + len2 + k)%nat with (base + len2 + len2 + (k - len2))%nat by lia. rewrite S3 by lia. rewrite C.
           destruct (Nat.leb_spec base (base + len2 + (k - len2))), (Nat.ltb_spec (base + len2 + (k - len2)) (base + len2)); cbn [andb]; try lia.
           destruct (Nat.leb_spec (base + len1) (base + len2 + (k - len2))), (Nat.ltb_spec (base + len2 + (k - len2)) (base + len1 + len2)); cbn [andb]; try lia.
           f_equal; lia.
      * intros k Hk. rewrite S4 by lia. rewrite C.
        destruct (Nat.leb_spec base k), (Nat.ltb_spec k (base + len2)); cbn [andb]; try lia; auto;
        destruct (Nat.leb_spec (base + len1) k), (Nat.ltb_spec k (base + len1 + len2)); cbn [andb]; try lia; auto.
    + (* len1 = len2 *) assert (len1 = len2) by lia. subst len1.
      destruct (IH (base + len2)%nat len2 (offset + len2)%nat (len2 - len2)%nat b) as (new & E & S1 & S2 & S3 & S4); try lia.
      exists new. split; auto. split; [lia|]. split; [|split].
      * intros k Hk. rewrite S4 by lia. rewrite C.
        destruct (Nat.leb_spec base (base + k)), (Nat.ltb_spec (base + k) (base + len2)); cbn [andb]; try lia. f_equal; lia.
      * intros k Hk. replace (base + len2 + k)%nat with (base + len2 + (len2 - len2) + k)%nat by lia. rewrite S3 by lia. rewrite C.
        destruct (Nat.leb_spec base (base + len2 + k)), (Nat.ltb_spec (base + len2 + k) (base + len2)); cbn [andb]; try lia.
        destruct (Nat.leb_spec (base + len2) (base + len2 + k)), (Nat.ltb_spec (base + len2 + k) (base + len2 + len2)); cbn [andb]; try lia.
        f_equal; lia.
      * intros k Hk. rewrite S4 by lia. rewrite C.
        destruct (Nat.leb_spec base k), (Nat.ltb_spec k (base + len2)); cbn [andb]; try lia; auto;
        destruct (Nat.leb_spec (base + len2) k), (Nat.ltb_spec k (base + len2 + len2)); cbn [andb]; try lia; auto.
Qed.

Lemma splice_move_spec offset n buf : (offset + n <= length buf)%nat ->
  length (splice_move offset n buf) = length buf /\
  forall k, nthZ k (splice_move offset n buf) = if (k <? n)%nat then nthZ (offset + k) buf else nthZ k buf.
Proof.
  intros H. induction n as [|n IH]; cbn [splice_move]; [auto|].
  destruct IH as [L IH]; [lia|]. rewrite upd_length. split; auto. intros k.
  destruct (Nat.eq_dec k n) as [->|N].
  - rewrite nthZ_upd_eq by lia. rewrite IH. destruct (Nat.ltb_spec n (S n)); [|lia].
    destruct (Nat.ltb_spec (n + offset) n).
    + lia.
    + f_equal. lia.
  - rewrite nthZ_upd_neq by auto. rewrite IH.
    destruct (Nat.ltb_spec k n), (Nat.ltb_spec k (S n)); try lia; auto.
Qed.

Lemma splice_insert_spec buf len1 offset len2 :
  (len1 <= offset)%nat -> (offset + len2 <= length buf)%nat ->
  exists new, ber_util_splice_insert buf len1 offset len2 = Some new /\ spliced 0 len1 offset len2 buf new.
Proof.
  intros H1 H2. unfold ber_util_splice_insert. destruct (Nat.eqb_spec len1 0) as [->|N].
  - eexists. split; [reflexivity|]. destruct (splice_move_spec offset len2 buf H2) as [L S].
    split; auto. split; [|split].
    + intros k Hk. rewrite S. destruct (Nat.ltb_spec (0 + k) len2); [|lia]. reflexivity.
    + intros; lia.
    + intros k Hk. rewrite S. destruct (Nat.ltb_spec k len2); auto. lia.
  - apply splice_loop_spec; lia.
Qed.
