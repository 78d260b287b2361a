(** The AES model computes FIPS 197. *)
From Verif Require Import Base Blocks Hash HashLemmas DerLemmas CmacLemmas Cipher CipherSpec CipherLemmas CipherLemmas2 CipherLemmas3.

Lemma aes_sbox_fips : aes_sbox = map fips_sbox idx.
Proof. vm_compute. reflexivity. Qed.
Transparent aes_S.
Lemma aes_S_fips x : byte_ok x -> aes_S x = fips_sbox x.
Proof.
  intros Hx. unfold aes_S. rewrite (lk_idx aes_sbox x eq_refl Hx). rewrite aes_sbox_fips. unfold nthZ.
  unfold byte_ok in Hx. change (2 ^ 8) with 256 in Hx.
  rewrite (nth_indep _ 0 (fips_sbox 0)) by (rewrite map_length; change (length idx) with 256%nat; lia).
  rewrite (map_nth fips_sbox). f_equal. change (nth (Z.to_nat x) idx 0) with (nthZ (Z.to_nat x) idx). rewrite idx_nth; lia.
Qed.
Global Opaque aes_S.
Lemma gmul1 x : byte_ok x -> gmul x 1 = x.
Proof. intros H. apply Z.eqb_eq. apply (all_bytes (fun x => gmul x 1 =? x)); [vm_compute; reflexivity|exact H]. Qed.
Lemma gmul2 x : byte_ok x -> gmul x 2 = gf_mul 2 x.
Proof. intros H. apply Z.eqb_eq. apply (all_bytes (fun x => gmul x 2 =? gf_mul 2 x)); [vm_compute; reflexivity|exact H]. Qed.
Lemma gmul3 x : byte_ok x -> gmul x 3 = gf_mul 3 x.
Proof. intros H. apply Z.eqb_eq. apply (all_bytes (fun x => gmul x 3 =? gf_mul 3 x)); [vm_compute; reflexivity|exact H]. Qed.
Lemma xtime_fips x : byte_ok x -> xtime x = gf_mul 2 x.
Proof. intros H. apply Z.eqb_eq. apply (all_bytes (fun x => xtime x =? gf_mul 2 x)); [vm_compute; reflexivity|exact H]. Qed.
Lemma Sub_fips s : blk s -> SubBytes s = fips_SubBytes s.
Proof.
  intros H. rewrite SubBytes_map by auto. list16 s H. unfold fips_SubBytes, build, st.
  cbn [map seq Nat.modulo Nat.divmod fst snd Nat.div Nat.sub Nat.add Nat.mul nthZ nth].
  rewrite !aes_S_fips by assumption. reflexivity.
Qed.
Lemma Mix_fips s : blk s -> MixColumns s = fips_MixColumns s.
Proof.
  intros H. list16 s H. unfold MixColumns. fold enc_a. rewrite mix_cols. unfold mixes. cbn [map seq app].
  rewrite !mixcol_S4. unfold fips_MixColumns, build, st, enc_a.
  cbn [map seq Nat.modulo Nat.divmod fst snd Nat.div Nat.sub Nat.add Nat.mul nthZ nth].
  rewrite !gmul1, !gmul2, !gmul3 by assumption. unfold S4.
  assert (P1 : forall a b c d, Z.lxor (Z.lxor (Z.lxor a b) c) d = Z.lxor (Z.lxor a b) (Z.lxor c d)) by (intros; now rewrite !Z.lxor_assoc).
  assert (P2 : forall a b c d, Z.lxor (Z.lxor (Z.lxor a b) c) d = Z.lxor (Z.lxor b c) (Z.lxor d a)).
  { intros. rewrite P1. rewrite (Z.lxor_comm a b), lxor4. rewrite (Z.lxor_comm a d). reflexivity. }
  assert (P3 : forall a b c d, Z.lxor (Z.lxor (Z.lxor a b) c) d = Z.lxor (Z.lxor c d) (Z.lxor a b)).
  { intros. rewrite P1. apply Z.lxor_comm. }
  assert (P4 : forall a b c d, Z.lxor (Z.lxor (Z.lxor a b) c) d = Z.lxor (Z.lxor d a) (Z.lxor b c)).
  { intros. rewrite (Z.lxor_comm _ d), !Z.lxor_assoc. reflexivity. }
  repeat (apply f_equal2; [first [apply P1|apply P2|apply P3|apply P4]|]). reflexivity.
Qed.

Definition keyw (w : list Z) : list (list Z) := map (le_bytes 4) w.
Lemma nth_keyw w i : (i < length w)%nat -> nth i (keyw w) [] = le_bytes 4 (nthZ i w).
Proof.
  intros H. unfold keyw. rewrite (nth_indep _ [] (le_bytes 4 0)) by now rewrite map_length. rewrite (map_nth (le_bytes 4)). reflexivity.
Qed.
Lemma flat_le4 w : length (flat_map (le_bytes 4) w) = (4 * length w)%nat /\ bytes_ok (flat_map (le_bytes 4) w).
Proof.
  induction w as [|a w [IH1 IH2]]; cbn [flat_map length]; [split; [reflexivity|constructor]|]. split.
  - rewrite app_length, le_bytes_length, IH1. lia.
  - apply Forall_app. split; [apply le_bytes_ok|exact IH2].
Qed.
Lemma skipn_flat_le4 j : forall w, skipn (4 * j) (flat_map (le_bytes 4) w) = flat_map (le_bytes 4) (skipn j w).
Proof.
  induction j as [|j IH]; intros w; [reflexivity|]. destruct w as [|a w]; [now rewrite !skipn_nil|].
  cbn [flat_map skipn]. replace (4 * S j)%nat with (4 + 4 * j)%nat by lia.
  rewrite skipn_app, le_bytes_length, skipn_all2 by (rewrite le_bytes_length; lia).
  cbn [app]. replace (4 + 4 * j - 4)%nat with (4 * j)%nat by lia. apply IH.
Qed.
Lemma slice_flat_le4 w i : (4 * i + 4 <= length w)%nat ->
  slice i 16 (flat_map (le_bytes 4) w) = le_bytes 4 (nthZ (4 * i) w) ++ le_bytes 4 (nthZ (4 * i + 1) w) ++
    le_bytes 4 (nthZ (4 * i + 2) w) ++ le_bytes 4 (nthZ (4 * i + 3) w).
Proof.
  intros H. unfold slice. replace (i * 16)%nat with (4 * (4 * i))%nat by lia. rewrite skipn_flat_le4.
  assert (E : forall k, nthZ (4 * i + k) w = nthZ k (skipn (4 * i) w)) by (intros k; unfold nthZ; now rewrite nth_skipn).
  rewrite <- (Nat.add_0_r (4 * i)) at 2. rewrite !E.
  assert (L : (4 <= length (skipn (4 * i) w))%nat) by (rewrite skipn_length; lia).
  destruct (skipn (4 * i) w) as [|a [|b [|c [|d t]]]]; cbn [length] in L; try lia.
  cbn [nthZ nth flat_map]. rewrite !le_bytes_4. reflexivity.
Qed.
Lemma ark_fips w s i : blk s -> (4 * i + 4 <= length w)%nat ->
  AddRoundKey s (flat_map (le_bytes 4) w) i = fips_AddRoundKey i (keyw w) s.
Proof.
  intros Hs Hi. unfold AddRoundKey. rewrite slice_flat_le4 by auto. list16 s Hs.
  unfold fips_AddRoundKey, build, st.
  cbn [map seq Nat.modulo Nat.divmod fst snd Nat.div Nat.sub nthZ nth].
  rewrite !Nat.add_0_r. change (4 * i + 0)%nat with (4 * i + 0)%nat.
  rewrite !nth_keyw by lia. rewrite !le_bytes_4. reflexivity.
Qed.
Lemma cipher_fips Nr w s : blk s -> length w = (4 * (Nr + 1))%nat ->
  Rijndael_Cipher Nr (flat_map (le_bytes 4) w) s = fips_Cipher Nr (keyw w) s.
Proof.
  intros Hs Hw. assert (K : keyed Nr (flat_map (le_bytes 4) w)).
  { destruct (flat_le4 w) as [L B]. split; [rewrite L, Hw; lia|exact B]. }
  unfold Rijndael_Cipher, fips_Cipher. cbv zeta.
  assert (G : forall l s, Forall (fun i => (i <= Nr)%nat) l -> blk s ->
    fold_left (fun out i => AddRoundKey (MixColumns (ShiftRows (SubBytes out))) (flat_map (le_bytes 4) w) i) l s =
    fold_left (fun s round => fips_AddRoundKey round (keyw w) (fips_MixColumns (fips_ShiftRows (fips_SubBytes s)))) l s /\
    blk (fold_left (fun out i => AddRoundKey (MixColumns (ShiftRows (SubBytes out))) (flat_map (le_bytes 4) w) i) l s)).
  { induction l as [|i l IH]; intros t F Ht; cbn [fold_left]; [split; [reflexivity|exact Ht]|]. inversion F; subst.
    assert (B1 : blk (SubBytes t)) by now apply SubBytes_blk. assert (B2 : blk (ShiftRows (SubBytes t))) by now apply Shift_blk.
    assert (B3 : blk (MixColumns (ShiftRows (SubBytes t)))) by now apply mix_blk.
    assert (E : AddRoundKey (MixColumns (ShiftRows (SubBytes t))) (flat_map (le_bytes 4) w) i =
      fips_AddRoundKey i (keyw w) (fips_MixColumns (fips_ShiftRows (fips_SubBytes t)))).
    { rewrite <- (Sub_fips t) by auto. rewrite <- ShiftRows_build by apply B1. rewrite <- Mix_fips by auto. apply ark_fips; auto. lia. }
    rewrite <- E. apply IH; auto. apply (ark_blk Nr); auto. }
  rewrite <- (ark_fips w s 0) by (auto; lia).
  destruct (G (seq 1 (Nr - 1)) (AddRoundKey s (flat_map (le_bytes 4) w) 0)) as [E B].
  - apply rounds_le.
  - apply (ark_blk Nr); auto. lia.
  - rewrite <- E. match type of B with blk ?t => set (u := t) in * end.
    rewrite <- (Sub_fips u) by auto. rewrite <- ShiftRows_build by (apply SubBytes_blk, B).
    apply ark_fips; [now apply Shift_blk, SubBytes_blk|lia].
Qed.

(* ---- key expansion ---- *)
Lemma le4_lxor a b : le_bytes 4 (Z.lxor a b) = xorb_list (le_bytes 4 a) (le_bytes 4 b).
Proof. rewrite !le_bytes_4, !byteat_lxor. reflexivity. Qed.
Lemma le4_sub w : le_bytes 4 (wsbox w aes_table) = SubWord (le_bytes 4 w).
Proof.
  rewrite !le_bytes_4. unfold SubWord. cbn [map]. rewrite !aes_wsbox by lia. rewrite !aes_S_fips by apply byteat_ok. reflexivity.
Qed.
Lemma ror8_eq w : wd 32 w -> Z.lor (Z.shiftr w 8) (u32 (Z.shiftl w 24)) = (w mod 2 ^ 8) * 2 ^ 24 + w / 2 ^ 8.
Proof.
  intros H. unfold u32. rewrite Z.shiftl_mul_pow2, Z.shiftr_div_pow2 by lia.
  replace (w * 2 ^ 24 mod 2 ^ 32) with ((w mod 2 ^ 8) * 2 ^ 24).
  2:{ change (2 ^ 32) with (2 ^ 8 * 2 ^ 24). now rewrite Z.mul_mod_distr_r by lia. }
  rewrite lor_shift_add; [lia|lia|]. unfold wd in H. change (2 ^ 32) with (2 ^ 8 * 2 ^ 24) in H.
  split; [apply Z.div_pos; lia|apply Z.div_lt_upper_bound; lia].
Qed.
Lemma le4_ror w : wd 32 w -> le_bytes 4 (Z.lor (Z.shiftr w 8) (u32 (Z.shiftl w 24))) = RotWord (le_bytes 4 w).
Proof.
  intros H. rewrite ror8_eq by auto. rewrite !le_bytes_4. cbn [RotWord app]. unfold byteat.
  change (8 * Z.of_nat 0) with 0. change (8 * Z.of_nat 1) with 8. change (8 * Z.of_nat 2) with 16. change (8 * Z.of_nat 3) with 24.
  change (2 ^ 0) with 1. unfold wd in H. change (2 ^ 32) with 4294967296 in H. change (2 ^ 8) with 256. change (2 ^ 16) with 65536. change (2 ^ 24) with 16777216.
  repeat (apply f_equal2; [Z.div_mod_to_equations; lia|]). reflexivity.
Qed.
Lemma RotSub w : SubWord (RotWord (le_bytes 4 w)) = RotWord (SubWord (le_bytes 4 w)).
Proof. rewrite le_bytes_4. reflexivity. Qed.
Lemma le4_byte r : byte_ok r -> le_bytes 4 r = [r; 0; 0; 0].
Proof.
  intros H. unfold byte_ok in H. change (2 ^ 8) with 256 in H. rewrite le_bytes_4. unfold byteat.
  change (8 * Z.of_nat 0) with 0. change (8 * Z.of_nat 1) with 8. change (8 * Z.of_nat 2) with 16. change (8 * Z.of_nat 3) with 24.
  change (2 ^ 0) with 1. change (2 ^ 8) with 256. change (2 ^ 16) with 65536. change (2 ^ 24) with 16777216.
  rewrite Z.div_1_r, Z.mod_small by lia. rewrite !Z.div_small by lia. reflexivity.
Qed.
Lemma gf_pow_S x n : gf_pow x (S n) = gf_mul x (gf_pow x n).
Proof. reflexivity. Qed.
Lemma pow2_byte m : byte_ok (gf_pow 2 m).
Proof.
  induction m as [|m IH]; cbn [gf_pow]; [unfold byte_ok; lia|]. rewrite <- xtime_fips by auto. apply xtime_ok.
Qed.
Lemma ror8_wd w : wd 32 w -> wd 32 (Z.lor (Z.shiftr w 8) (u32 (Z.shiftl w 24))).
Proof. intros H. apply lor_wd; [lia|apply shiftr_wd; [lia|auto]|apply u32_wd]. Qed.
Lemma kexp_inv Nk key n : (0 < Nk)%nat -> length key = (4 * Nk)%nat -> bytes_ok key ->
  let '(w, R) := fold_left (kexp_step Nk) (seq Nk n) (map (fun i => le_val (slice i 4 key)) (seq 0 Nk), 1) in
  length w = (Nk + n)%nat /\ Forall (wd 32) w /\ R = gf_pow 2 ((Nk + n - 1) / Nk) /\
  keyw w = fold_left (fun w i => w ++ [fips_word Nk w i]) (seq Nk n) (map (fun i => firstn 4 (skipn (4 * i) key)) (seq 0 Nk)).
Proof.
  intros HNk HL HB. induction n as [|n IH].
  - cbn [seq fold_left]. rewrite map_length, seq_length. split; [lia|]. split; [|split].
    + apply Forall_map, Forall_forall. intros i Hi. apply in_seq in Hi.
      pose proof (le_val_bound (slice i 4 key) (slice_bytes _ _ _ HB)) as G. rewrite slice_length in G by lia. exact G.
    + rewrite Nat.add_0_r. rewrite (Nat.div_small (Nk - 1) Nk) by lia. reflexivity.
    + unfold keyw. rewrite map_map. apply map_ext_in. intros i Hi. apply in_seq in Hi.
      assert (L : length (slice i 4 key) = 4%nat) by (apply slice_length; lia).
      pose proof (le_bytes_le_val (slice i 4 key) (slice_bytes _ _ _ HB)) as G. rewrite L in G. rewrite G.
      unfold slice. now rewrite (Nat.mul_comm i 4).
  - rewrite seq_S, !fold_left_app. cbn [fold_left].
    destruct (fold_left (kexp_step Nk) (seq Nk n) _) as [w R]. destruct IH as (Lw & Fw & HR & Ew). rewrite <- Ew.
    unfold kexp_step. set (i := (Nk + n)%nat).
    assert (W1 : wd 32 (nthZ (i - 1) w)) by (apply nthZ_wd; auto; lia).
    assert (W2 : wd 32 (nthZ (i - Nk) w)) by (apply nthZ_wd; auto; lia).
    assert (HRb : byte_ok R) by (rewrite HR; apply pow2_byte).
    assert (Fin : forall t T, wd 32 t -> le_bytes 4 t = T ->
       T = (let temp := nth (i - 1) (keyw w) [] in
            if (i mod Nk =? 0)%nat then xorb_list (SubWord (RotWord temp)) (Rcon (i / Nk))
            else if (6 <? Nk)%nat && (i mod Nk =? 4)%nat then SubWord temp else temp) ->
       length (w ++ [Z.lxor (nthZ (i - Nk) w) t]) = (Nk + S n)%nat /\ Forall (wd 32) (w ++ [Z.lxor (nthZ (i - Nk) w) t]) /\
       keyw (w ++ [Z.lxor (nthZ (i - Nk) w) t]) = keyw w ++ [fips_word Nk (keyw w) i]).
    { intros t T Wt Et ET. split; [rewrite app_length; cbn [length]; lia|]. split.
      - apply Forall_app. split; [exact Fw|]. constructor; [|constructor]. apply lxor_wd; auto. lia.
      - unfold keyw at 1. rewrite map_app. cbn [map]. fold (keyw w). do 2 f_equal. unfold fips_word. cbv zeta in ET. rewrite <- ET, <- Et.
        rewrite nth_keyw by (unfold i; lia). apply le4_lxor. }
    assert (Q : nth (i - 1) (keyw w) [] = le_bytes 4 (nthZ (i - 1) w)) by (apply nth_keyw; unfold i; lia).
    assert (Em : (i / Nk = (i - 1) / Nk + (if (i mod Nk =? 0)%nat then 1 else 0))%nat).
    { pose proof (Nat.div_mod i Nk ltac:(lia)) as D. pose proof (Nat.mod_upper_bound i Nk ltac:(lia)) as U.
      assert (1 <= i / Nk)%nat by (apply Nat.div_le_lower_bound; unfold i; lia).
      destruct (Nat.eqb_spec (i mod Nk) 0) as [E0|E0].
      - rewrite <- (Nat.div_unique (i - 1) Nk (i / Nk - 1) (Nk - 1)); nia.
      - rewrite <- (Nat.div_unique (i - 1) Nk (i / Nk) (i mod Nk - 1)); lia. }
    replace (Nk + S n - 1)%nat with i by (unfold i; lia). fold i in HR.
    destruct (i mod Nk =? 0)%nat.
    + destruct (Fin (Z.lxor (Z.lor (Z.shiftr (wsbox (nthZ (i - 1) w) aes_table) 8) (u32 (Z.shiftl (wsbox (nthZ (i - 1) w) aes_table) 24))) R) _
        ltac:(apply lxor_wd; [lia|apply ror8_wd, wsbox_range|unfold wd; unfold byte_ok in HRb; lia]) eq_refl) as (A1 & A2 & A3).
      * cbv zeta. rewrite Q. rewrite le4_lxor, le4_ror by apply wsbox_range. rewrite le4_sub, RotSub. f_equal.
        rewrite le4_byte by auto. unfold Rcon. f_equal. rewrite HR, Em, Nat.add_sub. reflexivity.
      * split; [exact A1|]. split; [exact A2|]. split; [|exact A3].
        rewrite HR, Em. rewrite xtime_fips by apply pow2_byte. now rewrite Nat.add_1_r, gf_pow_S.
    + rewrite Nat.add_0_r in Em. destruct ((6 <? Nk)%nat && (i mod Nk =? 4)%nat).
      * destruct (Fin (wsbox (nthZ (i - 1) w) aes_table) _ (wsbox_range _ _) eq_refl) as (A1 & A2 & A3).
        { cbv zeta. rewrite Q. apply le4_sub. }
        split; [exact A1|]. split; [exact A2|]. split; [|exact A3]. now rewrite Em.
      * destruct (Fin (nthZ (i - 1) w) _ W1 eq_refl) as (A1 & A2 & A3).
        { cbv zeta. now rewrite Q. }
        split; [exact A1|]. split; [exact A2|]. split; [|exact A3]. now rewrite Em.
Qed.
Lemma aes_fips Nk Nr key s : (0 < Nk <= 4 * (Nr + 1))%nat -> length key = (4 * Nk)%nat -> bytes_ok key -> blk s ->
  keyed Nr (Rijndael_KeyExpansion Nk Nr key) /\
  Rijndael_Cipher Nr (Rijndael_KeyExpansion Nk Nr key) s = fips_aes Nk Nr key s.
Proof.
  intros HNk HL HB Hs. pose proof (kexp_inv Nk key (4 * (Nr + 1) - Nk) ltac:(lia) HL HB) as G.
  unfold Rijndael_KeyExpansion, fips_aes, fips_KeyExpansion.
  destruct (fold_left (kexp_step Nk) _ _) as [w R]. destruct G as (Lw & Fw & _ & Ew).
  destruct (flat_le4 w) as [L B]. split; [split; [lia|exact B]|].
  rewrite <- Ew. apply cipher_fips; auto. lia.
Qed.
