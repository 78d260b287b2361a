(** CTR_DRBG: the loops of ctr-drbg.c against SP 800-90A. *)
From Verif Require Import Base HashSpec Blocks HashLemmas MdLemmas CmacLemmas DerLemmas GcmSpec GaloisLemmas GcmLemmas CcmLemmas CtrDrbgSpec CtrDrbg.

Lemma inc4 a b c d : byte_ok a -> byte_ok b -> byte_ok c -> byte_ok d -> cd_inc [a; b; c; d] 4 = be_bytes 4 (be_val [a; b; c; d] + 1).
Proof.
  unfold byte_ok. intros A B C D. unfold cd_inc. cbn [cd_inc_loop Nat.sub upd nthZ nth]. unfold nthZ. cbn [nth].
  unfold be_val. cbn [rev app val_le]. unfold be_bytes. cbn [to_le rev app]. unfold u8. rewrite !Z.shiftr_div_pow2 by lia.
  change (2 ^ 8) with 256 in *. 
  set (c1 := (1 + d) / 256). set (c2 := (c1 + c) / 256). set (c3 := (c2 + b) / 256).
  replace (d + 256 * (c + 256 * (b + 256 * (a + 256 * 0))) + 1) with ((1 + d) + (c + 256 * (b + 256 * a)) * 256) by ring.
  rewrite (Z.div_add (1 + d)), (Z.mod_add (1 + d)) by lia. fold c1.
  replace (c1 + (c + 256 * (b + 256 * a))) with ((c1 + c) + (b + 256 * a) * 256) by ring.
  rewrite (Z.div_add (c1 + c)), (Z.mod_add (c1 + c)) by lia. fold c2.
  replace (c2 + (b + 256 * a)) with ((c2 + b) + a * 256) by ring.
  rewrite (Z.div_add (c2 + b)), (Z.mod_add (c2 + b)) by lia. fold c3. reflexivity.
Qed.
Lemma inc16 blk : blk16 blk -> cd_inc blk 16 = inc32 blk.
Proof.
  intros [B L]. do 16 (destruct blk as [|? blk]; [discriminate|]). destruct blk; [|discriminate]. unfold inc32.
  do 12 (apply Forall_inv_tail in B). 
  assert (H := inc4 z11 z12 z13 z14 (Forall_inv B) (Forall_inv (Forall_inv_tail B)) (Forall_inv (Forall_inv_tail (Forall_inv_tail B))) (Forall_inv (Forall_inv_tail (Forall_inv_tail (Forall_inv_tail B))))).
  cbn [skipn firstn app]. rewrite <- H. reflexivity.
Qed.
Lemma iter_inc_blk blk n : blk16 blk -> blk16 (Nat.iter n inc32 blk).
Proof. intros B. induction n; [exact B|]. apply inc32_shape. exact IHn. Qed.

Lemma stream_S E V n : ctr_stream E V (S n) = E (inc32 V) ++ ctr_stream E (inc32 V) n.
Proof.
  unfold ctr_stream. cbn [seq map concat Nat.add Nat.iter]. f_equal. rewrite <- seq_shift, map_map. f_equal. apply map_ext. intros i.
  now rewrite iter_shift.
Qed.
Lemma stream_length E V n : block_cipher E -> blk16 V -> length (ctr_stream E V n) = (16 * n)%nat.
Proof.
  intros BF. revert V. induction n as [|n IH]; intros V B; [reflexivity|]. rewrite stream_S, app_length, IH by now apply inc32_shape.
  rewrite bf_len by (auto; now apply inc32_shape). lia.
Qed.
Lemma stream_bytes E V n : block_cipher E -> blk16 V -> bytes_ok (ctr_stream E V n).
Proof.
  intros BF. revert V. induction n as [|n IH]; intros V B; [constructor|]. rewrite stream_S. apply Forall_app. split.
  - apply bf_ok; auto; now apply inc32_shape.
  - apply IH. now apply inc32_shape.
Qed.
Lemma stream_app E V n m : ctr_stream E V (n + m) = ctr_stream E V n ++ ctr_stream E (Nat.iter n inc32 V) m.
Proof.
  revert V. induction n as [|n IH]; intros V; [reflexivity|]. cbn [Nat.add]. rewrite !stream_S, IH, <- app_assoc. now rewrite iter_shift.
Qed.
Lemma ctr_loop_spec E lim n : forall fuel t blk out, blk16 blk -> (forall i, (i < n)%nat -> Z.of_nat (t + 16 * i) <= lim) -> lim < Z.of_nat (t + 16 * n) -> (n <= fuel)%nat ->
  cd_ctr_loop fuel E lim t blk out = ((t + 16 * n)%nat, Nat.iter n inc32 blk, out ++ ctr_stream E blk n).
Proof.
  induction n as [|n IH]; intros fuel t blk out B H1 H2 Hf.
  - rewrite Nat.mul_0_r, Nat.add_0_r in *. cbn [Nat.iter]. unfold ctr_stream. cbn [seq map concat]. rewrite app_nil_r. destruct fuel; cbn [cd_ctr_loop]; [reflexivity|].
    replace (Z.of_nat t <=? lim) with false by lia. reflexivity.
  - destruct fuel as [|fuel]; [lia|]. cbn [cd_ctr_loop]. specialize (H1 0%nat ltac:(lia)) as H0. rewrite Nat.mul_0_r, Nat.add_0_r in H0.
    replace (Z.of_nat t <=? lim) with true by lia. rewrite inc16 by auto. rewrite IH.
    + rewrite stream_S, <- app_assoc. rewrite iter_shift. replace (t + 16 + 16 * n)%nat with (t + 16 * S n)%nat by lia. reflexivity.
    + now apply inc32_shape.
    + intros i Hi. specialize (H1 (S i) ltac:(lia)). lia.
    + lia.
    + lia.
Qed.
Lemma ctr_all E total fuel blk : block_cipher E -> blk16 blk -> (total / 16 <= fuel)%nat ->
  let '(t, blk', out) := cd_ctr_loop fuel E (Z.of_nat total - 16) 0 blk [] in
  cd_ctr_tail E total t blk' out = firstn total (ctr_stream E blk (nblk total)).
Proof.
  intros BF B Hf. pose proof (Nat.div_mod total 16 ltac:(lia)) as DM. pose proof (Nat.mod_upper_bound total 16 ltac:(lia)) as MU.
  set (n := (total / 16)%nat) in *. set (r := (total mod 16)%nat) in *.
  rewrite (ctr_loop_spec E _ n) by (auto; intros; lia). cbn [app Nat.add]. unfold cd_ctr_tail.
  destruct (Nat.eq_dec r 0) as [R|R].
  - replace (16 * n <? total)%nat with false by (symmetry; apply Nat.ltb_ge; lia).
    replace (nblk total) with n by (unfold nblk; apply (Nat.div_unique _ _ _ 15); lia). rewrite firstn_all2; [reflexivity|]. rewrite stream_length by auto. lia.
  - replace (16 * n <? total)%nat with true by (symmetry; apply Nat.ltb_lt; lia).
    replace (nblk total) with (n + 1)%nat by (unfold nblk; apply (Nat.div_unique _ _ _ (r - 1)); lia). rewrite stream_app, firstn_app, stream_length by auto.
    rewrite (@firstn_all2 Z total) by (rewrite stream_length by auto; lia). f_equal. f_equal. rewrite stream_S. rewrite inc16 by now apply iter_inc_blk.
    unfold ctr_stream. cbn [seq map concat]. now rewrite app_nil_r.
Qed.
Lemma mix_fold s n : forall seed, (n <= length s)%nat -> (n <= length seed)%nat ->
  fold_left (fun sd t => upd t (Z.lxor (nthZ t sd) (nthZ t s)) sd) (seq 0 n) seed = xorb_list (firstn n seed) (firstn n s) ++ skipn n seed.
Proof.
  induction n as [|n IH]; intros seed H1 H2; [reflexivity|]. rewrite seq_S, fold_left_app. cbn [Nat.add fold_left]. rewrite IH by lia.
  assert (LX : length (xorb_list (firstn n seed) (firstn n s)) = n) by (rewrite xorb_list_length, !firstn_length; lia).
  rewrite upd_app_r by lia. rewrite LX, Nat.sub_diag. rewrite (skipn_step seed n) by lia. cbn [upd].
  rewrite !firstn_succ by lia. rewrite xorb_list_app by (rewrite !firstn_length; lia). cbn [xorb_list]. rewrite <- app_assoc. cbn [app].
  f_equal. f_equal. f_equal. unfold nthZ. rewrite app_nth2 by lia. rewrite LX, Nat.sub_diag. reflexivity.
Qed.
Lemma mix_full ks s seed : length s = (ks + 16)%nat -> length seed = (ks + 16)%nat -> cd_mix ks (Some s) seed = xorb_list seed s.
Proof.
  intros H1 H2. unfold cd_mix. rewrite mix_fold by lia. rewrite (@skipn_all2 Z) by lia. rewrite app_nil_r. rewrite !firstn_all2 by lia. reflexivity.
Qed.

(** The state of a keyed generator: K || V with the schedule of K loaded. *)
Definition cd_state (ks : nat) (x : ctr_drbg) (K V : list Z) : Prop :=
  cd_sched x = K /\ cd_seed x = K ++ V /\ length K = ks /\ bytes_ok K /\ blk16 V.
Definition ciphers (E : list Z -> list Z -> list Z) (ks : nat) : Prop := forall K, bytes_ok K -> length K = ks -> block_cipher (E K).
Lemma load_V ks K V : length K = ks -> length V = 16%nat -> map (fun t => nthZ (ks + t) (K ++ V)) (seq 0 16) = V.
Proof.
  intros LK LV. apply list_ext; [now rewrite map_length, seq_length|]. intros i Hi. rewrite map_length, seq_length in Hi. rewrite nthZ_map_seq by auto.
  unfold nthZ. rewrite app_nth2 by lia. f_equal. lia.
Qed.
Lemma xor_zeros l n : (length l <= n)%nat -> xorb_list l (repeat 0 n) = l.
Proof. revert n. induction l as [|x l IH]; intros [|n] H; cbn [length] in *; try lia; try reflexivity. cbn [repeat xorb_list]. rewrite Z.lxor_0_r, IH by lia. reflexivity. Qed.
Lemma update_spec E ks x K V str : ciphers E ks -> cd_state ks x K V ->
  (match str with None => True | Some s => bytes_ok s /\ length s = (ks + 16)%nat end) ->
  let KV := sp_update E ks (match str with None => repeat 0 (ks + 16) | Some s => s end) K V in
  cd_state ks (CTR_DRBG_Update E ks x str) (fst KV) (snd KV).
Proof.
  intros HE (HS & Hs & LK & BK & BV) Hstr. unfold CTR_DRBG_Update. rewrite HS, Hs, load_V by (auto; apply BV).
  pose proof (ctr_all (E K) (16 + ks) (S ks) V (HE K BK LK) BV) as A.
  replace (Z.of_nat (16 + ks) - 16) with (Z.of_nat ks) in A by lia.
  assert (D : ((16 + ks) / 16 <= S ks)%nat).
  { replace (16 + ks)%nat with (ks + 1 * 16)%nat by lia. rewrite Nat.div_add by lia. pose proof (Nat.div_le_upper_bound ks 16 ks). lia. }
  specialize (A D). destruct (cd_ctr_loop _ _ _ _ _ _) as [[t blk] out]. rewrite A. replace (16 + ks)%nat with (ks + 16)%nat by lia.
  set (temp := firstn (ks + 16) (ctr_stream (E K) V (nblk (ks + 16)))).
  assert (NB : (ks + 16 <= 16 * nblk (ks + 16))%nat).
  { unfold nblk. pose proof (Nat.div_mod (ks + 16 + 15) 16 ltac:(lia)). pose proof (Nat.mod_upper_bound (ks + 16 + 15) 16 ltac:(lia)). lia. }
  assert (LT : length temp = (ks + 16)%nat) by (unfold temp; rewrite firstn_length, stream_length by auto; lia).
  assert (BT : bytes_ok temp) by (apply Forall_firstn, stream_bytes; auto).
  set (data := match str with None => _ | Some s => s end).
  assert (Ld : length data = (ks + 16)%nat) by (unfold data; destruct str; [tauto|apply repeat_length]).
  assert (Bd : bytes_ok data) by (unfold data; destruct str; [tauto|apply repeat0_bytes]).
  assert (M : cd_mix ks str temp = xorb_list temp data).
  { unfold data. destruct str as [s|]; [now apply mix_full|]. cbn [cd_mix]. symmetry. apply xor_zeros. lia. }
  rewrite M. unfold sp_update. fold temp. cbn [fst snd]. set (R := xorb_list temp data).
  assert (LR : length R = (ks + 16)%nat) by (unfold R; rewrite xorb_list_length; lia). assert (BR : bytes_ok R) by (apply xorb_list_ok; auto).
  unfold cd_state. cbn [cd_sched cd_seed]. repeat match goal with |- _ /\ _ => split end.
  - reflexivity.
  - symmetry. apply firstn_skipn.
  - rewrite firstn_length. lia.
  - now apply Forall_firstn.
  - split; [now apply Forall_skipn|]. rewrite skipn_length. lia.
Qed.
Lemma zero_state ks : cd_state ks {| cd_sched := firstn ks (repeat 0 (16 + ks)); cd_seed := repeat 0 (16 + ks) |} (repeat 0 ks) (repeat 0 16).
Proof.
  unfold cd_state. cbn [cd_sched cd_seed]. repeat match goal with |- _ /\ _ => split end.
  - rewrite firstn_repeat. f_equal. lia.
  - rewrite <- repeat_app. f_equal. lia.
  - apply repeat_length.
  - apply repeat0_bytes.
  - split; [apply repeat0_bytes|reflexivity].
Qed.
Lemma generate_spec E ks x K V len : ciphers E ks -> cd_state ks x K V ->
  CTR_DRBG_Generate E ks x len = (CTR_DRBG_Update E ks x None, firstn len (ctr_stream (E K) V (nblk len))).
Proof.
  intros HE (HS & Hs & LK & BK & BV). unfold CTR_DRBG_Generate. rewrite HS, Hs, load_V by (auto; apply BV).
  assert (D : (len / 16 <= S len)%nat) by (pose proof (Nat.div_le_upper_bound len 16 len); lia).
  pose proof (ctr_all (E K) len (S len) V (HE K BK LK) BV D) as A. destruct (cd_ctr_loop _ _ _ _ _ _) as [[t blk] out]. now rewrite A.
Qed.

(* ---- derivation function ---- *)
Definition bcc_from (E : list Z -> list Z) (c X : list Z) : list Z := fold_left (fun c B => E (xorb_list c B)) (blocks 16 X) c.
Lemma xor_upd c pre b : length c = 16%nat -> (length pre < 16)%nat ->
  upd (length pre) (Z.lxor (nthZ (length pre) (xorb_list c (pre ++ repeat 0 (16 - length pre)))) b) (xorb_list c (pre ++ repeat 0 (16 - length pre))) =
  xorb_list c ((pre ++ [b]) ++ repeat 0 (16 - S (length pre))).
Proof.
  intros LC LP. rewrite <- upd_pre by auto. set (m := pre ++ repeat 0 (16 - length pre)). assert (LM : length m = 16%nat) by (unfold m; rewrite app_length, repeat_length; lia).
  apply list_ext; [rewrite upd_length, !xorb_list_length, upd_length; lia|]. intros i Hi. rewrite upd_length, xorb_list_length in Hi.
  destruct (Nat.eq_dec i (length pre)) as [->|N].
  - rewrite nthZ_upd_eq by (rewrite xorb_list_length; lia). unfold nthZ at 1 2. rewrite !nth_xorb by (rewrite ?upd_length; lia). rewrite nth_upd_eq by lia. 
    unfold m. rewrite app_nth2 by lia. rewrite Nat.sub_diag. replace (16 - length pre)%nat with (S (15 - length pre)) by lia. cbn [repeat nth]. now rewrite Z.lxor_0_r.
  - rewrite nthZ_upd_neq by auto. unfold nthZ. rewrite !nth_xorb by (rewrite ?upd_length; lia). now rewrite nth_upd_neq by auto.
Qed.
Lemma bcc_step_split E d1 d2 st : fold_left (cd_bcc_step E) (d1 ++ d2) st = fold_left (cd_bcc_step E) d2 (fold_left (cd_bcc_step E) d1 st).
Proof. apply fold_left_app. Qed.
Lemma bcc_fold E data : block_cipher E -> bytes_ok data -> forall pre c, (length pre < 16)%nat -> bytes_ok pre -> blk16 c ->
  (let '(buf, t) := fold_left (cd_bcc_step E) data (xorb_list c (pre ++ repeat 0 (16 - length pre)), length pre) in E (upd t (Z.lxor (nthZ t buf) 0x80) buf)) =
  bcc_from E c (pad16 (pre ++ data ++ [0x80])).
Proof.
  intros BF BD. induction BD as [|b data Hb BD IH]; intros pre c HP BP HC; cbn [fold_left].
  - rewrite xor_upd by (auto; apply HC). cbn [app]. unfold bcc_from. rewrite pad16_blocks by (destruct pre; discriminate).
    rewrite skipn_all2 by (rewrite app_length; cbn [length]; lia). rewrite pad16_nil, blocks_nil. cbn [fold_left]. rewrite padblk_short by (rewrite app_length; cbn [length]; lia).
    rewrite app_length. cbn [length]. rewrite Nat.add_1_r. reflexivity.
  - unfold cd_bcc_step at 2. rewrite xor_upd by (auto; apply HC). destruct (Nat.leb_spec 16 (S (length pre))).
    + replace (16 - S (length pre))%nat with 0%nat by lia. cbn [repeat]. rewrite app_nil_r.
      assert (L : length (pre ++ [b]) = 16%nat) by (rewrite app_length; cbn [length]; lia).
      assert (BX : blk16 (xorb_list c (pre ++ [b]))).
      { split; [apply xorb_list_ok; [apply HC|apply Forall_app; split; [exact BP|constructor; auto]]|]. rewrite xorb_list_length, L. destruct HC. lia. }
      specialize (IH [] (E (xorb_list c (pre ++ [b]))) ltac:(cbn; lia) (Forall_nil _) (bf_blk _ _ BF BX)). cbn [app length] in IH.
      change (16 - 0)%nat with 16%nat in IH. rewrite xor_zeros in IH by (rewrite (bf_len E _ BF BX); lia). rewrite IH. unfold bcc_from.
      replace (pre ++ (b :: data) ++ [0x80]) with ((pre ++ [b]) ++ data ++ [0x80]) by (rewrite <- app_assoc; reflexivity).
      rewrite (pad16_blocks ((pre ++ [b]) ++ data ++ [0x80])) by (destruct pre; discriminate). cbn [fold_left].
      rewrite skipn_app_exact by exact L. rewrite padblk_long by (rewrite app_length, L; lia). now rewrite firstn_app_exact by exact L.
    + specialize (IH (pre ++ [b]) c). rewrite app_length in IH. cbn [length] in IH. rewrite Nat.add_1_r in IH.
      specialize (IH ltac:(lia) ltac:(apply Forall_app; split; [exact BP|constructor; auto]) HC).
      replace ((pre ++ [b]) ++ data ++ [0x80]) with (pre ++ (b :: data) ++ [0x80]) in IH by (rewrite <- app_assoc; reflexivity). exact IH.
Qed.
Lemma bcc_spec E buf LN inp : block_cipher E -> blk16 buf -> bytes_ok LN -> bytes_ok inp ->
  cd_BCC E [buf; LN; inp] = sp_bcc E (buf ++ pad16 (LN ++ inp ++ [0x80])).
Proof.
  intros BF [BB LB] BL BI. unfold cd_BCC. cbn [fold_left]. rewrite <- !bcc_step_split.
  pose proof (bcc_fold E (buf ++ LN ++ inp) BF) as H. specialize (H ltac:(repeat (apply Forall_app; split); auto) [] (repeat 0 16) ltac:(cbn; lia) (Forall_nil _) (conj (repeat0_bytes 16) eq_refl)).
  cbn [app length] in H. change (16 - 0)%nat with 16%nat in H. rewrite xor_zeros in H by reflexivity. rewrite H.
  unfold sp_bcc. fold (bcc_from E (repeat 0 16) (buf ++ pad16 (LN ++ inp ++ [128]))). f_equal.
  rewrite <- !app_assoc. unfold pad16 at 1. rewrite app_length, LB.
  set (Q := LN ++ inp ++ [128]). replace (16 + length Q)%nat with (length Q + 1 * 16)%nat by lia. rewrite Nat.mod_add by lia.
  rewrite <- app_assoc. reflexivity.
Qed.
Lemma LN_spec a n : Z.of_nat a < 2 ^ 32 -> Z.of_nat n < 2 ^ 32 -> cd_LN a n = be_bytes 4 (Z.of_nat a) ++ be_bytes 4 (Z.of_nat n).
Proof. intros A N. unfold cd_LN. rewrite !be_bytes_map. reflexivity. Qed.
Definition df_iv (i : nat) : list Z := be_bytes 4 (Z.of_nat i) ++ repeat 0 12.
Lemma iv_blk i : blk16 (df_iv i).
Proof. split; [apply Forall_app; split; [apply be_bytes_ok|apply repeat0_bytes]|]. unfold df_iv. rewrite app_length, be_bytes_length. reflexivity. Qed.
Lemma inc_pre4 a b c d r : cd_inc (a :: b :: c :: d :: r) 4 = cd_inc [a; b; c; d] 4 ++ r.
Proof. reflexivity. Qed.
Lemma be_bytes_mod n v : be_bytes n (v mod 2 ^ (8 * Z.of_nat n)) = be_bytes n v.
Proof. rewrite <- be_val_be_bytes. rewrite <- (be_bytes_length n v) at 1. apply be_bytes_be_val, be_bytes_ok. Qed.
Lemma iv_inc i : cd_inc (df_iv i) 4 = df_iv (i + 1).
Proof.
  unfold df_iv. pose proof (be_bytes_ok 4 (Z.of_nat i)) as B. pose proof (be_val_be_bytes 4 (Z.of_nat i)) as V.
  assert (L : length (be_bytes 4 (Z.of_nat i)) = 4%nat) by apply be_bytes_length.
  destruct (be_bytes 4 (Z.of_nat i)) as [|a [|b [|c [|d [|]]]]]; try discriminate. rewrite <- !app_comm_cons. rewrite app_nil_l. rewrite inc_pre4. f_equal.
  rewrite inc4; [|exact (Forall_inv B)|exact (Forall_inv (Forall_inv_tail B))|exact (Forall_inv (Forall_inv_tail (Forall_inv_tail B)))|exact (Forall_inv (Forall_inv_tail (Forall_inv_tail (Forall_inv_tail B))))].
  rewrite V. rewrite <- (be_bytes_mod 4 (_ + 1)). rewrite Zplus_mod_idemp_l. rewrite be_bytes_mod. f_equal. lia.
Qed.
Definition df_run (E : list Z -> list Z) (S : list Z) (i n : nat) : list Z := concat (map (fun j => sp_bcc E (df_iv j ++ S)) (seq i n)).
Lemma sp_bcc_blk E X : block_cipher E -> bytes_ok X -> blk16 (sp_bcc E X).
Proof.
  intros BF BX. unfold sp_bcc. pose proof (blocks_bytes 16 X ltac:(lia) BX) as F. assert (B0 : blk16 (repeat 0 16)) by (split; [apply repeat0_bytes|reflexivity]).
  revert B0. generalize (repeat 0 16). induction F as [|b bl [L B] F IH]; intros Y BY; cbn [fold_left]; [exact BY|].
  apply IH. apply BF. destruct BY as [BY LY]. split; [now apply xorb_list_ok|]. rewrite xorb_list_length. lia.
Qed.
Lemma df_loop_spec E ks LN inp n : block_cipher E -> bytes_ok LN -> bytes_ok inp -> forall fuel i key, (forall j, (j < n)%nat -> 16 * (i + j) <= ks)%nat -> (ks < 16 * (i + n))%nat -> (n <= fuel)%nat ->
  cd_df_loop fuel E ks (16 * i) (df_iv i) LN inp key = ((16 * (i + n))%nat, df_iv (i + n), key ++ df_run E (pad16 (LN ++ inp ++ [0x80])) i n).
Proof.
  intros BF BL BI. induction n as [|n IH]; intros fuel i key H1 H2 Hf.
  - rewrite Nat.add_0_r in *. unfold df_run. cbn [seq map concat]. rewrite app_nil_r. destruct fuel; cbn [cd_df_loop]; [reflexivity|].
    replace (16 * i <=? ks)%nat with false by (symmetry; apply Nat.leb_gt; lia). reflexivity.
  - destruct fuel as [|fuel]; [lia|]. cbn [cd_df_loop]. specialize (H1 0%nat ltac:(lia)) as H0. 
    replace (16 * i <=? ks)%nat with true by (symmetry; apply Nat.leb_le; lia). rewrite bcc_spec by (auto; apply iv_blk). rewrite iv_inc.
    set (SS := pad16 (LN ++ inp ++ [128])) in *.
    assert (BS : bytes_ok (df_iv i ++ SS)) by (apply Forall_app; split; [apply iv_blk|apply pad16_bytes; repeat (apply Forall_app; split); auto; constructor; [unfold byte_ok; lia|constructor]]).
    rewrite firstn_all2 by (destruct (sp_bcc_blk E _ BF BS) as [_ ->]; lia).
    replace (16 * i + 16)%nat with (16 * (i + 1))%nat by lia. rewrite IH.
    + rewrite <- app_assoc. unfold df_run at 2. cbn [seq map concat]. rewrite Nat.add_1_r. replace (S i + n)%nat with (i + S n)%nat by lia. reflexivity.
    + intros j Hj. specialize (H1 (S j) ltac:(lia)). lia.
    + lia.
    + lia.
Qed.
Lemma df_out_spec E outlen : block_cipher E -> forall fuel t blk out, blk16 blk -> (outlen - t <= fuel)%nat ->
  cd_df_out fuel E outlen t blk out = out ++ firstn (outlen - t) (concat (map (fun i => Nat.iter (i + 1) E blk) (seq 0 (nblk (outlen - t))))).
Proof.
  intros BF. induction fuel as [|fuel IH]; intros t blk out B Hf; cbn [cd_df_out].
  - replace (outlen - t)%nat with 0%nat by lia. cbn [firstn]. now rewrite app_nil_r.
  - destruct (Nat.ltb_spec t outlen) as [H|H].
    + rewrite IH by (try lia; now apply BF). rewrite <- app_assoc. f_equal. unfold nblk at 2. rewrite (ceil16 (outlen - t)) by lia. cbn [seq map concat Nat.add Nat.iter].
      rewrite firstn_app. rewrite bf_len by auto. f_equal. replace (outlen - (t + 16))%nat with (outlen - t - 16)%nat by lia. f_equal. fold (nblk (outlen - t - 16)).
      rewrite <- seq_shift, map_map. f_equal. apply map_ext. intros i. now rewrite iter_shift.
    + replace (outlen - t)%nat with 0%nat by lia. cbn [firstn]. now rewrite app_nil_r.
Qed.
Lemma df_run_length E S i n : block_cipher E -> bytes_ok S -> length (df_run E S i n) = (16 * n)%nat /\ bytes_ok (df_run E S i n).
Proof.
  intros BF BS. revert i. induction n as [|n IH]; intros i; [split; [reflexivity|constructor]|]. unfold df_run. cbn [seq map concat].
  destruct (IH (Datatypes.S i)) as [A B]. fold (df_run E S (Datatypes.S i) n).
  assert (BB : blk16 (sp_bcc E (df_iv i ++ S))) by (apply sp_bcc_blk; auto; apply Forall_app; split; [apply iv_blk|exact BS]). destruct BB as [B1 B2].
  split; [rewrite app_length; lia|]. apply Forall_app. split; auto.
Qed.
Lemma iter_blk E X n : block_cipher E -> blk16 X -> blk16 (Nat.iter n E X).
Proof. intros BF B. induction n; [exact B|]. apply BF. exact IHn. Qed.
Lemma df_spec E ks inp n : ciphers E ks -> (ks <= 256)%nat -> bytes_ok inp -> Z.of_nat (length inp) < 2 ^ 32 -> Z.of_nat n < 2 ^ 32 ->
  snd (BlockCipher_df E ks inp n) = sp_df E ks inp n /\ length (sp_df E ks inp n) = n /\ bytes_ok (sp_df E ks inp n).
Proof.
  intros HE Hks BI HI HN. set (K0 := map Z.of_nat (seq 0 ks)).
  assert (EK : map (fun o => u8 (Z.of_nat o)) (seq 0 ks) = K0).
  { apply map_ext_in. intros o Ho. apply in_seq in Ho. unfold u8. apply Z.mod_small. lia. }
  assert (BK0 : bytes_ok K0) by (apply Forall_forall; intros v Hv; apply in_map_iff in Hv; destruct Hv as (o & <- & Ho); apply in_seq in Ho; unfold byte_ok; lia).
  assert (BF : block_cipher (E K0)) by (apply HE; auto; unfold K0; now rewrite map_length, seq_length).
  set (LN := be_bytes 4 (Z.of_nat (length inp)) ++ be_bytes 4 (Z.of_nat n)). assert (BL : bytes_ok LN) by (apply Forall_app; split; apply be_bytes_ok).
  set (SS := pad16 (LN ++ inp ++ [0x80])). assert (BS : bytes_ok SS) by (apply pad16_bytes; apply Forall_app; split; [exact BL|apply Forall_app; split; [exact BI|constructor; [unfold byte_ok; lia|constructor]]]).
  assert (ES : df_S inp n = SS) by (unfold df_S, SS, LN; now rewrite <- app_assoc).
  pose proof (Nat.div_mod ks 16 ltac:(lia)) as DM. pose proof (Nat.mod_upper_bound ks 16 ltac:(lia)) as MU. set (q := (ks / 16)%nat) in *. set (r := (ks mod 16)%nat) in *.
  assert (ET : df_temp E ks inp n = df_run (E K0) SS 0 (nblk (ks + 16))).
  { unfold df_temp, df_run. fold K0. rewrite ES. reflexivity. }
  assert (X : exists temp, BlockCipher_df E ks inp n = (firstn ks temp, cd_df_out n (E (firstn ks temp)) n 0 (firstn 16 (skipn ks temp)) []) /\ temp = firstn (ks + 16) (df_run (E K0) SS 0 (nblk (ks + 16)))).
  { unfold BlockCipher_df. rewrite EK, LN_spec by auto. fold LN. cbv zeta.
    change (repeat 0 16) with (df_iv 0). change 0%nat with (16 * 0)%nat at 1. rewrite (df_loop_spec (E K0) ks LN inp (q + 1)) by (auto; intros; lia). fold SS. cbn [Nat.add app].
    eexists. split; [reflexivity|]. destruct (Nat.eq_dec r 0) as [R|R].
    - replace (16 * (q + 1) <? ks + 16)%nat with false by (symmetry; apply Nat.ltb_ge; lia).
      replace (nblk (ks + 16)) with (q + 1)%nat by (unfold nblk; apply (Nat.div_unique _ _ _ 15); lia). rewrite firstn_all2; [reflexivity|]. destruct (df_run_length (E K0) SS 0 (q + 1) BF BS). lia.
    - replace (16 * (q + 1) <? ks + 16)%nat with true by (symmetry; apply Nat.ltb_lt; lia).
      replace (nblk (ks + 16)) with (q + 2)%nat by (unfold nblk; apply (Nat.div_unique _ _ _ (r - 1)); lia).
      rewrite bcc_spec by (auto; apply iv_blk). fold SS. destruct (df_run_length (E K0) SS 0 (q + 1) BF BS) as [L1 _].
      assert (ER : df_run (E K0) SS 0 (q + 2) = df_run (E K0) SS 0 (q + 1) ++ sp_bcc (E K0) (df_iv (q + 1) ++ SS)).
      { unfold df_run. replace (q + 2)%nat with ((q + 1) + 1)%nat by lia. rewrite seq_app, map_app, concat_app. cbn [seq map concat Nat.add]. now rewrite app_nil_r. }
      rewrite ER, firstn_app, L1. rewrite (@firstn_all2 Z (ks + 16)) by lia. reflexivity. }
  destruct X as (temp & XE & XT). rewrite XE. cbn [snd]. unfold sp_df. rewrite ET. cbv zeta.
  assert (NB : (ks + 16 <= 16 * nblk (ks + 16))%nat).
  { unfold nblk. pose proof (Nat.div_mod (ks + 16 + 15) 16 ltac:(lia)). pose proof (Nat.mod_upper_bound (ks + 16 + 15) 16 ltac:(lia)). lia. }
  destruct (df_run_length (E K0) SS 0 (nblk (ks + 16)) BF BS) as [LR BR]. set (run := df_run _ _ _ _) in *.
  assert (E1 : firstn ks temp = firstn ks run) by (rewrite XT, firstn_firstn; f_equal; lia).
  assert (E2 : firstn 16 (skipn ks temp) = firstn 16 (skipn ks run)).
  { rewrite XT. rewrite skipn_firstn_comm, firstn_firstn. f_equal. lia. }
  rewrite E1, E2. set (K := firstn ks run). set (V := firstn 16 (skipn ks run)).
  assert (BK : bytes_ok K) by now apply Forall_firstn. assert (LK : length K = ks) by (unfold K; rewrite firstn_length; lia).
  assert (BV : blk16 V) by (split; [apply Forall_firstn; now apply Forall_skipn|unfold V; rewrite firstn_length, skipn_length; lia]).
  rewrite df_out_spec by (auto; lia). cbn [app]. rewrite Nat.sub_0_r. split; [reflexivity|].
  assert (G : forall m i, length (concat (map (fun i => Nat.iter (i + 1) (E K) V) (seq i m))) = (16 * m)%nat /\ bytes_ok (concat (map (fun i => Nat.iter (i + 1) (E K) V) (seq i m)))).
  { induction m as [|m IH]; intros i; [split; [reflexivity|constructor]|]. cbn [seq map concat]. destruct (IH (S i)) as [A B].
    destruct (iter_blk (E K) V (i + 1) (HE K BK LK) BV) as [C D]. split; [rewrite app_length, A, D; lia|apply Forall_app; split; auto]. }
  destruct (G (nblk n) 0%nat) as [GA GB]. split; [|now apply Forall_firstn]. rewrite firstn_length, GA. unfold nblk.
  pose proof (Nat.div_mod (n + 15) 16 ltac:(lia)). pose proof (Nat.mod_upper_bound (n + 15) 16 ltac:(lia)). lia.
Qed.
