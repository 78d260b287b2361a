(** CCM: the loops of ccm.c against SP 800-38C. *)
From Verif Require Import Base HashSpec Blocks HashLemmas MdLemmas CmacLemmas DerLemmas PropHash GcmSpec GaloisLemmas GcmLemmas CcmSpec Ccm.

Lemma be_bytes_map q v : be_bytes q v = map (fun i => u8 (Z.shiftr v (8 * Z.of_nat (q - 1 - i)))) (seq 0 q).
Proof.
  apply list_ext; [now rewrite be_bytes_length, map_length, seq_length|]. intros i Hi. rewrite be_bytes_length in Hi.
  rewrite nth_be_bytes, nthZ_map_seq by auto. unfold u8. now rewrite Z.shiftr_div_pow2 by lia.
Qed.
Ltac split_iv iv := do 7 (destruct iv as [|? iv]; [exfalso; cbn in *; lia|]);
  do 6 (try (destruct iv as [|? iv]; [|])); try (destruct iv; [|exfalso; cbn in *; lia]).
Lemma ctr_init_spec iv : (7 <= length iv <= 13)%nat -> ccm_ctr_init iv = ccm_ctr iv 1.
Proof.
  intros H. do 7 (destruct iv as [|? iv]; [exfalso; cbn in H; lia|]).
  destruct iv as [|? iv]; [reflexivity|]. destruct iv as [|? iv]; [reflexivity|]. destruct iv as [|? iv]; [reflexivity|].
  destruct iv as [|? iv]; [reflexivity|]. destruct iv as [|? iv]; [reflexivity|]. destruct iv as [|? iv]; [reflexivity|].
  destruct iv as [|? iv]; [reflexivity|]. exfalso. cbn in H. lia.
Qed.
Lemma ctr_len iv i : (7 <= length iv <= 13)%nat -> length (ccm_ctr iv i) = 16%nat.
Proof. intros H. unfold ccm_ctr. cbv zeta. rewrite !app_length, be_bytes_length. cbn [length]. lia. Qed.
Lemma ctr_blk iv i : bytes_ok iv -> (7 <= length iv <= 13)%nat -> blk16 (ccm_ctr iv i).
Proof.
  intros B H. split; [|now apply ctr_len]. unfold ccm_ctr. cbv zeta. apply Forall_app. split; [apply Forall_cons; [unfold byte_ok; lia|constructor]|].
  apply Forall_app. split; [exact B|apply be_bytes_ok].
Qed.
Lemma ctr_inc_spec iv : (7 <= length iv <= 13)%nat -> ccm_inc (length iv) (15 - length iv) (ccm_ctr iv 1) = ccm_ctr iv 2.
Proof.
  intros H. do 7 (destruct iv as [|? iv]; [exfalso; cbn in H; lia|]).
  destruct iv as [|? iv]; [reflexivity|]. destruct iv as [|? iv]; [reflexivity|]. destruct iv as [|? iv]; [reflexivity|].
  destruct iv as [|? iv]; [reflexivity|]. destruct iv as [|? iv]; [reflexivity|]. destruct iv as [|? iv]; [reflexivity|].
  destruct iv as [|? iv]; [reflexivity|]. exfalso. cbn in H. lia.
Qed.
Lemma ctr_zero_spec iv i : (7 <= length iv <= 13)%nat -> (i = 1 \/ i = 2)%nat -> ccm_ctr_zero (length iv) 16 (ccm_ctr iv i) = ccm_ctr iv 0.
Proof.
  intros H Hi. do 7 (destruct iv as [|? iv]; [exfalso; cbn in H; lia|]). destruct Hi as [-> | ->];
  (destruct iv as [|? iv]; [reflexivity|]; destruct iv as [|? iv]; [reflexivity|]; destruct iv as [|? iv]; [reflexivity|];
  destruct iv as [|? iv]; [reflexivity|]; destruct iv as [|? iv]; [reflexivity|]; destruct iv as [|? iv]; [reflexivity|];
  destruct iv as [|? iv]; [reflexivity|]; exfalso; cbn in H; lia).
Qed.
Lemma ctr_one_spec iv : (7 <= length iv <= 13)%nat -> ccm_ctr_zero (length iv) 15 (upd 15 1 (ccm_ctr iv 0)) = ccm_ctr iv 1.
Proof.
  intros H. do 7 (destruct iv as [|? iv]; [exfalso; cbn in H; lia|]).
  destruct iv as [|? iv]; [reflexivity|]. destruct iv as [|? iv]; [reflexivity|]. destruct iv as [|? iv]; [reflexivity|].
  destruct iv as [|? iv]; [reflexivity|]. destruct iv as [|? iv]; [reflexivity|]. destruct iv as [|? iv]; [reflexivity|].
  destruct iv as [|? iv]; [reflexivity|]. exfalso. cbn in H. lia.
Qed.
Lemma flags_spec (a : bool) (q t : nat) : (2 <= q <= 8)%nat -> (t = 4 \/ t = 6 \/ t = 8 \/ t = 10 \/ t = 12 \/ t = 14 \/ t = 16)%nat ->
  u8 (Z.lor (Z.lor (Z.shiftl (if a then 0 else 1) 6) (Z.shiftl (Z.of_nat ((t - 2) / 2)) 3)) (Z.of_nat q - 1)) =
  (if a then 0 else 64) + 8 * ((Z.of_nat t - 2) / 2) + (Z.of_nat q - 1).
Proof.
  intros Hq Ht. assert (Q : (q = 2 \/ q = 3 \/ q = 4 \/ q = 5 \/ q = 6 \/ q = 7 \/ q = 8)%nat) by lia.
  destruct a; destruct Q as [->|[->|[->|[->|[->|[->| ->]]]]]]; destruct Ht as [->|[->|[->|[->|[->|[->| ->]]]]]]; reflexivity.
Qed.
Lemma b0_spec iv a l t : (7 <= length iv <= 13)%nat -> (t = 4 \/ t = 6 \/ t = 8 \/ t = 10 \/ t = 12 \/ t = 14 \/ t = 16)%nat -> ccm_b0 iv a l t = ccm_B0 t iv a l.
Proof.
  intros H Ht. unfold ccm_b0, ccm_B0. cbv zeta. rewrite flags_spec by (auto; lia). rewrite be_bytes_map. set (fl := _ + _ + _). clearbody fl.
  do 7 (destruct iv as [|? iv]; [exfalso; cbn in H; lia|]).
  destruct iv as [|? iv]; [reflexivity|]. destruct iv as [|? iv]; [reflexivity|]. destruct iv as [|? iv]; [reflexivity|].
  destruct iv as [|? iv]; [reflexivity|]. destruct iv as [|? iv]; [reflexivity|]. destruct iv as [|? iv]; [reflexivity|].
  destruct iv as [|? iv]; [reflexivity|]. exfalso. cbn in H. lia.
Qed.
Lemma b0_blk t iv a l : bytes_ok iv -> (7 <= length iv <= 13)%nat -> (t = 4 \/ t = 6 \/ t = 8 \/ t = 10 \/ t = 12 \/ t = 14 \/ t = 16)%nat -> blk16 (ccm_B0 t iv a l).
Proof.
  intros B H Ht. unfold ccm_B0. cbv zeta. split.
  - apply Forall_app. split.
    + apply Forall_cons; [|constructor]. rewrite <- (flags_spec (a =? 0)%nat) by (auto; lia). unfold byte_ok, u8. apply Z.mod_pos_bound. lia.
    + apply Forall_app. split; [exact B|apply be_bytes_ok].
  - rewrite !app_length, be_bytes_length. cbn [length]. lia.
Qed.
Lemma b1_spec a : ccm_b1 a = (ccm_alen (Z.of_nat a) ++ repeat 0 (16 - length (ccm_alen (Z.of_nat a))), length (ccm_alen (Z.of_nat a))).
Proof.
  unfold ccm_b1, ccm_alen. cbv zeta. change (2 ^ 16 - 2 ^ 8) with 0xFF00. replace (Z.of_nat a <=? 0xFFFFFFFF) with (Z.of_nat a <? 2 ^ 32) by lia.
  destruct (Z.of_nat a =? 0); [reflexivity|]. destruct (Z.of_nat a <? 0xFF00); [rewrite be_bytes_map; reflexivity|].
  destruct (Z.of_nat a <? 2 ^ 32); rewrite be_bytes_map; reflexivity.
Qed.
Lemma alen_short a : (length (ccm_alen a) < 16)%nat.
Proof. unfold ccm_alen. destruct (a =? 0); [cbn; lia|]. destruct (a <? _); [rewrite be_bytes_length; lia|]. destruct (a <? _); rewrite app_length, be_bytes_length; cbn; lia. Qed.
Lemma alen_bytes a : bytes_ok (ccm_alen a).
Proof.
  unfold ccm_alen. destruct (a =? 0); [constructor|]. destruct (a <? _); [apply be_bytes_ok|].
  destruct (a <? _); (apply Forall_app; split; [repeat (apply Forall_cons; [unfold byte_ok; lia|]); constructor|apply be_bytes_ok]).
Qed.

Definition cbc (E : list Z -> list Z) (X Y : list Z) : list Z := fold_left (fun Y B => E (xorb_list B Y)) (blocks 16 X) Y.
Lemma upd_pre pre b : (length pre < 16)%nat -> upd (length pre) b (pre ++ repeat 0 (16 - length pre)) = (pre ++ [b]) ++ repeat 0 (16 - S (length pre)).
Proof.
  intros H. rewrite upd_app_r by lia. rewrite Nat.sub_diag, <- app_assoc. f_equal. replace (16 - length pre)%nat with (S (16 - S (length pre))) by lia. reflexivity.
Qed.
Lemma aad_fold E aad : forall pre Y, (length pre < 16)%nat ->
  let '(B, j, Y') := fold_left (ccm_aad_step E) aad (pre ++ repeat 0 (16 - length pre), length pre, Y) in
  ccm_flush E j B Y' = cbc E (pad16 (pre ++ aad)) Y.
Proof.
  induction aad as [|b aad IH]; intros pre Y Hp; cbn [fold_left].
  - rewrite app_nil_r. unfold ccm_flush, cbc. destruct pre as [|x pre]; [reflexivity|]. cbn [length Nat.eqb].
    rewrite pad16_blocks by congruence. rewrite skipn_all2 by lia. cbn [pad16 blocks]. rewrite pad16_nil, blocks_nil. cbn [fold_left].
    rewrite padblk_short by lia. reflexivity.
  - unfold ccm_aad_step at 2. rewrite upd_pre by auto. destruct (Nat.leb_spec 16 (S (length pre))).
    + specialize (IH [] (E (xorb_list ((pre ++ [b]) ++ repeat 0 (16 - S (length pre))) Y)) ltac:(cbn; lia)). cbn [app length] in IH.
      change (16 - 0)%nat with 16%nat in IH. destruct (fold_left (ccm_aad_step E) aad _) as [[B j] Y']. rewrite IH. unfold cbc.
      rewrite (pad16_blocks (pre ++ b :: aad)) by (destruct pre; discriminate). cbn [fold_left].
      replace (16 - S (length pre))%nat with 0%nat by lia. cbn [repeat]. rewrite app_nil_r.
      change (b :: aad) with ([b] ++ aad). rewrite app_assoc.
      assert (L : length (pre ++ [b]) = 16%nat) by (rewrite app_length; cbn [length]; lia).
      rewrite skipn_app_exact by exact L. rewrite padblk_long by (rewrite app_length, L; lia). now rewrite firstn_app_exact by exact L.
    + specialize (IH (pre ++ [b]) Y). rewrite app_length in IH. cbn [length] in IH. rewrite Nat.add_1_r in IH. specialize (IH ltac:(lia)).
      replace ((pre ++ [b]) ++ aad) with (pre ++ b :: aad) in IH by (rewrite <- app_assoc; reflexivity). exact IH.
Qed.
Lemma start_spec E iv aad l t : (7 <= length iv <= 13)%nat -> (t = 4 \/ t = 6 \/ t = 8 \/ t = 10 \/ t = 12 \/ t = 14 \/ t = 16)%nat ->
  ccm_start E iv aad l t = cbc E (pad16 (ccm_alen (Z.of_nat (length aad)) ++ aad)) (E (ccm_B0 t iv (length aad) l)).
Proof.
  intros H Ht. unfold ccm_start. cbv zeta. rewrite b1_spec, b0_spec by auto.
  pose proof (aad_fold E aad (ccm_alen (Z.of_nat (length aad))) (E (ccm_B0 t iv (length aad) l)) (alen_short _)) as A.
  destruct (fold_left _ _ _) as [[B j] Y']. exact A.
Qed.
Lemma cbc_blk E X Y : block_cipher E -> bytes_ok X -> blk16 Y -> blk16 (cbc E X Y).
Proof.
  intros BF BX BY. unfold cbc. pose proof (blocks_bytes 16 X ltac:(lia) BX) as F. revert Y BY. induction F as [|b bl [L B] F IH]; intros Y [BY LY]; cbn [fold_left]; [split; auto|].
  apply IH. apply BF. split; [now apply xorb_list_ok|]. rewrite xorb_list_length. lia.
Qed.
Lemma cbc_app E X1 X2 Y : (length X1 mod 16 = 0)%nat -> cbc E (X1 ++ X2) Y = cbc E X2 (cbc E X1 Y).
Proof. intros H. unfold cbc. rewrite blocks_app by (auto; lia). apply fold_left_app. Qed.
Lemma xorb_zeros b : length b = 16%nat -> xorb_list b (repeat 0 16) = b.
Proof.
  intros L. apply list_ext; [rewrite xorb_list_length, repeat_length; lia|]. intros i Hi. rewrite xorb_list_length, repeat_length in Hi. unfold nthZ.
  rewrite nth_xorb by (rewrite ?repeat_length; lia). rewrite nth_repeat. apply Z.lxor_0_r.
Qed.
Lemma mac_split E t iv A P : (7 <= length iv <= 13)%nat -> bytes_ok iv -> (t = 4 \/ t = 6 \/ t = 8 \/ t = 10 \/ t = 12 \/ t = 14 \/ t = 16)%nat ->
  cbc_mac E (ccm_B t iv A P) = cbc E (pad16 P) (ccm_start E iv A (length P) t).
Proof.
  intros H B Ht. unfold cbc_mac, ccm_B. fold (cbc E (ccm_B0 t iv (length A) (length P) ++ pad16 (ccm_alen (Z.of_nat (length A)) ++ A) ++ pad16 P) (repeat 0 16)).
  destruct (b0_blk t iv (length A) (length P) B H Ht) as [BB LB].
  rewrite !cbc_app by (try apply pad16_mod; now rewrite LB). rewrite start_spec by auto. unfold cbc at 3. rewrite blocks_one by (auto; lia). cbn [fold_left].
  now rewrite xorb_zeros.
Qed.

(* ---- the payload loop ---- *)
Definition mk i j B Y Ctr S out := {| cs_i := i; cs_j := j; cs_B := B; cs_Y := Y; cs_Ctr := Ctr; cs_S := S; cs_out := out |}.
Definition segB (dec : bool) (inp S : list Z) (i0 : nat) : list Z := if dec then xorb_list (firstn 16 (skipn i0 inp)) S else firstn 16 (skipn i0 inp).
Definition segO (dec : bool) (inp S out : list Z) (i0 m : nat) : list Z :=
  if dec then out else firstn i0 out ++ firstn m (xorb_list (skipn i0 inp) S) ++ skipn (i0 + m) out.
Lemma firstn_succ (l : list Z) m : (m < length l)%nat -> firstn (S m) l = firstn m l ++ [nthZ m l].
Proof. revert m. induction l as [|h l IH]; intros [|m] H; cbn [length] in *; try lia; [reflexivity|]. change (h :: firstn (S m) l = h :: (firstn m l ++ [nthZ m l])). rewrite IH by lia. reflexivity. Qed.
Lemma skipn_step (l : list Z) i : (i < length l)%nat -> skipn i l = nthZ i l :: skipn (S i) l.
Proof. revert i. induction l as [|h l IH]; intros [|i] H; cbn [length] in *; try lia; [reflexivity|]. change (skipn i l = nthZ i l :: skipn (S i) l). apply IH. lia. Qed.
Lemma segO_step inp S out i0 m : length S = 16%nat -> (m < 16)%nat -> (i0 + m < length inp)%nat -> length out = length inp ->
  upd (i0 + m) (Z.lxor (nthZ (i0 + m) inp) (nthZ m S)) (segO false inp S out i0 m) = segO false inp S out i0 (m + 1).
Proof.
  intros LS Hm Hi Lo. unfold segO. set (D := xorb_list (skipn i0 inp) S).
  assert (LD : length D = Nat.min (length inp - i0) 16) by (unfold D; rewrite xorb_list_length, skipn_length, LS; reflexivity).
  assert (L1 : length (firstn i0 out) = i0) by (rewrite firstn_length; lia).
  assert (L2 : length (firstn m D) = m) by (rewrite firstn_length; lia).
  rewrite upd_app_r by lia. rewrite L1. rewrite upd_app_r by lia. rewrite L2. replace (i0 + m - i0 - m)%nat with 0%nat by lia.
  f_equal. rewrite Nat.add_1_r, firstn_succ by lia. rewrite <- app_assoc. f_equal.
  assert (SK : skipn (i0 + m) out = nthZ (i0 + m) out :: skipn (i0 + Datatypes.S m) out).
  { rewrite <- plus_n_Sm. apply skipn_step. lia. }
  rewrite SK. cbn [upd app]. f_equal. unfold D, nthZ. rewrite nth_xorb by (rewrite ?skipn_length; lia). rewrite nth_skipn. reflexivity.
Qed.
Lemma segO_length dec inp S out i0 m : length S = 16%nat -> (m <= 16)%nat -> (i0 + m <= length inp)%nat -> length out = length inp -> length (segO dec inp S out i0 m) = length inp.
Proof.
  intros LS Hm Hi Lo. unfold segO. destruct dec; [exact Lo|]. rewrite !app_length, !firstn_length, xorb_list_length, !skipn_length. lia.
Qed.
Lemma segO_0 inp S out m : segO false inp S out 0 m = firstn m (xorb_list inp S) ++ skipn m out.
Proof. reflexivity. Qed.
Lemma segB_nth dec inp S i0 m : length S = 16%nat -> (m < 16)%nat -> (i0 + m < length inp)%nat ->
  nthZ m (segB dec inp S i0) = if dec then Z.lxor (nthZ (i0 + m) inp) (nthZ m S) else nthZ (i0 + m) inp.
Proof.
  intros LS Hm Hi. unfold segB, nthZ. destruct dec.
  - rewrite nth_xorb by (rewrite ?firstn_length, ?skipn_length; lia). rewrite nth_firstn, nth_skipn. now replace (m <? 16)%nat with true by (symmetry; now apply Nat.ltb_lt).
  - rewrite nth_firstn, nth_skipn. now replace (m <? 16)%nat with true by (symmetry; now apply Nat.ltb_lt).
Qed.
Lemma segB_length dec inp S i0 : length S = 16%nat -> length (segB dec inp S i0) = Nat.min 16 (length inp - i0).
Proof. intros LS. unfold segB. destruct dec; rewrite ?xorb_list_length, firstn_length, skipn_length; lia. Qed.
Lemma segment E ivlen dec inp Y Ctr S out i0 : length S = 16%nat -> length out = length inp -> forall m k, (m <= 15)%nat -> (i0 + m <= length inp)%nat ->
  ccm_loop E ivlen dec inp (k + m) (mk i0 0 (repeat 0 16) Y Ctr S out) =
  ccm_loop E ivlen dec inp k (mk (i0 + m) m (firstn m (segB dec inp S i0) ++ repeat 0 (16 - m)) Y Ctr S (segO dec inp S out i0 m)).
Proof.
  intros LS Lo. induction m as [|m IH]; intros k Hm Hi.
  - rewrite !Nat.add_0_r. cbn [firstn app Nat.sub]. unfold segO. cbn [firstn app]. rewrite Nat.add_0_r, firstn_skipn. destruct dec; reflexivity.
  - replace (k + Datatypes.S m)%nat with (Datatypes.S k + m)%nat by lia. rewrite IH by lia. cbn [ccm_loop]. unfold mk at 1. cbn [cs_i].
    replace (i0 + m <? length inp)%nat with true by (symmetry; apply Nat.ltb_lt; lia). f_equal. unfold ccm_step. cbn [mk cs_i cs_j cs_B cs_Y cs_Ctr cs_S cs_out]. cbv zeta.
    replace (16 <=? Datatypes.S m)%nat with false by (symmetry; apply Nat.leb_gt; lia). unfold mk.
    assert (LB := segB_length dec inp S i0 LS).
    f_equal; [lia| |].
    + assert (LF : length (firstn m (segB dec inp S i0)) = m) by (rewrite firstn_length; lia).
      pose proof (upd_pre (firstn m (segB dec inp S i0)) (if dec then Z.lxor (nthZ (i0 + m) inp) (nthZ m S) else nthZ (i0 + m) inp)) as U. rewrite LF in U. rewrite U by lia.
      f_equal. rewrite firstn_succ by lia. f_equal. f_equal. symmetry. apply segB_nth; auto; lia.
    + destruct dec; [reflexivity|]. rewrite segO_step by (auto; lia). f_equal. lia.
Qed.
Lemma segment16 E ivlen dec inp Y Ctr S out k : length S = 16%nat -> length out = length inp -> (16 <= length inp)%nat ->
  ccm_loop E ivlen dec inp (k + 16) (mk 0 0 (repeat 0 16) Y Ctr S out) =
  ccm_loop E ivlen dec inp k (mk 16 0 (repeat 0 16) (E (xorb_list (segB dec inp S 0) Y)) (ccm_inc ivlen (15 - ivlen) Ctr) (E (ccm_inc ivlen (15 - ivlen) Ctr)) (segO dec inp S out 0 16)).
Proof.
  intros LS Lo Li. replace (k + 16)%nat with (Datatypes.S k + 15)%nat by lia. rewrite (segment E ivlen dec inp Y Ctr S out 0) by (auto; lia).
  cbn [ccm_loop]. unfold mk at 1. cbn [cs_i]. replace (0 + 15 <? length inp)%nat with true by (symmetry; apply Nat.ltb_lt; lia). f_equal.
  unfold ccm_step. cbn [mk cs_i cs_j cs_B cs_Y cs_Ctr cs_S cs_out]. cbv zeta. change (16 <=? 16)%nat with true. cbv iota. unfold mk.
  assert (LB := segB_length dec inp S 0 LS).
  assert (EB : upd 15 (if dec then Z.lxor (nthZ (0 + 15) inp) (nthZ 15 S) else nthZ (0 + 15) inp) (firstn 15 (segB dec inp S 0) ++ repeat 0 (16 - 15)) = segB dec inp S 0).
  { assert (LF : length (firstn 15 (segB dec inp S 0)) = 15%nat) by (rewrite firstn_length; lia).
    pose proof (upd_pre (firstn 15 (segB dec inp S 0)) (if dec then Z.lxor (nthZ (0 + 15) inp) (nthZ 15 S) else nthZ (0 + 15) inp)) as U. rewrite LF in U. rewrite U by lia.
    cbn [Nat.sub repeat]. rewrite app_nil_r. rewrite <- (segB_nth dec inp S 0 15) by (auto; lia). rewrite <- firstn_succ by lia. apply firstn_all2. lia. }
  rewrite EB. f_equal. destruct dec; [reflexivity|]. exact (segO_step inp S out 0 15 LS ltac:(lia) ltac:(lia) Lo).
Qed.

(** The loop over an input of at most 31 octets: final state. *)
Definition ks (E : list Z -> list Z) (iv : list Z) (inp : list Z) : list Z := concat (map (fun i => E (ccm_ctr iv (i + 1))) (seq 0 ((length inp + 15) / 16))).
Lemma C_short E iv p : block_cipher E -> bytes_ok iv -> (7 <= length iv <= 13)%nat -> (length p < 16)%nat -> ccm_C E iv p = xorb_list p (E (ccm_ctr iv 1)).
Proof.
  intros BF B H L. destruct p as [|x p]; [reflexivity|]. unfold ccm_C. rewrite ceil16 by (cbn; lia). replace ((length (x :: p) - 16 + 15) / 16)%nat with 0%nat.
  - cbn [seq map concat Nat.add]. now rewrite app_nil_r.
  - replace (length (x :: p) - 16)%nat with 0%nat by lia. reflexivity.
Qed.
Lemma C_mid E iv p : block_cipher E -> bytes_ok iv -> (7 <= length iv <= 13)%nat -> (16 <= length p < 32)%nat ->
  ccm_C E iv p = xorb_list (firstn 16 p) (E (ccm_ctr iv 1)) ++ xorb_list (skipn 16 p) (E (ccm_ctr iv 2)).
Proof.
  intros BF B H L. unfold ccm_C. rewrite ceil16 by lia.
  assert (L1 : length (E (ccm_ctr iv 1)) = 16%nat) by (apply bf_len; auto using ctr_blk).
  destruct (Nat.eq_dec (length p) 16) as [L16|N16].
  - rewrite L16. change ((16 - 16 + 15) / 16)%nat with 0%nat. cbn [seq map concat Nat.add]. rewrite app_nil_r. rewrite skipn_all2, firstn_all2 by lia. cbn [xorb_list]. now rewrite app_nil_r.
  - assert (C2 : ((length p - 16 + 15) / 16 = 1)%nat) by (symmetry; apply (Nat.div_unique _ _ _ (length p - 17)); lia).
    rewrite C2. cbn [seq map concat Nat.add]. rewrite app_nil_r. now rewrite xorb_split by exact L1.
Qed.
Lemma C_length E iv p : block_cipher E -> bytes_ok iv -> (7 <= length iv <= 13)%nat -> (length p < 32)%nat -> length (ccm_C E iv p) = length p.
Proof.
  intros BF B H L. assert (L1 : forall i, length (E (ccm_ctr iv i)) = 16%nat) by (intros; apply bf_len; auto using ctr_blk).
  destruct (Nat.lt_ge_cases (length p) 16).
  - rewrite C_short by auto. rewrite xorb_list_length, L1. lia.
  - rewrite C_mid by auto. rewrite app_length, !xorb_list_length, !L1, firstn_length, skipn_length. lia.
Qed.
Lemma C_bytes E iv p : block_cipher E -> bytes_ok iv -> (7 <= length iv <= 13)%nat -> (length p < 32)%nat -> bytes_ok p -> bytes_ok (ccm_C E iv p).
Proof.
  intros BF B H L Bp. assert (B1 : forall i, bytes_ok (E (ccm_ctr iv i))) by (intros; apply bf_ok; auto using ctr_blk).
  destruct (Nat.lt_ge_cases (length p) 16).
  - rewrite C_short by auto. now apply xorb_list_ok.
  - rewrite C_mid by auto. apply Forall_app. split; apply xorb_list_ok; auto; [now apply Forall_firstn|now apply Forall_skipn].
Qed.
Lemma C_twice E iv p : block_cipher E -> bytes_ok iv -> (7 <= length iv <= 13)%nat -> (length p < 32)%nat -> ccm_C E iv (ccm_C E iv p) = p.
Proof.
  intros BF B H L. unfold ccm_C at 1. rewrite C_length by auto. unfold ccm_C. apply xorb_list_cancel.
  pose proof (C_length E iv p BF B H L) as G. unfold ccm_C in G. rewrite xorb_list_length in G. lia.
Qed.

Lemma loop_result E iv dec inp Y out k : block_cipher E -> bytes_ok iv -> (7 <= length iv <= 13)%nat -> (length inp < 32)%nat -> length out = length inp ->
  exists st, ccm_loop E (length iv) dec inp (k + length inp) (mk 0 0 (repeat 0 16) Y (ccm_ctr iv 1) (E (ccm_ctr iv 1)) out) = Some st /\
    ccm_flush E (cs_j st) (cs_B st) (cs_Y st) = cbc E (pad16 (if dec then ccm_C E iv inp else inp)) Y /\
    (cs_Ctr st = ccm_ctr iv 1 \/ cs_Ctr st = ccm_ctr iv 2) /\
    cs_out st = (if dec then out else ccm_C E iv inp).
Proof.
  intros BF B H L Lo. assert (L1 : forall i, length (E (ccm_ctr iv i)) = 16%nat) by (intros; apply bf_len; auto using ctr_blk).
  destruct (Nat.lt_ge_cases (length inp) 16) as [S|S].
  - rewrite (segment E (length iv) dec inp Y _ _ out 0 (L1 1%nat) Lo (length inp)) by lia.
    eexists. split; [destruct k; cbn [ccm_loop]; unfold mk; cbn [cs_i Nat.add]; rewrite Nat.ltb_irrefl; reflexivity|].
    unfold mk. cbn [cs_j cs_B cs_Y cs_Ctr cs_out]. split; [|split; [auto|]].
    + assert (LB := segB_length dec inp (E (ccm_ctr iv 1)) 0 (L1 1%nat)). rewrite firstn_all2 by lia.
      assert (EB : segB dec inp (E (ccm_ctr iv 1)) 0 = if dec then ccm_C E iv inp else inp).
      { unfold segB. cbn [skipn]. rewrite firstn_all2 by lia. destruct dec; [|reflexivity]. now rewrite C_short. }
      rewrite EB in *. set (P := if dec then ccm_C E iv inp else inp) in *. unfold ccm_flush, cbc. destruct (Nat.eqb_spec (length inp) 0) as [Z0|NZ].
      * destruct P; [reflexivity|cbn [length] in LB; lia].
      * rewrite pad16_blocks by (intros X; rewrite X in LB; cbn [length] in LB; lia). rewrite skipn_all2 by lia. rewrite pad16_nil, blocks_nil. cbn [fold_left].
        rewrite padblk_short by lia. rewrite LB. do 4 f_equal. lia.
    + destruct dec; [reflexivity|]. rewrite segO_0. rewrite (@skipn_all2 Z (length inp) out) by lia. rewrite app_nil_r.
      rewrite firstn_all2 by (rewrite xorb_list_length; lia). now rewrite C_short.
  - replace (k + length inp)%nat with ((k + (length inp - 16)) + 16)%nat by lia. rewrite segment16 by auto. rewrite ctr_inc_spec by auto.
    set (Y1 := E (xorb_list (segB dec inp (E (ccm_ctr iv 1)) 0) Y)). set (out1 := segO dec inp (E (ccm_ctr iv 1)) out 0 16).
    assert (Lo1 : length out1 = length inp).
    { apply segO_length; auto; lia. }
    rewrite (segment E (length iv) dec inp Y1 _ _ out1 16 (L1 2%nat) Lo1 (length inp - 16)) by lia.
    replace (16 + (length inp - 16))%nat with (length inp) by lia.
    eexists. split; [destruct k; cbn [ccm_loop]; unfold mk; cbn [cs_i]; rewrite Nat.ltb_irrefl; reflexivity|].
    unfold mk. cbn [cs_j cs_B cs_Y cs_Ctr cs_out]. split; [|split; [auto|]].
    + assert (LB := segB_length dec inp (E (ccm_ctr iv 1)) 0 (L1 1%nat)). assert (LB2 := segB_length dec inp (E (ccm_ctr iv 2)) 16 (L1 2%nat)).
      rewrite (@firstn_all2 Z (length inp - 16)) by lia.
      assert (EB : segB dec inp (E (ccm_ctr iv 1)) 0 ++ segB dec inp (E (ccm_ctr iv 2)) 16 = if dec then ccm_C E iv inp else inp).
      { unfold segB. change (skipn 0 inp) with inp. rewrite (@firstn_all2 Z 16 (skipn 16 inp)) by (rewrite skipn_length; lia). destruct dec; [now rewrite C_mid|apply firstn_skipn]. }
      rewrite <- EB. set (P1 := segB dec inp (E (ccm_ctr iv 1)) 0) in *. set (P2 := segB dec inp (E (ccm_ctr iv 2)) 16) in *.
      rewrite Nat.min_l in LB by lia.
      unfold cbc. rewrite (pad16_blocks (P1 ++ P2)) by (intros X; apply (f_equal (@length Z)) in X; rewrite app_length, LB in X; discriminate).
      rewrite skipn_app_exact by exact LB. cbn [fold_left]. rewrite padblk_long by (rewrite app_length; lia). rewrite firstn_app_exact by exact LB. fold Y1.
      unfold ccm_flush. destruct (Nat.eqb_spec (length inp - 16) 0) as [Z0|NZ].
      * destruct P2; [reflexivity|cbn [length] in LB2; lia].
      * rewrite pad16_blocks by (intros X; rewrite X in LB2; cbn [length] in LB2; lia). rewrite skipn_all2 by lia. rewrite pad16_nil, blocks_nil. cbn [fold_left].
        rewrite padblk_short by lia. rewrite LB2. do 4 f_equal. lia.
    + destruct dec; [reflexivity|]. unfold segO at 1. replace (16 + (length inp - 16))%nat with (length inp) by lia. rewrite (@skipn_all2 Z (length inp) out1) by lia.
      rewrite app_nil_r. rewrite (@firstn_all2 Z (length inp - 16)) by (rewrite xorb_list_length, skipn_length; lia). rewrite C_mid by auto. f_equal.
      unfold out1. rewrite segO_0. rewrite firstn_app_exact by (rewrite firstn_length, xorb_list_length, L1; lia).
      rewrite <- (firstn_skipn 16 inp) at 1. rewrite <- (app_nil_r (E (ccm_ctr iv 1))) at 1. rewrite xorb_list_app by (rewrite firstn_length, L1; lia).
      apply firstn_app_exact. rewrite xorb_list_length, firstn_length, L1. lia.
Qed.

(** Every input of 32 octets or more keeps the loop running. *)
Lemma loop_forever E ivlen dec inp : (32 <= length inp)%nat -> forall fuel st,
  ((cs_i st < 16 /\ cs_j st = cs_i st) \/ (16 <= cs_i st < 32 /\ cs_j st = cs_i st - 16))%nat -> ccm_loop E ivlen dec inp fuel st = None.
Proof.
  intros L. induction fuel as [|fuel IH]; intros st H; cbn [ccm_loop]; replace (cs_i st <? length inp)%nat with true by (symmetry; apply Nat.ltb_lt; lia); [reflexivity|].
  apply IH. unfold ccm_step. cbv zeta. destruct (Nat.leb_spec 16 (S (cs_j st))); cbn [cs_i cs_j]; lia.
Qed.

(* ---- the final counter loop of decryption ---- *)
Lemma ctr_segment E ivlen inp Ctr S out i0 : length S = 16%nat -> length out = length inp -> forall m k, (m <= 15)%nat -> (i0 + m <= length inp)%nat ->
  ccm_ctr_loop E ivlen inp (k + m) i0 0 Ctr S out = ccm_ctr_loop E ivlen inp k (i0 + m) m Ctr S (segO false inp S out i0 m).
Proof.
  intros LS Lo. induction m as [|m IH]; intros k Hm Hi.
  - rewrite !Nat.add_0_r. unfold segO. cbn [firstn app]. rewrite Nat.add_0_r, firstn_skipn. reflexivity.
  - replace (k + Datatypes.S m)%nat with (Datatypes.S k + m)%nat by lia. rewrite IH by lia. cbn [ccm_ctr_loop].
    replace (i0 + m <? length inp)%nat with true by (symmetry; apply Nat.ltb_lt; lia).
    replace (16 <=? Datatypes.S m)%nat with false by (symmetry; apply Nat.leb_gt; lia).
    rewrite segO_step by (auto; lia). rewrite Nat.add_1_r, <- plus_n_Sm. reflexivity.
Qed.
Lemma ctr_loop_result E iv inp out k : block_cipher E -> bytes_ok iv -> (7 <= length iv <= 13)%nat -> (length inp < 32)%nat -> length out = length inp ->
  ccm_ctr_loop E (length iv) inp (k + length inp) 0 0 (ccm_ctr iv 1) (E (ccm_ctr iv 1)) out = Some (ccm_C E iv inp).
Proof.
  intros BF B H L Lo. assert (L1 : forall i, length (E (ccm_ctr iv i)) = 16%nat) by (intros; apply bf_len; auto using ctr_blk).
  destruct (Nat.lt_ge_cases (length inp) 16) as [S|S].
  - rewrite (ctr_segment E (length iv) inp _ _ out 0 (L1 1%nat) Lo (length inp)) by lia. cbn [Nat.add].
    assert (EO : segO false inp (E (ccm_ctr iv 1)) out 0 (length inp) = ccm_C E iv inp).
    { rewrite segO_0. rewrite (@skipn_all2 Z (length inp) out) by lia. rewrite app_nil_r.
      rewrite firstn_all2 by (rewrite xorb_list_length; lia). now rewrite C_short. }
    rewrite EO. destruct k; cbn [ccm_ctr_loop]; rewrite Nat.ltb_irrefl; reflexivity.
  - replace (k + length inp)%nat with ((Datatypes.S (k + (length inp - 16))) + 15)%nat by lia. rewrite (ctr_segment E (length iv) inp _ _ out 0 (L1 1%nat) Lo 15) by lia.
    cbn [ccm_ctr_loop]. replace (0 + 15 <? length inp)%nat with true by (symmetry; apply Nat.ltb_lt; lia). change (16 <=? 16)%nat with true. cbv iota.
    rewrite (segO_step inp _ out 0 15) by (auto; lia). change (Datatypes.S (0 + 15)) with 16%nat. change (15 + 1)%nat with 16%nat. rewrite ctr_inc_spec by auto.
    set (out1 := segO false inp (E (ccm_ctr iv 1)) out 0 16).
    assert (Lo1 : length out1 = length inp).
    { apply segO_length; auto; lia. }
    rewrite (ctr_segment E (length iv) inp _ _ out1 16 (L1 2%nat) Lo1 (length inp - 16)) by lia.
    replace (16 + (length inp - 16))%nat with (length inp) by lia.
    assert (EO : segO false inp (E (ccm_ctr iv 2)) out1 16 (length inp - 16) = ccm_C E iv inp).
    { unfold segO at 1. replace (16 + (length inp - 16))%nat with (length inp) by lia. rewrite (@skipn_all2 Z (length inp) out1) by lia.
      rewrite app_nil_r. rewrite (@firstn_all2 Z (length inp - 16)) by (rewrite xorb_list_length, skipn_length; lia). rewrite C_mid by auto. f_equal.
      unfold out1. rewrite segO_0. rewrite firstn_app_exact by (rewrite firstn_length, xorb_list_length, L1; lia).
      rewrite <- (firstn_skipn 16 inp) at 1. rewrite <- (app_nil_r (E (ccm_ctr iv 1))) at 1. rewrite xorb_list_app by (rewrite firstn_length, L1; lia).
      apply firstn_app_exact. rewrite xorb_list_length, firstn_length, L1. lia. }
    rewrite EO. destruct k; cbn [ccm_ctr_loop]; rewrite Nat.ltb_irrefl; reflexivity.
Qed.

(* ---- parameters ---- *)
Lemma params_accepted t iv n : ccm_params t iv n -> ccm_refuse (length iv) t n = false.
Proof.
  intros (H & Ht & Hn). unfold ccm_refuse. replace (length iv <? 7)%nat with false by (symmetry; apply Nat.ltb_ge; lia). replace (13 <? length iv)%nat with false by (symmetry; apply Nat.ltb_ge; lia).
  cbn [orb]. assert (E : ((t <? 4)%nat || (16 <? t)%nat || (t mod 2 =? 1)%nat) = false) by (destruct Ht as [->|[->|[->|[->|[->|[->| ->]]]]]]; reflexivity).
  rewrite E. cbn [orb]. replace (2 ^ (Z.of_nat (15 - length iv) * 8) <=? Z.of_nat n) with false; [apply andb_false_r|].
  symmetry. apply Z.leb_gt. now rewrite Z.mul_comm.
Qed.
Lemma params_refused t iv n : Z.of_nat n < 2 ^ 64 -> ~ ccm_params t iv n -> ccm_refuse (length iv) t n = true.
Proof.
  intros Hn NP. destruct (ccm_refuse (length iv) t n) eqn:R; [reflexivity|exfalso]. apply NP. unfold ccm_refuse in R.
  rewrite !orb_false_iff, !Nat.ltb_ge, Nat.eqb_neq, andb_false_iff, Z.ltb_ge, Z.leb_gt in R. destruct R as [[[[[A B] C] D] E] F].
  split; [lia|]. split.
  - assert (t = 4 \/ t = 5 \/ t = 6 \/ t = 7 \/ t = 8 \/ t = 9 \/ t = 10 \/ t = 11 \/ t = 12 \/ t = 13 \/ t = 14 \/ t = 15 \/ t = 16)%nat as X by lia.
    repeat (destruct X as [->|X]; [try tauto; exfalso; apply E; reflexivity|]). subst. tauto.
  - rewrite Z.mul_comm in F. destruct F as [F|F]; [|exact F]. assert (length iv = 7%nat) by lia. rewrite H. exact Hn.
Qed.

(* ---- whole operations ---- *)
Lemma tag_map Y S t : length Y = 16%nat -> length S = 16%nat -> (t <= 16)%nat -> map (fun j => Z.lxor (nthZ j Y) (nthZ j S)) (seq 0 t) = firstn t (xorb_list Y S).
Proof.
  intros LY LS Ht. apply list_ext; [rewrite map_length, seq_length, firstn_length, xorb_list_length; lia|]. intros i Hi. rewrite map_length, seq_length in Hi.
  rewrite nthZ_map_seq by auto. unfold nthZ. rewrite nth_firstn. replace (i <? t)%nat with true by (symmetry; now apply Nat.ltb_lt). now rewrite nth_xorb by lia.
Qed.
Lemma tcmp_spec T Y S : bytes_ok T -> bytes_ok Y -> bytes_ok S -> forall l t, 0 <= t < 2 ^ 8 ->
  let r := fold_left (fun t j => Z.lor t (Z.lxor (Z.lxor (nthZ j T) (nthZ j Y)) (nthZ j S))) l t in
  0 <= r < 2 ^ 8 /\ (r = 0 <-> t = 0 /\ forall j, In j l -> nthZ j T = Z.lxor (nthZ j Y) (nthZ j S)).
Proof.
  intros BT BY BS. induction l as [|j l IH]; intros t Ht; cbn [fold_left].
  - split; [exact Ht|]. split; [intros ->; split; auto; intros j []|tauto].
  - assert (N : 0 <= Z.lxor (Z.lxor (nthZ j T) (nthZ j Y)) (nthZ j S) < 2 ^ 8) by (apply lxor_bound; [lia|apply lxor_bound; [lia|now apply nthZ_bytes|now apply nthZ_bytes]|now apply nthZ_bytes]).
    destruct (IH (Z.lor t (Z.lxor (Z.lxor (nthZ j T) (nthZ j Y)) (nthZ j S)))) as [A B].
    { split; [apply Z.lor_nonneg; lia|]. destruct (Z.eq_dec (Z.lor t (Z.lxor (Z.lxor (nthZ j T) (nthZ j Y)) (nthZ j S))) 0) as [->|NZ]; [lia|].
      apply Z.log2_lt_pow2; [assert (0 <= Z.lor t (Z.lxor (Z.lxor (nthZ j T) (nthZ j Y)) (nthZ j S))) by (apply Z.lor_nonneg; lia); lia|]. rewrite Z.log2_lor by lia.
      apply Z.max_lub_lt; [destruct (Z.eq_dec t 0) as [->|]; [cbn; lia|apply Z.log2_lt_pow2; lia]|].
      set (v := Z.lxor _ _) in *. destruct (Z.eq_dec v 0) as [->|]; [cbn; lia|apply Z.log2_lt_pow2; lia]. }
    split; [exact A|]. rewrite B. rewrite Z.lor_eq_0_iff, Z.lxor_assoc, Z.lxor_eq_0_iff. split.
    + intros [[H1 H2] H3]. split; auto. intros m [<-|Hm]; auto.
    + intros [H1 H2]. repeat split; auto; [apply H2; now left|]. intros m Hm. apply H2. now right.
Qed.
Lemma encrypt_ccm E iv aad p out t fuel : block_cipher E -> bytes_ok iv -> bytes_ok aad -> bytes_ok p -> length out = length p -> ccm_params t iv (length p) -> (length p < 32)%nat -> (length p <= fuel)%nat ->
  CCM_Encrypt E iv aad p out t fuel = Some (Some (ccm_C E iv p, ccm_T E t iv aad p)).
Proof.
  intros BF B BA BP Lo HP L Hf. unfold CCM_Encrypt. rewrite params_accepted by auto. destruct HP as (H & Ht & Hn). cbv zeta.
  rewrite ctr_init_spec by auto. replace fuel with ((fuel - length p) + length p)%nat by lia.
  destruct (loop_result E iv false p (ccm_start E iv aad (length p) t) out (fuel - length p) BF B H L Lo) as (st & E1 & E2 & E3 & E4).
  unfold mk in E1. rewrite E1. cbv beta iota. rewrite E2, E4.
  assert (EC : ccm_ctr_zero (length iv) 16 (cs_Ctr st) = ccm_ctr iv 0) by (destruct E3 as [-> | ->]; apply ctr_zero_spec; auto).
  rewrite EC, <- mac_split by auto. unfold ccm_T. do 3 f_equal.
  assert (BY : blk16 (cbc_mac E (ccm_B t iv aad p))).
  { apply (cbc_blk E); [exact BF| |split; [apply repeat0_bytes|reflexivity]]. unfold ccm_B. apply Forall_app. split; [now apply b0_blk|].
    apply Forall_app. split; [apply pad16_bytes, Forall_app; split; [apply alen_bytes|exact BA]|now apply pad16_bytes]. }
  apply tag_map; [apply BY|apply bf_len; auto using ctr_blk|lia].
Qed.
Lemma decrypt_ccm E iv aad c out T fuel : block_cipher E -> bytes_ok iv -> bytes_ok aad -> bytes_ok c -> bytes_ok T -> length out = length c -> ccm_params (length T) iv (length c) -> (length c < 32)%nat -> (length c <= fuel)%nat ->
  (T = ccm_T E (length T) iv aad (ccm_C E iv c) -> CCM_Decrypt E iv aad c out T fuel = Some (Some (ccm_C E iv c))) /\
  (T <> ccm_T E (length T) iv aad (ccm_C E iv c) -> CCM_Decrypt E iv aad c out T fuel = Some None).
Proof.
  intros BF B BA BC BT Lo HP L Hf. unfold CCM_Decrypt. rewrite params_accepted by auto. destruct HP as (H & Ht & Hn). cbv zeta.
  rewrite ctr_init_spec by auto. replace fuel with ((fuel - length c) + length c)%nat by lia.
  destruct (loop_result E iv true c (ccm_start E iv aad (length c) (length T)) out (fuel - length c) BF B H L Lo) as (st & E1 & E2 & E3 & E4).
  unfold mk in E1. rewrite E1. cbv beta iota. rewrite E2.
  assert (EC : ccm_ctr_zero (length iv) 16 (cs_Ctr st) = ccm_ctr iv 0) by (destruct E3 as [-> | ->]; apply ctr_zero_spec; auto).
  rewrite EC. rewrite ctr_one_spec by auto. rewrite ctr_loop_result by auto.
  assert (LC := C_length E iv c BF B H L). assert (BP := C_bytes E iv c BF B H L BC). rewrite <- LC. rewrite <- (mac_split E (length T) iv aad (ccm_C E iv c)) by auto.
  set (P := ccm_C E iv c) in *. unfold ccm_T.
  assert (BY : blk16 (cbc_mac E (ccm_B (length T) iv aad P))).
  { apply (cbc_blk E); [exact BF| |split; [apply repeat0_bytes|reflexivity]]. unfold ccm_B. apply Forall_app. split; [now apply b0_blk|].
    apply Forall_app. split; [apply pad16_bytes, Forall_app; split; [apply alen_bytes|exact BA]|now apply pad16_bytes]. }
  assert (BS : blk16 (E (ccm_ctr iv 0))) by (apply bf_blk; auto using ctr_blk).
  set (Y := cbc_mac _ _) in *. set (S := E (ccm_ctr iv 0)) in *. destruct BY as [BY LY]. destruct BS as [BS LS].
  destruct (tcmp_spec T Y S BT BY BS (seq 0 (length T)) 0 ltac:(lia)) as [R1 R2]. set (r := fold_left _ _ 0) in *.
  assert (EQ : r = 0 <-> T = firstn (length T) (xorb_list Y S)).
  { rewrite <- tag_map by (auto; lia). rewrite R2. split.
    - intros [_ A]. apply list_ext; [now rewrite map_length, seq_length|]. intros i Hi. rewrite nthZ_map_seq by auto. apply A. apply in_seq. lia.
    - intros A. split; auto. intros j Hj. apply in_seq in Hj. rewrite A at 1. rewrite nthZ_map_seq by lia. reflexivity. }
  assert (SH : (Z.shiftr (r - 1) 15 =? 0) = negb (r =? 0)).
  { rewrite Z.shiftr_div_pow2 by lia. destruct (Z.eqb_spec r 0) as [->|N]; [reflexivity|]. rewrite Z.div_small by lia. reflexivity. }
  rewrite SH. destruct (Z.eqb_spec r 0) as [R|R]; cbn [negb]; split; intros HT; auto.
  - exfalso. apply HT, EQ, R.
  - exfalso. apply R, EQ, HT.
Qed.
