(** GCM: the loops of gcm.c against SP 800-38D. *)
From Verif Require Import Base HashSpec Blocks HashLemmas MdLemmas CmacLemmas PropHash GcmSpec Gcm GaloisLemmas.

Definition padblk (d : list Z) : list Z := firstn 16 (d ++ repeat 0 16).
Lemma padblk_length d : length (padblk d) = 16%nat.
Proof. unfold padblk. rewrite firstn_length, app_length, repeat_length. lia. Qed.
Lemma padblk_bytes d : bytes_ok d -> bytes_ok (padblk d).
Proof. intros H. unfold padblk. apply Forall_firstn. apply Forall_app. split; auto. apply repeat0_bytes. Qed.
Lemma padblk_long d : (16 <= length d)%nat -> padblk d = firstn 16 d.
Proof. intros H. unfold padblk. rewrite firstn_app. replace (16 - length d)%nat with 0%nat by lia. apply app_nil_r. Qed.
Lemma firstn_repeat {A} (x : A) n m : firstn n (repeat x m) = repeat x (Nat.min n m).
Proof. revert m. induction n as [|n IH]; intros [|m]; cbn; auto. f_equal. apply IH. Qed.
Lemma padblk_short d : (length d <= 16)%nat -> padblk d = d ++ repeat 0 (16 - length d).
Proof. intros H. unfold padblk. rewrite firstn_app, firstn_all2 by lia. rewrite firstn_repeat. do 2 f_equal. lia. Qed.
Lemma pad16_nil : pad16 [] = []. Proof. reflexivity. Qed.
Lemma pad16_step d : d <> [] -> pad16 d = padblk d ++ pad16 (skipn 16 d).
Proof.
  intros N. destruct (Nat.le_gt_cases 16 (length d)) as [L|L].
  - rewrite padblk_long by auto. unfold pad16. rewrite app_assoc, firstn_skipn. do 2 f_equal. rewrite skipn_length.
    rewrite <- (Nat.mod_add (length d - 16) 1 16) by lia. do 3 f_equal. lia.
  - rewrite padblk_short by lia. rewrite skipn_all2 by lia. rewrite pad16_nil, app_nil_r. unfold pad16.
    rewrite (Nat.mod_small (length d)) by lia. rewrite Nat.mod_small; [reflexivity|]. destruct d; [congruence|cbn [length]; lia].
Qed.
Lemma pad16_mod d : (length (pad16 d) mod 16 = 0)%nat.
Proof.
  unfold pad16. rewrite app_length, repeat_length. rewrite (Nat.div_mod (length d) 16) at 1 by lia. set (r := (length d mod 16)%nat).
  assert (r < 16)%nat by (apply Nat.mod_upper_bound; lia).
  destruct (Nat.eq_dec r 0) as [->|Hr].
  - replace ((16 - 0) mod 16)%nat with 0%nat by reflexivity. rewrite !Nat.add_0_r, Nat.mul_comm. apply Nat.mod_mul. lia.
  - rewrite (Nat.mod_small (16 - r)) by lia. replace (16 * (length d / 16) + r + (16 - r))%nat with ((length d / 16 + 1) * 16)%nat by lia. apply Nat.mod_mul. lia.
Qed.
Lemma pad16_bytes d : bytes_ok d -> bytes_ok (pad16 d).
Proof. intros H. unfold pad16. apply Forall_app. split; auto. apply repeat0_bytes. Qed.
Lemma pad16_blocks d : d <> [] -> blocks 16 (pad16 d) = padblk d :: blocks 16 (pad16 (skipn 16 d)).
Proof.
  intros N. rewrite pad16_step by auto. rewrite blocks_app; [|lia|rewrite padblk_length; reflexivity].
  rewrite blocks_one by (try apply padblk_length; lia). reflexivity.
Qed.
Lemma padblk_map d j f : (forall i, (i < 16)%nat -> f i = if (i + j <? length d)%nat then nthZ (i + j) d else 0) -> map f (seq 0 16) = padblk (skipn j d).
Proof.
  intros Hf. apply list_ext; [rewrite map_length, seq_length, padblk_length; reflexivity|].
  intros i Hi. rewrite map_length, seq_length in Hi. rewrite nthZ_map_seq, Hf by auto. unfold padblk, nthZ. rewrite nth_firstn.
  replace (i <? 16)%nat with true by (symmetry; now apply Nat.ltb_lt). destruct (Nat.ltb_spec (i + j) (length d)).
  - rewrite app_nth1 by (rewrite skipn_length; lia). rewrite nth_skipn. f_equal. lia.
  - rewrite app_nth2 by (rewrite skipn_length; lia). now rewrite nth_repeat.
Qed.
Lemma gcm_block_spec d j : gcm_block d j = padblk (skipn j d).
Proof. unfold gcm_block. now apply padblk_map. Qed.
Lemma skipn_nonnil {A} j (d : list A) : (j < length d)%nat -> skipn j d <> [].
Proof. intros H E. apply (f_equal (@length A)) in E. rewrite skipn_length in E. cbn in E. lia. Qed.

Definition hfold (H : list Z) (X S : list Z) : list Z := fold_left (fun Y B => galois128_hash1block Y H B) (blocks 16 X) S.
Lemma hfold_app H X Y S : (length X mod 16 = 0)%nat -> hfold H (X ++ Y) S = hfold H Y (hfold H X S).
Proof. intros E. unfold hfold. rewrite blocks_app by (auto; lia). apply fold_left_app. Qed.
Lemma absorb_spec H d : forall fuel S j, (length d - j <= fuel)%nat ->
  gcm_absorb fuel H S d j = hfold H (pad16 (skipn j d)) S.
Proof.
  induction fuel as [|fuel IH]; intros S j Hf; cbn [gcm_absorb].
  - rewrite skipn_all2 by lia. reflexivity.
  - destruct (Nat.ltb_spec j (length d)).
    + rewrite IH by lia. unfold hfold. rewrite (pad16_blocks (skipn j d)) by now apply skipn_nonnil.
      cbn [fold_left]. rewrite gcm_block_spec, skipn_skipn'. reflexivity.
    + rewrite skipn_all2 by lia. reflexivity.
Qed.

Lemma gf_mul_shape a b : bytes_ok (gf_mul a b) /\ length (gf_mul a b) = 16%nat.
Proof. unfold gf_mul, of_gf. split; [apply be_bytes_ok|apply be_bytes_length]. Qed.
Lemma hfold_spec H bl : bytes_ok H -> length H = 16%nat -> Forall (fun b => length b = 16%nat /\ bytes_ok b) bl -> forall S, bytes_ok S -> length S = 16%nat ->
  fold_left (fun Y B => galois128_hash1block Y H B) bl S = fold_left (fun Y B => gf_mul (xorb_list Y B) H) bl S.
Proof.
  intros BH LH F. induction F as [|b bl [L B] F IH]; intros S BS LS; [reflexivity|]. cbn [fold_left].
  rewrite hash1block_spec by auto. apply IH; apply gf_mul_shape.
Qed.
Lemma hfold_ghash H X : bytes_ok H -> length H = 16%nat -> bytes_ok X -> hfold H X (repeat 0 16) = ghash H X.
Proof.
  intros BH LH BX. unfold hfold, ghash. apply hfold_spec; auto; [|apply repeat0_bytes]. apply blocks_bytes; auto. lia.
Qed.

(* ---- GCTR ---- *)
Definition blk16 (b : list Z) : Prop := bytes_ok b /\ length b = 16%nat.
(** What a block cipher under a fixed key is to the modes: it maps 16 octets to 16 octets. *)
Definition block_cipher (E : list Z -> list Z) : Prop := forall b, blk16 b -> blk16 (E b).
Lemma bf_blk E b : block_cipher E -> blk16 b -> blk16 (E b).
Proof. intros F B. now apply F. Qed.
Lemma bf_len E b : block_cipher E -> blk16 b -> length (E b) = 16%nat.
Proof. intros F B. now apply bf_blk. Qed.
Lemma bf_ok E b : block_cipher E -> blk16 b -> bytes_ok (E b).
Proof. intros F B. now apply bf_blk. Qed.
Lemma nth_xorb a b i : (i < length a)%nat -> (i < length b)%nat -> nth i (xorb_list a b) 0 = Z.lxor (nth i a 0) (nth i b 0).
Proof. revert b i. induction a as [|x a IH]; intros [|y b] [|i] A B; cbn in *; try lia; auto. apply IH; lia. Qed.
Lemma inc32_shape b : blk16 b -> blk16 (inc32 b).
Proof.
  intros [B L]. unfold inc32. split; [apply Forall_app; split; [now apply Forall_firstn|apply be_bytes_ok]|].
  rewrite app_length, firstn_length, be_bytes_length. lia.
Qed.
Lemma gcm_inc_spec b : gcm_inc b = inc32 b.
Proof.
  unfold gcm_inc, inc32. f_equal. unfold be_bytes. f_equal. unfold u32. change 32 with (8 * Z.of_nat 4).
  rewrite <- (val_to_le 8 4) by lia. rewrite <- (to_le_length 8 4 (be_val (skipn 12 b) + 1)) at 1. apply to_le_val; [lia|]. apply to_le_digits. lia.
Qed.
Lemma ceil16 n : (0 < n)%nat -> ((n + 15) / 16 = S ((n - 16 + 15) / 16))%nat.
Proof.
  intros Hn. destruct (Nat.le_gt_cases 16 n).
  - replace (n + 15)%nat with (n - 16 + 15 + 1 * 16)%nat by lia. rewrite Nat.div_add by lia. lia.
  - replace (n - 16 + 15)%nat with 15%nat by lia. replace (n + 15)%nat with (n - 1 + 1 * 16)%nat by lia. rewrite Nat.div_add, (Nat.div_small (n - 1)) by lia. reflexivity.
Qed.
Lemma iter_shift {A} (f : A -> A) n x : Nat.iter n f (f x) = Nat.iter (S n) f x.
Proof. induction n as [|n IH]; [reflexivity|]. change (f (Nat.iter n f (f x)) = f (Nat.iter (S n) f x)). now rewrite IH. Qed.
Lemma xorb_split a b c : length b = 16%nat -> xorb_list a (b ++ c) = xorb_list (firstn 16 a) b ++ xorb_list (skipn 16 a) c.
Proof.
  intros L. destruct (Nat.le_gt_cases 16 (length a)).
  - rewrite <- (firstn_skipn 16 a) at 1. apply xorb_list_app. rewrite firstn_length. lia.
  - rewrite firstn_all2 by lia. rewrite skipn_all2 by lia. cbn [xorb_list]. rewrite app_nil_r.
    rewrite <- xorb_list_firstn_r. rewrite firstn_app. replace (length a - length b)%nat with 0%nat by lia. rewrite firstn_O, app_nil_r. apply xorb_list_firstn_r.
Qed.
Lemma gctr_step E icb X : block_cipher E -> blk16 icb -> X <> [] ->
  gctr E icb X = xorb_list (firstn 16 X) (E icb) ++ gctr E (inc32 icb) (skipn 16 X).
Proof.
  intros BF B N. unfold gctr. assert (0 < length X)%nat by (destruct X; [congruence|cbn [length]; lia]).
  rewrite ceil16 by auto. cbn [seq map concat]. rewrite <- seq_shift, map_map. rewrite xorb_split by (apply bf_len; auto).
  f_equal. rewrite skipn_length. f_equal. f_equal. apply map_ext. intros i. now rewrite iter_shift.
Qed.
Lemma gctr_nil E icb : gctr E icb [] = []. Proof. reflexivity. Qed.
Lemma gctr_length E icb X : block_cipher E -> blk16 icb -> length (gctr E icb X) = length X.
Proof.
  intros BF. remember (length X) as n eqn:Hn. revert X icb Hn. induction n as [n IH] using lt_wf_ind. intros X icb Hn B.
  destruct X as [|x X]; [subst; reflexivity|]. rewrite gctr_step by (auto; congruence). rewrite app_length, xorb_list_length.
  rewrite (IH (length (skipn 16 (x :: X)))) by (rewrite ?skipn_length; auto using inc32_shape; cbn [length] in *; lia).
  pose proof (bf_len E icb BF B) as L. rewrite L, firstn_length, skipn_length. lia.
Qed.
Lemma gctr_bytes E icb X : block_cipher E -> blk16 icb -> bytes_ok X -> bytes_ok (gctr E icb X).
Proof.
  intros BF. remember (length X) as n eqn:Hn. revert X icb Hn. induction n as [n IH] using lt_wf_ind. intros X icb Hn B BX.
  destruct X as [|x X]; [constructor|]. rewrite gctr_step by (auto; congruence). apply Forall_app. split.
  - apply xorb_list_ok; [now apply Forall_firstn|]. apply bf_ok; auto.
  - apply (IH (length (skipn 16 (x :: X)))); auto using inc32_shape; [rewrite skipn_length; cbn [length] in *; lia|]. now apply Forall_skipn.
Qed.
Lemma gctr_twice E icb X : block_cipher E -> blk16 icb -> gctr E icb (gctr E icb X) = X.
Proof.
  intros BF B. unfold gctr at 1. rewrite gctr_length by auto. unfold gctr. apply xorb_list_cancel.
  pose proof (gctr_length E icb X BF B) as G. unfold gctr in G. rewrite xorb_list_length in G. lia.
Qed.

Lemma enc_loop_spec E H p : block_cipher E -> forall fuel CB S out j, (length p - j <= fuel)%nat -> blk16 CB ->
  gcm_enc_loop fuel {| gcm_enc := E; gcm_H := H |} CB S p out j =
  (hfold H (pad16 (gctr E (inc32 CB) (skipn j p))) S, out ++ gctr E (inc32 CB) (skipn j p)).
Proof.
  intros BF. induction fuel as [|fuel IH]; intros CB S out j Hf B; cbn [gcm_enc_loop gcm_enc gcm_H].
  - rewrite skipn_all2 by lia. rewrite gctr_nil, app_nil_r. reflexivity.
  - destruct (Nat.ltb_spec j (length p)) as [L|L].
    2:{ rewrite skipn_all2 by lia. rewrite gctr_nil, app_nil_r. reflexivity. }
    cbv zeta. rewrite gcm_inc_spec. rewrite IH by (auto using inc32_shape; lia).
    set (q := skipn j p). assert (Nq : q <> []) by now apply skipn_nonnil.
    assert (Lq : length q = (length p - j)%nat) by apply skipn_length.
    set (K := E (inc32 CB)). assert (LK : length K = 16%nat) by (apply bf_len; auto using inc32_shape).
    rewrite (gctr_step E (inc32 CB) q) by auto using inc32_shape. fold K.
    rewrite <- (skipn_skipn' 16 j p). fold q.
    set (R := gctr E (inc32 (inc32 CB)) (skipn 16 q)). set (C1 := xorb_list (firstn 16 q) K).
    assert (LC : length C1 = Nat.min 16 (length q)) by (unfold C1; rewrite xorb_list_length, firstn_length; lia).
    assert (LR : length R = (length q - 16)%nat) by (unfold R; rewrite gctr_length, skipn_length; auto using inc32_shape).
    set (X := map _ _).
    assert (EX : X = padblk (C1 ++ R)).
    { unfold X. change (C1 ++ R) with (skipn 0 (C1 ++ R)). apply padblk_map. intros i Hi. rewrite Nat.add_0_r, app_length, LC, LR.
      destruct (Nat.ltb_spec (i + j) (length p)); destruct (Nat.ltb_spec i (Nat.min 16 (length q) + (length q - 16))); try lia.
      unfold nthZ. rewrite app_nth1 by lia. unfold C1. rewrite nth_xorb; [|rewrite firstn_length; lia|lia].
      rewrite nth_firstn. replace (i <? 16)%nat with true by (symmetry; now apply Nat.ltb_lt). unfold q. rewrite nth_skipn. do 2 f_equal. lia. }
    rewrite EX. f_equal.
    + unfold hfold. rewrite (pad16_blocks (C1 ++ R)); [cbn [fold_left]|].
      * do 3 f_equal. destruct (Nat.le_gt_cases 16 (length q)).
        -- rewrite skipn_app_exact by lia. reflexivity.
        -- rewrite skipn_all2 by (rewrite app_length; lia). destruct R; [reflexivity|cbn [length] in LR; lia].
      * intros Z0. apply (f_equal (@length Z)) in Z0. rewrite app_length, LC in Z0. destruct q; [congruence|cbn [length] in *; lia].
    + rewrite <- app_assoc. f_equal. f_equal. rewrite <- Lq. destruct (Nat.le_gt_cases 16 (length q)).
      * rewrite firstn_all2 by (rewrite padblk_length; lia). rewrite padblk_long by (rewrite app_length; lia). now rewrite firstn_app_exact by lia.
      * destruct R; [|cbn [length] in LR; lia]. rewrite app_nil_r. rewrite padblk_short by lia. rewrite firstn_app_exact by lia. reflexivity.
Qed.

Lemma dec_loop_spec E H p : block_cipher E -> forall fuel CB out j, (length p - j <= fuel)%nat -> blk16 CB ->
  gcm_dec_loop fuel {| gcm_enc := E; gcm_H := H |} CB p out j = out ++ gctr E (inc32 CB) (skipn j p).
Proof.
  intros BF. induction fuel as [|fuel IH]; intros CB out j Hf B; cbn [gcm_dec_loop gcm_enc gcm_H].
  - rewrite skipn_all2 by lia. rewrite gctr_nil, app_nil_r. reflexivity.
  - destruct (Nat.ltb_spec j (length p)) as [L|L].
    2:{ rewrite skipn_all2 by lia. rewrite gctr_nil, app_nil_r. reflexivity. }
    cbv zeta. rewrite gcm_inc_spec. rewrite IH by (auto using inc32_shape; lia).
    rewrite <- app_assoc. f_equal. rewrite (gctr_step E (inc32 CB) (skipn j p)) by (auto using inc32_shape; now apply skipn_nonnil).
    rewrite skipn_skipn'. f_equal.
    assert (LK : length (E (inc32 CB)) = 16%nat) by (apply bf_len; auto using inc32_shape).
    apply list_ext; [rewrite map_length, seq_length, xorb_list_length, firstn_length, skipn_length; lia|].
    intros i Hi. rewrite map_length, seq_length in Hi. rewrite nthZ_map_seq by auto. unfold nthZ. rewrite nth_xorb by (rewrite ?firstn_length, ?skipn_length; lia).
    rewrite nth_firstn. replace (i <? 16)%nat with true by (symmetry; apply Nat.ltb_lt; lia). rewrite nth_skipn. do 2 f_equal. lia.
Qed.

Lemma or_cmp_spec T X : bytes_ok T -> bytes_ok X -> forall k i b, 0 <= b -> ((i + k) <= length T)%nat ->
  (or_cmp T X i k b = 0 <-> b = 0 /\ forall m, (i <= m < i + k)%nat -> nthZ m T = if (m <? 16)%nat then nthZ m X else 0).
Proof.
  intros BT BX. induction k as [|k IH]; intros i b Hb Hk; cbn [or_cmp].
  - split; [intros ->; split; auto; lia|tauto].
  - assert (N : 0 <= Z.lxor (nthZ i T) (if (i <? 16)%nat then nthZ i X else 0) < 2 ^ 8).
    { apply lxor_bound; [lia|now apply nthZ_bytes|]. destruct (i <? 16)%nat; [now apply nthZ_bytes|lia]. }
    rewrite IH by (try lia; apply Z.lor_nonneg; lia). rewrite Z.lor_eq_0_iff, Z.lxor_eq_0_iff. split.
    + intros [[H1 H2] H3]. split; auto. intros m Hm. destruct (Nat.eq_dec m i) as [->|]; auto. apply H3. lia.
    + intros [H1 H2]. repeat split; auto; [apply H2; lia|]. intros m Hm. apply H2. lia.
Qed.
Lemma tag_octets_spec X t : length X = 16%nat -> gcm_tag_octets X t = octets t X.
Proof.
  intros L. unfold gcm_tag_octets, octets. apply list_ext.
  - rewrite map_length, seq_length, firstn_length, app_length, repeat_length. lia.
  - intros i Hi. rewrite map_length, seq_length in Hi. rewrite nthZ_map_seq by auto. unfold nthZ. rewrite nth_firstn.
    replace (i <? t)%nat with true by (symmetry; now apply Nat.ltb_lt). destruct (Nat.ltb_spec i 16).
    + now rewrite app_nth1 by lia.
    + rewrite app_nth2 by lia. now rewrite nth_repeat.
Qed.
Lemma or_cmp_octets T X : bytes_ok T -> blk16 X -> (or_cmp T X 0 (length T) 0 =? 0) = true <-> T = octets (length T) X.
Proof.
  intros BT [BX LX]. rewrite Z.eqb_eq, or_cmp_spec by (auto; lia). rewrite <- tag_octets_spec by auto. unfold gcm_tag_octets. split.
  - intros [_ H]. apply list_ext; [now rewrite map_length, seq_length|]. intros i Hi. rewrite nthZ_map_seq by auto. apply H. lia.
  - intros E. split; auto. intros m Hm. rewrite E at 1. rewrite nthZ_map_seq by lia. reflexivity.
Qed.

(* ---- whole operations ---- *)
Lemma J0_spec iv : length iv = 12%nat -> firstn 12 iv ++ be_bytes 4 1 = gcm_J0 iv.
Proof. intros L. rewrite firstn_all2 by lia. reflexivity. Qed.
Lemma J0_shape iv : bytes_ok iv -> length iv = 12%nat -> blk16 (gcm_J0 iv).
Proof.
  intros B L. unfold gcm_J0. split; [|rewrite app_length, L; reflexivity]. apply Forall_app. split; auto.
  repeat (apply Forall_cons; [unfold byte_ok; lia|]). constructor.
Qed.
Lemma gcm_lens_ok a c : Z.of_nat a < 2 ^ 61 -> Z.of_nat c < 2 ^ 61 -> gcm_lens a c = be_bytes 8 (8 * Z.of_nat a) ++ be_bytes 8 (8 * Z.of_nat c).
Proof. intros A C. unfold gcm_lens, u64. rewrite !Z.mod_small by lia. now rewrite !(Z.mul_comm 8). Qed.
Lemma lens_blk a c : bytes_ok (be_bytes 8 a ++ be_bytes 8 c) /\ length (be_bytes 8 a ++ be_bytes 8 c) = 16%nat.
Proof. split; [apply Forall_app; split; apply be_bytes_ok|rewrite app_length, !be_bytes_length; reflexivity]. Qed.

Section Whole.
  Variable E : list Z -> list Z.
  Hypothesis BF : block_cipher E.
  Lemma H_shape : blk16 (E (repeat 0 16)).
  Proof. apply bf_blk; [exact BF|]. split; [apply repeat0_bytes|reflexivity]. Qed.
  Lemma tag_value iv A C : bytes_ok iv -> length iv = 12%nat -> bytes_ok A -> bytes_ok C -> Z.of_nat (length A) < 2 ^ 61 -> Z.of_nat (length C) < 2 ^ 61 ->
    xorb_list (E (gcm_J0 iv)) (galois128_hash1block (hfold (E (repeat 0 16)) (pad16 C) (hfold (E (repeat 0 16)) (pad16 A) (repeat 0 16))) (E (repeat 0 16)) (gcm_lens (length A) (length C)))
    = gcm_T E iv A C.
  Proof.
    intros Biv Liv BA BC HA HC. rewrite gcm_lens_ok by auto. unfold gcm_T.
    set (Ls := be_bytes 8 _ ++ be_bytes 8 _). destruct (lens_blk (8 * Z.of_nat (length A)) (8 * Z.of_nat (length C))) as [BL LL]. fold Ls in BL, LL.
    destruct H_shape as [BH LH].
    rewrite <- hfold_ghash; auto.
    2:{ apply Forall_app; split; [now apply pad16_bytes|]. apply Forall_app; split; [now apply pad16_bytes|exact BL]. }
    rewrite hfold_app, hfold_app by apply pad16_mod.
    set (S0 := hfold _ (pad16 C) _). unfold hfold. rewrite blocks_one by (auto; lia). cbn [fold_left].
    set (S1 := galois128_hash1block _ _ _).
    assert (LS : length S1 = 16%nat) by (unfold S1, galois128_hash1block, galois128_store; cbv zeta; rewrite app_length, !be_bytes_length; reflexivity).
    rewrite gctr_step; auto using J0_shape; [|intros X; rewrite X in LS; discriminate].
    rewrite skipn_all2 by lia. rewrite gctr_nil, app_nil_r, firstn_all2 by lia. apply xorb_list_comm.
  Qed.
  Lemma T_shape iv A C : bytes_ok iv -> length iv = 12%nat -> bytes_ok A -> bytes_ok C -> blk16 (gcm_T E iv A C).
  Proof.
    intros Biv Liv BA BC. unfold gcm_T. set (X := ghash _ _).
    assert (SX : blk16 X).
    { unfold X, ghash. set (bl := blocks 16 _). clearbody bl. induction bl as [|b bl IH] using rev_ind; [split; [apply repeat0_bytes|reflexivity]|].
      rewrite fold_left_app. cbn [fold_left]. apply gf_mul_shape. }
    split; [apply gctr_bytes|rewrite gctr_length]; auto using J0_shape; apply SX.
  Qed.
  Lemma encrypt_spec iv A P t : bytes_ok iv -> length iv = 12%nat -> bytes_ok A -> bytes_ok P ->
    Z.of_nat (length A) < 2 ^ 61 -> Z.of_nat (length P) < 2 ^ 36 - 31 ->
    GCM_Encrypt (GCM_Init E) iv A P t = Some (gcm_C E iv P, octets t (gcm_T E iv A (gcm_C E iv P))).
  Proof.
    intros Biv Liv BA BP HA HP. unfold GCM_Encrypt, gcm_refuse. rewrite Liv, Nat.eqb_refl.
    replace (2 ^ 61 <=? Z.of_nat (length A)) with false by lia. replace (2 ^ 36 - 31 <=? Z.of_nat (length P)) with false by lia. cbn [negb orb].
    cbv zeta. rewrite J0_spec by auto. unfold GCM_Init. rewrite absorb_spec by lia. cbn [gcm_H gcm_enc skipn].
    rewrite enc_loop_spec by (auto using J0_shape; lia). cbn [skipn app]. fold (gcm_C E iv P).
    assert (LC : length (gcm_C E iv P) = length P) by (apply gctr_length; auto using inc32_shape, J0_shape).
    assert (BC : bytes_ok (gcm_C E iv P)) by (apply gctr_bytes; auto using inc32_shape, J0_shape).
    rewrite <- LC at 1. rewrite tag_value by (auto; lia). rewrite tag_octets_spec by (apply T_shape; auto). reflexivity.
  Qed.
  Lemma decrypt_spec iv A C T : bytes_ok iv -> length iv = 12%nat -> bytes_ok A -> bytes_ok C -> bytes_ok T ->
    Z.of_nat (length A) < 2 ^ 61 -> Z.of_nat (length C) < 2 ^ 36 - 31 ->
    (T = octets (length T) (gcm_T E iv A C) -> GCM_Decrypt (GCM_Init E) iv A C T = Some (gctr E (inc32 (gcm_J0 iv)) C)) /\
    (T <> octets (length T) (gcm_T E iv A C) -> GCM_Decrypt (GCM_Init E) iv A C T = None).
  Proof.
    intros Biv Liv BA BC BT HA HC. unfold GCM_Decrypt, gcm_refuse. rewrite Liv, Nat.eqb_refl.
    replace (2 ^ 61 <=? Z.of_nat (length A)) with false by lia. replace (2 ^ 36 - 31 <=? Z.of_nat (length C)) with false by lia. cbn [negb orb].
    cbv zeta. rewrite J0_spec by auto. unfold GCM_Init. rewrite !absorb_spec by lia. cbn [gcm_H gcm_enc skipn].
    rewrite tag_value by (auto; lia).
    pose proof (or_cmp_octets T (gcm_T E iv A C) BT (T_shape iv A C Biv Liv BA BC)) as O.
    rewrite dec_loop_spec by (auto using J0_shape; lia). cbn [skipn app].
    destruct (or_cmp T (gcm_T E iv A C) 0 (length T) 0 =? 0); cbn [negb]; split; intros H; auto.
    - exfalso. apply H. now apply O.
    - exfalso. apply O in H. discriminate.
  Qed.
End Whole.
