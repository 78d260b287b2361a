(** Lemmas: blake3.c's chunks, parents and merging of nodes against the specification's tree. *)
From Coq Require Import Sorted Permutation.
From Verif Require Import Base Blocks HashSpec MdLemmas BlakeSpec Blake2 HashLemmas Blake2Lemmas DerLemmas Blake3Spec Blake3 Blake3Lemmas.

Definition cvok (cv : list Z) : Prop := length cv = 8%nat /\ w32s cv.
Lemma cmp h blk t b d : cvok (firstn 8 h) -> 0 <= t < 2 ^ 64 -> 0 <= b < 2 ^ 32 -> 0 <= d < 2 ^ 32 ->
  blake3_compress h blk t b d = b3_compress (firstn 8 h) blk t b d /\ length (b3_compress (firstn 8 h) blk t b d) = 16%nat /\ w32s (b3_compress (firstn 8 h) blk t b d).
Proof. intros [L W] Ht Hb Hd. rewrite compress_cut. apply compress_eq; assumption. Qed.
Lemma cvok_first h : length h = 16%nat -> w32s h -> cvok (firstn 8 h).
Proof. intros L W. split; [rewrite firstn_length, L; reflexivity|]. apply Forall_forall. intros z Hz. unfold w32s in W. rewrite Forall_forall in W. apply W. rewrite <- (firstn_skipn 8 h). apply in_or_app. now left. Qed.
Lemma first64 data n : (length data <= 64)%nat -> (64 <= n)%nat -> firstn 64 (data ++ repeat 0 (n - length data)) = b3_pad data.
Proof.
  intros L H. unfold b3_pad. rewrite firstn_app, (firstn_all2 data) by lia. f_equal.
  assert (Q : (n - length data)%nat = ((64 - length data) + (n - 64))%nat) by (clear -L H; lia). rewrite Q; clear Q. rewrite repeat_app, firstn_app, repeat_length, Nat.sub_diag, firstn_O, app_nil_r. apply firstn_all2. rewrite repeat_length. lia.
Qed.
Lemma loop_inl nd : forall k t h r, exists h' r', hash_loop k false nd t h r = inl (h', r').
Proof.
  induction k as [|k IH]; intros t h r; [exists h, r; reflexivity|]. cbn [hash_loop]. rewrite andb_false_r.
  destruct (_ =? 0)%nat; [eexists; eexists; reflexivity|apply IH].
Qed.

Section T.
Variables (key : list Z) (kf : Z).
Hypothesis CK : cvok key.
Hypothesis KF : kf = 0 \/ kf = 16.

Definition fin_ok (o : b3_out) (buf : list Z) (t' r' : nat) : Prop :=
  (r' <= 64)%nat /\ (t' <= 15)%nat /\ (r' = 0%nat -> t' = 0%nat) /\ o_len o = Z.of_nat r' /\ o_block o = firstn 64 (skipn (t' * 64) buf) /\ cvok (o_cv o) /\ 0 <= o_flags o < 32.
Lemma blocks_last k cv data t fl st : (length data <= 64)%nat ->
  b3_blocks k cv data t fl st = {| o_cv := cv; o_block := b3_pad data; o_t := t; o_len := Z.of_nat (length data); o_flags := Z.lor (Z.lor fl st) CHUNK_END |}.
Proof. intros L. destruct k; [reflexivity|]. cbn [b3_blocks]. destruct (Nat.leb_spec (length data) 64); [reflexivity|lia]. Qed.
Lemma blocks_next k cv data t fl st : (64 < length data)%nat ->
  b3_blocks (S k) cv data t fl st = b3_blocks k (firstn 8 (b3_compress cv (firstn 64 data) t 64 (Z.lor fl st))) (skipn 64 data) t fl 0.
Proof. intros L. cbn [b3_blocks]. destruct (Nat.leb_spec (length data) 64); [lia|reflexivity]. Qed.
Lemma leaf_loop fin nd : n_height nd = 0%nat -> n_d nd = kf -> 0 <= n_t nd < 2 ^ 64 -> forall k t h data, (t + S k = 16)%nat -> cvok (firstn 8 h) ->
  skipn (t * 64) (n_buf nd) = data ++ repeat 0 (64 * S k - length data) -> (length data <= 64 * S k)%nat -> (data = [] -> t = 0%nat) ->
  let o := b3_blocks (S k) (firstn 8 h) data (n_t nd) kf (if (t =? 0)%nat then 1 else 0) in
  (fin = false -> exists h', hash_loop (S k) fin nd t h (length data) = inl (h', 0%nat) /\ length h' = 16%nat /\ firstn 8 h' = b3_cv o) /\
  (fin = true -> exists t' r', hash_loop (S k) fin nd t h (length data) = inr ((r' + t' * 64)%nat, Z.lor (o_flags o) 8, o_cv o) /\ fin_ok o (n_buf nd) t' r').
Proof.
  intros H0 Hd Ht. induction k as [|k IH]; intros t h data Hk Ch Sk Ld Nd.
  - assert (L64 : (length data <= 64)%nat) by lia. cbv zeta. rewrite blocks_last by exact L64. cbn [hash_loop]. rewrite H0, Hd, andb_true_r. change (0 <? 0)%nat with false. change (0 =? 0)%nat with true. cbv iota. rewrite andb_true_r.
    destruct (Nat.leb_spec (length data) 64) as [Q|Q]; [clear Q|lia]. rewrite andb_true_l.
    assert (EB : (if (length data <? 64)%nat then length data else 64%nat) = length data) by (destruct (Nat.ltb_spec (length data) 64); lia). rewrite EB.
    assert (ED : Z.lor (if (t =? 0)%nat then Z.lor kf 1 else kf) 2 = Z.lor (Z.lor kf (if (t =? 0)%nat then 1 else 0)) CHUNK_END) by (destruct (t =? 0)%nat; [reflexivity|now rewrite Z.lor_0_r]). rewrite ED.
    set (d := Z.lor _ CHUNK_END).
    assert (D : 0 <= d < 32) by (unfold d; destruct KF as [-> | ->]; destruct (t =? 0)%nat; vm_compute; split; congruence). clearbody d.
    assert (BL : firstn 64 (skipn (t * 64) (n_buf nd)) = b3_pad data) by (rewrite Sk; apply first64; lia).
    split; intros ->.
    + rewrite Nat.sub_diag. cbn [Nat.eqb]. rewrite BL. destruct (cmp h (b3_pad data) (n_t nd) (Z.of_nat (length data)) d Ch Ht ltac:(lia) ltac:(lia)) as [E [L W]].
      rewrite E. eexists. split; [reflexivity|]. split; [exact L|]. reflexivity.
    + exists t, (length data). split; [reflexivity|]. unfold fin_ok. cbn [o_len o_block o_cv o_flags]. rewrite BL. split; [lia|]. split; [lia|]. split; [|split; [reflexivity|split; [reflexivity|split; [exact Ch|exact D]]]].
      intros Z. apply Nd. now apply length_zero_iff_nil.
  - destruct (Nat.le_gt_cases (length data) 64) as [L64|G64].
    + cbv zeta. rewrite blocks_last by exact L64. cbn [hash_loop]. rewrite H0, Hd, andb_true_r. change (0 <? 0)%nat with false. change (0 =? 0)%nat with true. cbv iota. rewrite andb_true_r.
      destruct (Nat.leb_spec (length data) 64) as [Q|Q]; [clear Q|lia]. rewrite andb_true_l.
      assert (EB : (if (length data <? 64)%nat then length data else 64%nat) = length data) by (destruct (Nat.ltb_spec (length data) 64); lia). rewrite EB.
      assert (ED : Z.lor (if (t =? 0)%nat then Z.lor kf 1 else kf) 2 = Z.lor (Z.lor kf (if (t =? 0)%nat then 1 else 0)) CHUNK_END) by (destruct (t =? 0)%nat; [reflexivity|now rewrite Z.lor_0_r]). rewrite ED.
      set (d := Z.lor _ CHUNK_END).
      assert (D : 0 <= d < 32) by (unfold d; destruct KF as [-> | ->]; destruct (t =? 0)%nat; vm_compute; split; congruence). clearbody d.
      assert (BL : firstn 64 (skipn (t * 64) (n_buf nd)) = b3_pad data) by (rewrite Sk; apply first64; lia).
      split; intros ->.
      * rewrite Nat.sub_diag. cbn [Nat.eqb]. rewrite BL. destruct (cmp h (b3_pad data) (n_t nd) (Z.of_nat (length data)) d Ch Ht ltac:(lia) ltac:(lia)) as [E [L W]].
        rewrite E. eexists. split; [reflexivity|]. split; [exact L|]. reflexivity.
      * exists t, (length data). split; [reflexivity|]. unfold fin_ok. cbn [o_len o_block o_cv o_flags]. rewrite BL. split; [lia|]. split; [lia|]. split; [|split; [reflexivity|split; [reflexivity|split; [exact Ch|exact D]]]].
        intros Z. apply Nd. now apply length_zero_iff_nil.
    + cbv zeta. rewrite blocks_next by exact G64.
      set (st := if (t =? 0)%nat then 1 else 0).
      assert (D : 0 <= Z.lor kf st < 32) by (unfold st; destruct KF as [-> | ->]; destruct (t =? 0)%nat; vm_compute; split; congruence).
      assert (HL : forall r, (64 < r)%nat -> hash_loop (S (S k)) fin nd t h r = hash_loop (S k) fin nd (S t) (blake3_compress h (firstn 64 (skipn (t * 64) (n_buf nd))) (n_t nd) 64 (Z.lor kf st)) (r - 64)).
      { intros r Hr. cbn [hash_loop]. rewrite H0, Hd. change (0 <? 0)%nat with false. change (0 =? 0)%nat with true. cbv iota. rewrite !andb_true_r.
        destruct (Nat.leb_spec r 64) as [Q|Q]; [lia|]. rewrite !andb_false_l. destruct (Nat.ltb_spec r 64) as [Q2|Q2]; [lia|]. destruct (Nat.eqb_spec (r - 64) 0) as [Q3|Q3]; [lia|].
        assert (ED : (if (t =? 0)%nat then Z.lor kf 1 else kf) = Z.lor kf st) by (unfold st; destruct (t =? 0)%nat; [reflexivity|now rewrite Z.lor_0_r]). rewrite ED. reflexivity. }
      rewrite HL by exact G64.
      assert (BL : firstn 64 (skipn (t * 64) (n_buf nd)) = firstn 64 data) by (rewrite Sk, firstn_app; replace (64 - length data)%nat with 0%nat by lia; rewrite firstn_O; apply app_nil_r).
      rewrite BL. destruct (cmp h (firstn 64 data) (n_t nd) 64 (Z.lor kf st) Ch Ht ltac:(lia) ltac:(lia)) as [E [L W]]. rewrite E. set (h2 := b3_compress _ _ _ _ _) in *. clearbody h2.
      assert (LS : (length data - 64)%nat = length (skipn 64 data)) by (rewrite skipn_length; reflexivity). rewrite LS.
      apply (IH (S t) h2 (skipn 64 data)).
      * lia.
      * apply cvok_first; assumption.
      * replace (S t * 64)%nat with (t * 64 + 64)%nat by lia. rewrite <- skipn_skipn', Sk, skipn_app. rewrite <- LS. replace (64 - length data)%nat with 0%nat by lia. rewrite skipn_O. f_equal. f_equal. lia.
      * rewrite <- LS. lia.
      * intros Z. rewrite Z in LS. cbn in LS. lia.
Qed.
Lemma parent_loop fin nd k : (0 < n_height nd)%nat -> n_d nd = kf -> n_t nd = 0 ->
  hash_loop (S k) fin nd 0 key 64 = if fin then inr (64%nat, Z.lor (Z.lor kf 4) 8, key) else inl (b3_compress key (firstn 64 (n_buf nd)) 0 64 (Z.lor kf 4), 0%nat).
Proof.
  intros H0 Hd Ht. cbn [hash_loop]. destruct (Nat.eqb_spec (n_height nd) 0) as [Q|Q]; [lia|]. destruct (Nat.ltb_spec 0 (n_height nd)) as [Q2|Q2]; [|lia].
  rewrite Hd. change (64 <? 64)%nat with false. change (64 <=? 64)%nat with true. change (0 =? 0)%nat with true. cbn [andb]. cbv iota.
  assert (K8 : firstn 8 key = key) by (apply firstn_all2; destruct CK as [L _]; lia).
  destruct fin; [rewrite K8; reflexivity|]. change (0 * 64)%nat with 0%nat. rewrite skipn_O. rewrite Nat.sub_diag. cbn [Nat.eqb]. rewrite Ht.
  assert (D : 0 <= Z.lor kf 4 < 32) by (destruct KF as [-> | ->]; vm_compute; split; congruence). assert (Ch : cvok (firstn 8 key)) by (rewrite K8; exact CK).
  destruct (cmp key (firstn 64 (n_buf nd)) 0 64 (Z.lor kf 4) Ch ltac:(lia) ltac:(lia) ltac:(lia)) as [E _]. change (Z.of_nat 64) with 64. rewrite E, K8. reflexivity.
Qed.

(** * The tree *)
Lemma log2_split n : (2 <= n)%nat -> (1 <= 2 ^ Nat.log2 (n - 1) <= n - 1)%nat.
Proof. intros H. destruct (Nat.log2_spec (n - 1)) as [A _]; [lia|]. assert (2 ^ Nat.log2 (n - 1) <> 0)%nat by (apply Nat.pow_nonzero; lia). lia. Qed.
Lemma tree_fuel : forall f1 f2 t cs, (length cs <= f1)%nat -> (length cs <= f2)%nat -> b3_tree f1 key kf t cs = b3_tree f2 key kf t cs.
Proof.
  induction f1 as [|f1 IH]; intros f2 t cs H1 H2.
  - destruct cs; [|cbn in H1; lia]. destruct f2; reflexivity.
  - destruct f2 as [|f2]; [destruct cs; [reflexivity|cbn in H2; lia]|]. destruct cs as [|c1 [|c2 cs]]; try reflexivity.
    cbn [b3_tree]. set (l := c1 :: c2 :: cs) in *. pose proof (log2_split (length l) ltac:(cbn; lia)) as Q. set (k := (2 ^ _)%nat) in *. clearbody k.
    rewrite (IH f2 t (firstn k l)), (IH f2 (t + k)%nat (skipn k l)); [reflexivity|..]; rewrite ?firstn_length, ?skipn_length; lia.
Qed.
Definition tree (lo : nat) (cs : list (list Z)) : b3_out := b3_tree (length cs) key kf lo cs.
Lemma tree_one lo c : tree lo [c] = b3_chunk key kf (Z.of_nat lo) c.
Proof. reflexivity. Qed.
Lemma tree_join lo c1 c2 h : length c1 = (2 ^ h)%nat -> (0 < length c2 <= 2 ^ h)%nat ->
  tree lo (c1 ++ c2) = b3_parent key kf (b3_cv (tree lo c1)) (b3_cv (tree (lo + length c1) c2)).
Proof.
  intros L1 L2. unfold tree. assert (P : (2 ^ h <> 0)%nat) by (apply Nat.pow_nonzero; lia).
  assert (LL : length (c1 ++ c2) = (length c1 + length c2)%nat) by apply app_length.
  assert (LG : Nat.log2 (length (c1 ++ c2) - 1) = h). { apply Nat.log2_unique; [lia|]. rewrite LL, Nat.pow_succ_r'. lia. }
  assert (FU : exists f, length (c1 ++ c2) = S f /\ (length c1 <= f)%nat /\ (length c2 <= f)%nat) by (exists (length (c1 ++ c2) - 1)%nat; lia).
  destruct FU as [f [Ef [F1 F2]]]. 
  assert (TW : exists a b l, c1 ++ c2 = a :: b :: l). { destruct (c1 ++ c2) as [|a [|b l]] eqn:E; [cbn in LL; lia|cbn in LL; lia|eauto]. }
  destruct TW as [a [b [l TW]]].
  assert (U : b3_tree (S f) key kf lo (c1 ++ c2) = b3_parent key kf (b3_cv (b3_tree f key kf lo (firstn (2 ^ h) (c1 ++ c2)))) (b3_cv (b3_tree f key kf (lo + 2 ^ h) (skipn (2 ^ h) (c1 ++ c2))))).
  { rewrite TW. cbn [b3_tree]. rewrite <- TW, LG. reflexivity. }
  rewrite Ef, U. rewrite <- L1. rewrite firstn_app, Nat.sub_diag, firstn_O, app_nil_r, firstn_all. rewrite skipn_app, Nat.sub_diag, skipn_O, skipn_all. cbn [app].
  rewrite (tree_fuel f (length c1)), (tree_fuel f (length c2)) by lia. reflexivity.
Qed.
End T.
