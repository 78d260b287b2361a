(** Lemmas: blake3.c's compression function, chunks and parents against the specification. *)
From Coq Require Import Sorted Permutation.
From Verif Require Import Base HashSpec MdLemmas BlakeSpec Blake2 HashLemmas Blake2Lemmas DerLemmas Blake3Spec Blake3.

(** * The compression function *)
Definition w32s (l : list Z) : Prop := Forall (wd 32) l.
Lemma round_ext G m m' v : (forall i, (i < 16)%nat -> m i = m' i) -> blake_round G m v = blake_round G m' v.
Proof. intros H. unfold blake_round. rewrite !H by lia. reflexivity. Qed.
Definition lut_next (lut : list nat) : list nat := map (fun j => nth (nth j lut 0%nat) b3_tab 0%nat) (seq 0 16).
Definition lutk (j : nat) : list nat := Nat.iter j lut_next (seq 0 16).
Definition pick (mw : list Z) (lut : list nat) : list Z := map (fun j => nthZ j mw) lut.
Lemma permute_lut mw j : (j < 7)%nat -> b3_permute (pick mw (lutk j)) = pick mw (lutk (S j)).
Proof. intros H. do 7 (destruct j as [|j]; [vm_compute; reflexivity|]). lia. Qed.
Lemma lutk_length j : length (lutk j) = 16%nat.
Proof. destruct j; [reflexivity|]. change (lutk (S j)) with (lut_next (lutk j)). unfold lut_next. now rewrite map_length, seq_length. Qed.
Lemma nth_pick mw lut i : (i < length lut)%nat -> nthZ i (pick mw lut) = nthZ (nth i lut 0%nat) mw.
Proof. intros H. unfold pick, nthZ at 1. rewrite (nth_indep _ 0 (nthZ 0 mw)) by (rewrite map_length; lia). now rewrite (map_nth (fun j => nthZ j mw)). Qed.
Lemma iter_r (A : Type) (f : A -> A) k x : Nat.iter (S k) f x = Nat.iter k f (f x).
Proof. induction k as [|k IH]; [reflexivity|]. change (f (Nat.iter (S k) f x) = f (Nat.iter k f (f x))). now rewrite IH. Qed.
Lemma lutk_S j : lutk (S j) = map (fun j0 => nth (nth j0 (lutk j) 0%nat) b3_tab 0%nat) (seq 0 16).
Proof. reflexivity. Qed.
Lemma round_step mw v j : st16 32 v -> b3_round mw (v, lutk j) = (b3_rnd (pick mw (lutk j)) v, lutk (S j)) /\ st16 32 (b3_rnd (pick mw (lutk j)) v).
Proof.
  intros Hv. destruct (inner_round 32 16 12 8 7 v mw (lutk j)) as [E S1]; [unfold rot_ok; lia|exact Hv|].
  assert (RE : b3_rnd (pick mw (lutk j)) v = blake_round (blake_G 32 16 12 8 7) (fun i => nthZ (nth i (lutk j) 0%nat) mw) v).
  { unfold b3_rnd. apply round_ext. intros i Hi. apply nth_pick. rewrite lutk_length. exact Hi. }
  rewrite lutk_S, RE. split; [|exact S1]. unfold b3_round. unfold qround_word. rewrite E. reflexivity.
Qed.
Lemma b3_iter_S P R k m v : b3_iter P R (S k) m v = b3_iter P R k (P m) (R m v).
Proof. reflexivity. Qed.
Lemma rounds_eq mw : forall k j v, (j + k <= 7)%nat -> st16 32 v ->
  fst (Nat.iter k (b3_round mw) (v, lutk j)) = b3_rounds k (pick mw (lutk j)) v /\ st16 32 (b3_rounds k (pick mw (lutk j)) v).
Proof.
  induction k as [|k IH]; intros j v Hj Hv; [split; [reflexivity|exact Hv]|]. unfold b3_rounds. rewrite iter_r, b3_iter_S.
  destruct (round_step mw v j Hv) as [E S1]. rewrite E, permute_lut by lia. apply IH; [lia|exact S1].
Qed.
Lemma words_le_ok blk : bytes_ok blk -> w32s (words_le 4 blk).
Proof.
  intros B. unfold words_le. apply Forall_map. apply Forall_forall. intros i _. unfold wd.
  pose proof (le_val_bound (firstn 4 (skipn (4 * i) blk))) as Q. assert (F : bytes_ok (firstn 4 (skipn (4 * i) blk))) by (apply Forall_firstn, Forall_skipn; exact B).
  specialize (Q F). assert (L : (length (firstn 4 (skipn (4 * i) blk)) <= 4)%nat) by (rewrite firstn_length; lia).
  assert (2 ^ (8 * Z.of_nat (length (firstn 4 (skipn (4 * i) blk)))) <= 2 ^ 32) by (apply Z.pow_le_mono_r; lia). lia.
Qed.
Lemma compress_eq h blk t b d : length h = 8%nat -> w32s h -> 0 <= t < 2 ^ 64 -> 0 <= b < 2 ^ 32 -> 0 <= d < 2 ^ 32 ->
  blake3_compress h blk t b d = b3_compress h blk t b d /\ length (b3_compress h blk t b d) = 16%nat /\ w32s (b3_compress h blk t b d).
Proof.
  intros Lh Wh Ht Hb Hd. unfold blake3_compress, b3_compress. rewrite map_nth8 by exact Lh.
  assert (E1 : u32 t = t mod 2 ^ 32) by reflexivity.
  assert (E2 : u32 (Z.shiftr t 32) = t / 2 ^ 32). { unfold u32. rewrite Z.shiftr_div_pow2 by lia. apply Z.mod_small. split; [apply Z.div_pos; lia|]. apply Z.div_lt_upper_bound; lia. }
  change (firstn 4 blake_IV) with (firstn 4 B3_IV). rewrite E1, E2. set (v0 := h ++ _).
  assert (S0 : st16 32 v0).
  { split; [unfold v0; rewrite app_length, Lh; reflexivity|]. unfold v0. apply Forall_app. split; [exact Wh|].
    apply Forall_app. split; [repeat (apply Forall_cons; [unfold wd; cbn; lia|]); apply Forall_nil|].
    apply Forall_cons; [apply mod_wd; lia|]. apply Forall_cons; [split; [apply Z.div_pos; lia|apply Z.div_lt_upper_bound; lia]|]. repeat (apply Forall_cons; [unfold wd; lia|]). apply Forall_nil. }
  destruct (rounds_eq (words_le 4 blk) 7 0 v0 ltac:(lia) S0) as [R1 R2].
  change (lutk 0) with (seq 0 16) in *. change (msg_words 4 blk) with (words_le 4 blk).
  assert (PK : pick (words_le 4 blk) (seq 0 16) = words_le 4 blk). { unfold pick. generalize (words_le 4 blk) (eq_refl : length (words_le 4 blk) = 16%nat). intros l L. do 16 (destruct l as [|? l]; [discriminate L|]). destruct l; [reflexivity|discriminate L]. }
  rewrite PK in *. rewrite R1. set (v := b3_rounds 7 _ v0) in *. destruct R2 as [Lv Wv].
  assert (X : forall a c, wd 32 a -> wd 32 c -> wd 32 (Z.lxor a c)).
  { intros a c [A0 A1] [C0 C1]. split; [apply Z.lxor_nonneg; split; lia|].
    destruct (Z_lt_le_dec (Z.lxor a c) (2 ^ 32)) as [Y|Y]; [exact Y|exfalso].
    assert (LB : forall z, 0 <= z < 2 ^ 32 -> Z.log2 z < 32). { intros z Hz. destruct (Z.eq_dec z 0) as [->|N]; [cbn; lia|apply Z.log2_lt_pow2; lia]. }
    pose proof (Z.log2_lxor a c A0 C0) as Q. pose proof (LB a (conj A0 A1)). pose proof (LB c (conj C0 C1)). apply Z.log2_le_pow2 in Y; lia. }
  split; [|split].
  - f_equal. apply map_ext. intros i. apply Z.lxor_comm.
  - reflexivity.
  - apply Forall_app. split; apply Forall_map, Forall_forall; intros i _; apply X; apply nth_wd; (lia || assumption).
Qed.
Lemma compress_cut h blk t b d : blake3_compress h blk t b d = blake3_compress (firstn 8 h) blk t b d.
Proof.
  unfold blake3_compress. assert (E : forall i, (i < 8)%nat -> nthZ i (firstn 8 h) = nthZ i h) by (intros i Hi; apply nth_firstn_lt; exact Hi).
  assert (M : map (fun i => nthZ i (firstn 8 h)) (seq 0 8) = map (fun i => nthZ i h) (seq 0 8)) by (apply map_ext_in; intros i Hi; apply in_seq in Hi; apply E; lia).
  rewrite M. f_equal. apply map_ext_in. intros i Hi. apply in_seq in Hi. now rewrite E by lia.
Qed.
