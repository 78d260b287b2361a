(** Cutting octet strings into blocks: general lemmas. *)
From Verif Require Import Base HashSpec.

Lemma skipn_app_exact {A} n (l1 l2 : list A) : length l1 = n -> skipn n (l1 ++ l2) = l2.
Proof. intros <-. rewrite skipn_app, skipn_all, Nat.sub_diag. reflexivity. Qed.
Lemma firstn_app_exact {A} n (l1 l2 : list A) : length l1 = n -> firstn n (l1 ++ l2) = l1.
Proof. intros <-. rewrite firstn_app, firstn_all, Nat.sub_diag. cbn. apply app_nil_r. Qed.
Lemma skipn_skipn' {A} n m (l : list A) : skipn n (skipn m l) = skipn (m + n) l.
Proof. revert l; induction m as [|m IH]; intros [|h t]; cbn; auto. now rewrite skipn_nil. Qed.

Lemma seq_offset q n : seq q n = map (fun i => (q + i)%nat) (seq 0 n).
Proof. induction n as [|n IH]; auto. rewrite !seq_S, map_app, <- IH. reflexivity. Qed.

Lemma blocks_app B m1 m2 : (0 < B)%nat -> (length m1 mod B = 0)%nat ->
  blocks B (m1 ++ m2) = blocks B m1 ++ blocks B m2.
Proof.
  intros HB H1. unfold blocks. rewrite app_length.
  pose proof (Nat.div_mod (length m1) B ltac:(lia)) as D1. rewrite H1, Nat.add_0_r in D1.
  set (q := (length m1 / B)%nat) in *.
  assert (DQ : ((length m1 + length m2) / B = q + length m2 / B)%nat).
  { rewrite D1, Nat.add_comm, Nat.mul_comm, Nat.div_add by lia. lia. }
  rewrite DQ, seq_app, map_app. f_equal.
  - apply map_ext_in. intros i Hi. apply in_seq in Hi. unfold block.
    rewrite skipn_app. rewrite firstn_app.
    replace (B - length (skipn (B * i) m1))%nat with 0%nat; [cbn; apply app_nil_r|].
    rewrite skipn_length. enough (B * i + B <= length m1)%nat by lia. rewrite D1. nia.
  - replace (seq (0 + q) (length m2 / B)) with (map (fun i => (q + i)%nat) (seq 0 (length m2 / B))).
    2:{ rewrite Nat.add_0_l. symmetry. apply seq_offset. }
    rewrite map_map. apply map_ext_in. intros i _. unfold block.
    rewrite skipn_app, skipn_all2 by nia. cbn [app]. f_equal. f_equal. rewrite D1. nia.
Qed.

Lemma blocks_nil B : blocks B [] = [].
Proof. unfold blocks. destruct B; cbn [length]; [reflexivity|]. now rewrite Nat.div_0_l. Qed.

Lemma blocks_short B m : (length m < B)%nat -> blocks B m = [].
Proof. intros H. unfold blocks. now rewrite Nat.div_small. Qed.

Lemma blocks_one B m : (0 < B)%nat -> length m = B -> blocks B m = [m].
Proof.
  intros HB H. unfold blocks. rewrite H, Nat.div_same by lia. cbn [seq map]. unfold block.
  rewrite Nat.mul_0_r. cbn [skipn]. rewrite firstn_all2; auto. lia.
Qed.

Lemma blocks_snoc B m b : (0 < B)%nat -> (length m mod B = 0)%nat -> length b = B ->
  blocks B (m ++ b) = blocks B m ++ [b].
Proof. intros HB H1 H2. rewrite blocks_app by auto. f_equal. now apply blocks_one. Qed.

Lemma blocks_concat B m : (0 < B)%nat -> (length m mod B = 0)%nat -> concat (blocks B m) = m.
Proof.
  intros HB. remember (length m / B)%nat as q. revert m Heqq. induction q as [|q IH]; intros m Hq Hm.
  - pose proof (Nat.div_mod (length m) B ltac:(lia)). destruct m; [now rewrite blocks_nil|cbn [length] in *; lia].
  - pose proof (Nat.div_mod (length m) B ltac:(lia)) as D.
    assert (L : (B <= length m)%nat) by nia.
    rewrite <- (firstn_skipn B m) at 1.
    assert (LF : length (firstn B m) = B) by (rewrite firstn_length; lia).
    assert (LS : length (skipn B m) = (B * q)%nat) by (rewrite skipn_length; nia).
    rewrite blocks_app; [|auto|rewrite LF; apply Nat.mod_same; lia].
    rewrite concat_app, (blocks_one B (firstn B m)) by auto. cbn [concat]. rewrite app_nil_r.
    rewrite IH; [apply firstn_skipn| |].
    + rewrite LS, Nat.mul_comm, Nat.div_mul; lia.
    + rewrite LS, Nat.mul_comm. apply Nat.mod_mul. lia.
Qed.

Lemma blocks_Forall B m (P : list Z -> Prop) : (0 < B)%nat ->
  (forall i, ((i + 1) * B <= length m)%nat -> P (block B m i)) -> Forall P (blocks B m).
Proof.
  intros HB H. apply Forall_forall. intros x Hx. unfold blocks in Hx. apply in_map_iff in Hx.
  destruct Hx as (i & <- & Hi). apply in_seq in Hi. apply H.
  pose proof (Nat.div_mod (length m) B ltac:(lia)). nia.
Qed.

Lemma block_length B m i : ((i + 1) * B <= length m)%nat -> length (block B m i) = B.
Proof. intros H. unfold block. rewrite firstn_length, skipn_length. nia. Qed.

Lemma block_bytes B m i : bytes_ok m -> bytes_ok (block B m i).
Proof. intros H. unfold block. now apply Forall_firstn, Forall_skipn. Qed.

Lemma blocks_bytes B m : (0 < B)%nat -> bytes_ok m -> Forall (fun b => length b = B /\ bytes_ok b) (blocks B m).
Proof.
  intros HB H. apply blocks_Forall; auto. intros i Hi. split; [now apply block_length|now apply block_bytes].
Qed.

(** The complete-block prefix and the remainder of a message. *)
Definition full (B : nat) (m : list Z) : list Z := firstn (B * (length m / B)) m.
Definition part (B : nat) (m : list Z) : list Z := skipn (B * (length m / B)) m.

Lemma full_part B m : full B m ++ part B m = m.
Proof. apply firstn_skipn. Qed.
Lemma full_length B m : (0 < B)%nat -> length (full B m) = (B * (length m / B))%nat.
Proof. intros HB. unfold full. rewrite firstn_length. pose proof (Nat.div_mod (length m) B ltac:(lia)). lia. Qed.
Lemma full_mod B m : (0 < B)%nat -> (length (full B m) mod B = 0)%nat.
Proof. intros HB. rewrite full_length, Nat.mul_comm by auto. apply Nat.mod_mul. lia. Qed.
Lemma part_length B m : (0 < B)%nat -> length (part B m) = (length m mod B)%nat.
Proof. intros HB. unfold part. rewrite skipn_length. pose proof (Nat.div_mod (length m) B ltac:(lia)). lia. Qed.

Lemma blocks_full B m : (0 < B)%nat -> blocks B m = blocks B (full B m).
Proof.
  intros HB. rewrite <- (full_part B m) at 1. rewrite blocks_app by (auto using full_mod).
  rewrite (blocks_short B (part B m)); [apply app_nil_r|].
  rewrite part_length by auto. apply Nat.mod_upper_bound. lia.
Qed.

Lemma div_snoc B n : (0 < B)%nat ->
  (S n / B = if Nat.eqb (S (n mod B)) B then S (n / B) else n / B)%nat /\
  (S n mod B = if Nat.eqb (S (n mod B)) B then 0 else S (n mod B))%nat.
Proof.
  intros HB. pose proof (Nat.div_mod n B ltac:(lia)) as D. pose proof (Nat.mod_upper_bound n B ltac:(lia)) as U.
  destruct (Nat.eqb_spec (S (n mod B)) B) as [E|E].
  - split; [symmetry; apply Nat.div_unique with (r := 0%nat)|symmetry; apply Nat.mod_unique with (q := S (n / B)%nat)]; nia.
  - split; [symmetry; apply Nat.div_unique with (r := S (n mod B)%nat)|symmetry; apply Nat.mod_unique with (q := (n / B)%nat)]; nia.
Qed.

(** Appending one octet. *)
Lemma full_snoc B m b : (0 < B)%nat ->
  (S (length m mod B) = B -> full B (m ++ [b]) = full B m ++ (part B m ++ [b]) /\ part B (m ++ [b]) = []) /\
  (S (length m mod B) <> B -> full B (m ++ [b]) = full B m /\ part B (m ++ [b]) = part B m ++ [b]).
Proof.
  intros HB. destruct (div_snoc B (length m) HB) as [D M].
  assert (L : length (m ++ [b]) = S (length m)) by (rewrite app_length; cbn; lia).
  pose proof (Nat.div_mod (length m) B ltac:(lia)) as DM.
  pose proof (Nat.mod_upper_bound (length m) B ltac:(lia)) as UB.
  split; intros H.
  - assert (E : (S (length m) / B = S (length m / B))%nat) by (rewrite D, H, Nat.eqb_refl; reflexivity).
    assert (A : (B * S (length m / B) = length (m ++ [b]))%nat) by nia.
    unfold full at 1. unfold part at 2. rewrite L, E, A, firstn_all, skipn_all. split; auto.
    rewrite app_assoc, full_part. reflexivity.
  - assert (E : (S (length m) / B = length m / B)%nat) by (rewrite D; apply Nat.eqb_neq in H; now rewrite H).
    unfold full, part. rewrite L, E. rewrite firstn_app, skipn_app.
    replace (B * (length m / B) - length m)%nat with 0%nat by lia. cbn [firstn skipn]. now rewrite app_nil_r.
Qed.

(** Fold correspondence over a range of round numbers. *)
Lemma fold_seq_inv {S1 S2} (R : nat -> S1 -> S2 -> Prop) (f : S1 -> nat -> S1) (g : S2 -> nat -> S2) n :
  forall a s1 s2, R a s1 s2 ->
  (forall t x y, (a <= t < a + n)%nat -> R t x y -> R (S t) (f x t) (g y t)) ->
  R (a + n)%nat (fold_left f (seq a n) s1) (fold_left g (seq a n) s2).
Proof.
  induction n as [|n IH]; intros a s1 s2 H0 Hs.
  - now rewrite Nat.add_0_r.
  - cbn [seq fold_left]. rewrite <- Nat.add_succ_comm. apply IH.
    + apply Hs; [lia|auto].
    + intros t x y Ht. apply Hs. lia.
Qed.
